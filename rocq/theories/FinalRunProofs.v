(* The reported tables of a run in terms of the entries of the starting hands. *)
From Verif Require Import Base BaseProofs SumFacts Ghost Float64 Hand FastDivide Range Combined Sim SpecPoker ListFacts
  PokerFacts HandProofs HandExprProofs SpecNames SpecHand SpecRange SpecEquity SpecResults SpecRun SpecFinal IndexProofs EvalProofs EnumProofs ShowdownProofs BoardProofs CombinedProofs SetupProofs DrawProofs WeightProofs FinalProofs
  ExactProofs ResultProofs RunProofs ConsistProofs CombineRunProofs.
Local Open Scope N_scope.
#[local] Opaque NUM_HANDS.

(* ------------------------------------------------------------------------- *)
(** * Sums *)

Lemma sum_of_app {A} (f : A -> N) l l' : sum_of f (l ++ l') = sum_of f l + sum_of f l'.
Proof. unfold sum_of. induction l as [|x l IH]; cbn [app fold_right]; [reflexivity|]. rewrite IH. lia. Qed.
Lemma sum_of_map {A B} (f : B -> N) (g : A -> B) l : sum_of f (map g l) = sum_of (fun x => f (g x)) l.
Proof. unfold sum_of. induction l as [|x l IH]; cbn [map fold_right]; [reflexivity|]. rewrite IH. reflexivity. Qed.
Lemma sum_of_le {A} (f g : A -> N) l : (forall x, In x l -> f x <= g x) -> sum_of f l <= sum_of g l.
Proof.
  unfold sum_of. induction l as [|x l IH]; intros H; cbn [fold_right]; [lia|].
  pose proof (H x (or_introl eq_refl)). specialize (IH (fun y Hy => H y (or_intror Hy))). lia.
Qed.
Lemma filter_map {A B} (f : B -> bool) (g : A -> B) l : filter f (map g l) = map g (filter (fun x => f (g x)) l).
Proof. induction l as [|x l IH]; [reflexivity|]. cbn [map filter]. destruct (f (g x)); cbn [map]; rewrite IH; reflexivity. Qed.
Lemma filter_snoc {A} (f : A -> bool) l x : filter f (l ++ [x]) = filter f l ++ (if f x then [x] else []).
Proof. rewrite filter_app. cbn [filter]. destruct (f x); reflexivity. Qed.

Lemma fin_sums us : let a := fold_left fin_add us fin0 in let s := filter dealt_hand us in
  f_counter a = length s /\ f_weight a = sum_of u_weight s /\ f_wins a = sum_of u_wins s /\ f_ties a = sum_of u_ties s /\ f_total a = sum_of u_total s.
Proof.
  cbv zeta. induction us as [|u us IH] using rev_ind; [repeat split|]. rewrite fold_left_app, filter_snoc. cbn [fold_left].
  destruct IH as (H1 & H2 & H3 & H4 & H5). unfold fin_add at 1 3 5 7 9. change (u_valid u && (0 <? u_total u)) with (dealt_hand u).
  destruct (dealt_hand u); cbn [f_counter f_weight f_wins f_ties f_total]; rewrite ?app_nil_r, ?app_length, ?sum_of_app, ?H1, ?H2, ?H3, ?H4, ?H5; cbn [length sum_of fold_right]; repeat split; lia.
Qed.
Lemma tally_sums sel us : let b := tally sel us in let s := filter sel us in
  bg_wins b = sum_of u_wins s /\ bg_ties b = sum_of u_ties s /\ bg_total b = sum_of u_total s /\ bg_weight b = sum_of u_weight s.
Proof.
  cbv zeta. unfold tally. induction us as [|u us IH] using rev_ind; [repeat split|]. rewrite fold_left_app, filter_snoc. cbn [fold_left].
  destruct IH as (H1 & H2 & H3 & H4).
  destruct (sel u); cbn [big_plus bg_wins bg_ties bg_total bg_weight]; rewrite ?app_nil_r, ?sum_of_app, ?H1, ?H2, ?H3, ?H4; cbn [sum_of fold_right]; repeat split; lia.
Qed.

Lemma scaled_bound total x : x <= total -> scaled total x < 2 ^ 64.
Proof.
  intros H. unfold scaled. destruct (N.ltb_spec total (2 ^ 64)) as [Ht|Ht]; [lia|].
  pose proof (N.mul_succ_div_gt total (2 ^ 64 - 1) ltac:(discriminate)) as Hm. revert Hm. generalize (total / (2 ^ 64 - 1)). intros q Hm.
  apply N.div_lt_upper_bound; lia.
Qed.
Lemma ratio_over total x : U64MAX <? total = true -> x / (total / U64MAX + 1) = scaled total x.
Proof. intros H. unfold scaled. apply N.ltb_lt in H. change U64MAX with (2 ^ 64 - 1) in *. destruct (N.ltb_spec total (2 ^ 64)); [lia|reflexivity]. Qed.
Lemma ratio_under total x : U64MAX <? total = false -> x = scaled total x.
Proof. intros H. unfold scaled. apply N.ltb_ge in H. change U64MAX with (2 ^ 64 - 1) in H. destruct (N.ltb_spec total (2 ^ 64)); [reflexivity|lia]. Qed.
Lemma trunc_scaled total x : x <= total -> trunc 64 (scaled total x) = scaled total x.
Proof. intros H. unfold trunc. apply N.mod_small. apply scaled_bound. exact H. Qed.

Lemma trunc_under total x : U64MAX <? total = false -> x <= total -> trunc 64 x = scaled total x.
Proof. intros H Hx. rewrite (ratio_under total x H) at 1. apply trunc_scaled. exact Hx. Qed.

(* ------------------------------------------------------------------------- *)
(** * Preflop combinations *)

Lemma combo_fields len a : f_wins a <= f_total a -> f_ties a <= f_total a -> (f_counter a = 0%nat -> f_total a = 0) ->
  let u := final_combo len a in
  u_wins u = scaled (f_total a) (f_wins a) /\ u_ties u = scaled (f_total a) (f_ties a) /\ u_total u = scaled (f_total a) (f_total a) /\
  u_valid u = (0 <? f_counter a)%nat /\ u_weight u = (if (0 <? f_counter a)%nat then f_weight a / N.of_nat len else 0).
Proof.
  intros Hw Ht H0. cbv zeta. unfold final_combo. destruct (Nat.ltb_spec 0 (f_counter a)) as [Hc|Hc].
  - cbn [u_wins u_ties u_total u_valid u_weight]. destruct (U64MAX <? f_total a) eqn:E.
    + rewrite !ratio_over by exact E. rewrite !trunc_scaled by (assumption || lia). auto.
    + rewrite !(trunc_under (f_total a)) by (assumption || lia). auto.
  - specialize (H0 ltac:(lia)). rewrite H0 in *. assert (f_wins a = 0) by lia. assert (f_ties a = 0) by lia. rewrite H, H1. repeat split.
Qed.

Lemma seq_from a n : seq a n = map (fun j => a + j)%nat (seq 0 n).
Proof.
  assert (G : forall n b, seq (a + b) n = map (fun j => a + j)%nat (seq b n)).
  { induction n0 as [|n0 IH]; intros b; [reflexivity|]. cbn [seq map]. f_equal. rewrite <- IH. f_equal. lia. }
  rewrite <- G. f_equal. lia.
Qed.
(* the starting hands of a preflop combination *)
Definition same_list (a b : list nat) : bool := (length a =? length b)%nat && forallb (fun '(x, y) => (x =? y)%nat) (combine a b).
Lemma same_list_ok a b : same_list a b = true -> a = b.
Proof.
  unfold same_list. intros H. apply andb_true_iff in H as [H1 H2]. apply Nat.eqb_eq in H1. revert b H1 H2.
  induction a as [|x a IH]; intros [|y b] H1 H2; cbn in *; try discriminate; [reflexivity|]. apply andb_true_iff in H2 as [H2 H3].
  apply Nat.eqb_eq in H2. subst y. f_equal. apply IH; [lia|exact H3].
Qed.
Lemma hands_in_ok c : (c < 169)%nat -> hands_in c = seq (combo_start c) (combo_len c).
Proof.
  assert (H : forallb (fun c => same_list (hands_in c) (seq (combo_start c) (combo_len c))) (seq 0 169) = true) by (vm_compute; reflexivity).
  intros Hc. apply same_list_ok. apply (forallb_In _ _ H). apply in_seq. lia.
Qed.

Lemma flat_nth {A} (f : nat -> nat -> A) k n d : forall s i c, (i < n)%nat -> (c < k)%nat ->
  nth (k * i + c) (flat_map (fun i => map (f i) (seq 0 k)) (seq s n)) d = f (s + i)%nat c.
Proof.
  induction n as [|n IH]; intros s i c Hi Hc; [lia|]. cbn [seq flat_map]. destruct i as [|i].
  - rewrite app_nth1 by (rewrite map_length, seq_length; lia). rewrite Nat.mul_0_r, Nat.add_0_r. cbn [Nat.add].
    rewrite (nth_indep (map (f s) (seq 0 k)) d (f s 0%nat)) by (rewrite map_length, seq_length; lia). rewrite map_nth, seq_nth by lia. reflexivity.
  - rewrite app_nth2 by (rewrite map_length, seq_length; lia). rewrite map_length, seq_length.
    replace (k * S i + c - k)%nat with (k * i + c)%nat by lia. rewrite IH by lia. f_equal. lia.
Qed.
Lemma flat_length {A} (f : nat -> nat -> A) k n s : length (flat_map (fun i => map (f i) (seq 0 k)) (seq s n)) = (k * n)%nat.
Proof. revert s. induction n as [|n IH]; intros s; cbn [seq flat_map]; [rewrite Nat.mul_0_r; reflexivity|]. rewrite app_length, map_length, seq_length, IH. lia. Qed.

Definition shares_fit (us : list unit_results) : Prop := forall u, In u us -> u_wins u + u_ties u <= u_total u.

Lemma combo_results r n : length (r_hand_results r) = (n * 1326)%nat -> shares_fit (r_hand_results r) ->
  r_combo_results r = flat_map (fun i => map (combo_of (r_hand_results r) i) (seq 0 NUM_COMBOS)) (seq 0 n) ->
  forall i c, (i < n)%nat -> (c < 169)%nat ->
  let mine := filter (fun j => dealt_hand (hand_entry r i j)) (hands_in c) in
  exists u, nth_error (r_combo_results r) (169 * i + c) = Some u /\ sums_up r i mine u /\ u_valid u = (0 <? length mine)%nat /\
    u_weight u = if (0 <? length mine)%nat then sum_of (fun j => u_weight (hand_entry r i j)) mine / N.of_nat (length (hands_in c)) else 0.
Proof.
  intros Hl Hs Hcr i c Hi Hc. cbv zeta. exists (combo_of (r_hand_results r) i c). split.
  { rewrite Hcr. change NUM_COMBOS with 169%nat. rewrite (nth_error_nth' _ unit_default) by (rewrite flat_length; nia). f_equal. rewrite flat_nth by assumption. reflexivity. }
  pose proof (combo_inside c Hc) as Hin. rewrite (hands_in_ok c Hc).
  assert (Hus : map (fun k => unth k (r_hand_results r)) (seq (i * NUM_HANDS + combo_start c) (combo_len c)) = map (hand_entry r i) (seq (combo_start c) (combo_len c))).
  { rewrite (seq_from (i * NUM_HANDS + combo_start c)), (seq_from (combo_start c)), !map_map. apply map_ext. intros j. unfold hand_entry. f_equal. change NUM_HANDS with 1326%nat. lia. }
  unfold combo_of, combo_fin. rewrite Hus. set (us := map (hand_entry r i) (seq (combo_start c) (combo_len c))).
  assert (Hle : forall u, In u (filter dealt_hand us) -> u_wins u <= u_total u /\ u_ties u <= u_total u).
  { intros u Hu. apply filter_In in Hu as [Hu _]. apply in_map_iff in Hu as (j & <- & Hj). apply in_seq in Hj.
    assert (u_wins (hand_entry r i j) + u_ties (hand_entry r i j) <= u_total (hand_entry r i j)); [|lia].
    apply Hs. unfold hand_entry. apply nth_In. rewrite Hl. nia. }
  destruct (fin_sums us) as (F1 & F2 & F3 & F4 & F5).
  destruct (combo_fields (combo_len c) (fold_left fin_add us fin0)) as (G1 & G2 & G3 & G4 & G5).
  - rewrite F3, F5. apply sum_of_le. intros u Hu. apply Hle. exact Hu.
  - rewrite F4, F5. apply sum_of_le. intros u Hu. apply Hle. exact Hu.
  - rewrite F1, F5. intros H0. apply length_zero_iff_nil in H0. rewrite H0. reflexivity.
  - assert (Hf : filter dealt_hand us = map (hand_entry r i) (filter (fun j => dealt_hand (hand_entry r i j)) (seq (combo_start c) (combo_len c)))) by apply filter_map.
    rewrite F1, ?F2, ?F3, ?F4, ?F5, Hf, ?map_length, ?sum_of_map in *.
    split; [|rewrite seq_length; auto]. unfold sums_up. auto.
Qed.

(* ------------------------------------------------------------------------- *)
(** * Categories and draws *)

Lemma board_fields b : bg_wins b <= bg_total b -> bg_ties b <= bg_total b ->
  let u := big_to_unit b unit_default in
  u_wins u = scaled (bg_total b) (bg_wins b) /\ u_ties u = scaled (bg_total b) (bg_ties b) /\ u_total u = scaled (bg_total b) (bg_total b) /\
  u_weight u = (if 0 <? bg_total b then bg_weight b else 0).
Proof.
  intros Hw Ht. cbv zeta. unfold big_to_unit. destruct (N.ltb_spec 0 (bg_total b)) as [H0|H0].
  - cbn [u_wins u_ties u_total u_weight]. destruct (U64MAX <? bg_total b) eqn:E.
    + rewrite !ratio_over by exact E. rewrite !trunc_scaled by (assumption || lia). auto.
    + rewrite !N.div_1_r, !(trunc_under (bg_total b)) by (assumption || lia). auto.
  - assert (bg_total b = 0) by lia. rewrite H in *. assert (bg_wins b = 0) by lia. assert (bg_ties b = 0) by lia. rewrite H1, H2. repeat split.
Qed.
Lemma table_results r n sel i : length (r_hand_results r) = (n * 1326)%nat -> shares_fit (r_hand_results r) -> (i < n)%nat ->
  forall sel', (forall j, (j < 1326)%nat -> sel (hand_entry r i j) = sel' j) ->
  let mine := filter sel' (seq 0 1326) in
  let u := big_to_unit (tally sel (entries (r_hand_results r) i)) unit_default in
  sums_up r i mine u /\ u_weight u = if 0 <? sum_of (fun j => u_total (hand_entry r i j)) mine then sum_of (fun j => u_weight (hand_entry r i j)) mine else 0.
Proof.
  intros Hl Hs Hi sel' Hsel. cbv zeta.
  assert (Hf : filter sel (entries (r_hand_results r) i) = map (hand_entry r i) (filter sel' (seq 0 1326))).
  { unfold entries. change NUM_HANDS with 1326%nat. rewrite filter_map.
    assert (E : forall j, unth (i * 1326 + j) (r_hand_results r) = hand_entry r i j) by (intros j; unfold hand_entry; f_equal; lia).
    rewrite (map_ext _ (hand_entry r i) E). f_equal. apply filter_ext_in. intros j Hj. apply in_seq in Hj. rewrite E. apply Hsel. lia. }
  destruct (tally_sums sel (entries (r_hand_results r) i)) as (F1 & F2 & F3 & F4). rewrite Hf in *.
  assert (Hle : forall u, In u (map (hand_entry r i) (filter sel' (seq 0 1326))) -> u_wins u <= u_total u /\ u_ties u <= u_total u).
  { intros u Hu. apply in_map_iff in Hu as (j & <- & Hj). apply filter_In in Hj as [Hj _]. apply in_seq in Hj.
    assert (u_wins (hand_entry r i j) + u_ties (hand_entry r i j) <= u_total (hand_entry r i j)); [|lia].
    apply Hs. unfold hand_entry. apply nth_In. rewrite Hl. nia. }
  destruct (board_fields (tally sel (entries (r_hand_results r) i))) as (G1 & G2 & G3 & G4).
  - rewrite F1, F3. apply sum_of_le. intros u Hu. apply Hle. exact Hu.
  - rewrite F2, F3. apply sum_of_le. intros u Hu. apply Hle. exact Hu.
  - rewrite ?F1, ?F2, ?F3, ?F4, ?sum_of_map in *. unfold sums_up. auto.
Qed.

(* ------------------------------------------------------------------------- *)
(** * The entries of the starting hands *)

(* what finish leaves behind *)
Record tables (p : profile) (ranges : list (list whand)) (board dead : N) (r : results) : Prop := mkTables {
  tb_hands : length (r_hand_results r) = (length ranges * 1326)%nat;
  tb_entries : forall i j, (i < length ranges)%nat -> (j < 1326)%nat -> exists u, final_entry p (filtered board dead ranges) board i j u (hand_entry r i j);
  tb_combos : r_combo_results r = flat_map (fun i => map (combo_of (r_hand_results r) i) (seq 0 NUM_COMBOS)) (seq 0 (length ranges));
  tb_br : length (r_board_results r) = (9 * length ranges)%nat;
  tb_bd : length (r_board_draws r) = (10 * length ranges)%nat;
  tb_boards : forall i c, (i < length ranges)%nat -> (c < 9)%nat -> unth (i * 9 + c)%nat (r_board_results r) =
     if 2 <? count_ones board then big_to_unit (tally (in_rank c) (entries (r_hand_results r) i)) unit_default else unit_default;
  tb_draws : forall i c, (i < length ranges)%nat -> (c < 10)%nat -> unth (i * 10 + c)%nat (r_board_draws r) =
     if 2 <? count_ones board then big_to_unit (tally (in_draw c) (entries (r_hand_results r) i)) unit_default else unit_default }.

Lemma report_tables p ranges board dead D e r : report p ranges board dead D e r -> tables p ranges board dead r.
Proof.
  intros H. split.
  - exact (rp_hands _ _ _ _ _ _ _ H).
  - exact (rp_entries _ _ _ _ _ _ _ H).
  - exact (rp_combos _ _ _ _ _ _ _ H).
  - exact (rp_br _ _ _ _ _ _ _ H).
  - exact (rp_bd _ _ _ _ _ _ _ H).
  - exact (rp_boards _ _ _ _ _ _ _ H).
  - exact (rp_draws _ _ _ _ _ _ _ H).
Qed.

Lemma last_at_app p i l1 h l2 k : hslot p i h = k -> (forall h', In h' l2 -> hslot p i h' <> k) -> last_at p i (l1 ++ h :: l2) k = Some h.
Proof.
  intros Hk Hl. induction l2 as [|x l2 IH] using rev_ind.
  - rewrite last_at_snoc, (proj2 (Nat.eqb_eq _ _) Hk). reflexivity.
  - change (l1 ++ h :: l2 ++ [x]) with (l1 ++ (h :: l2) ++ [x]). rewrite app_assoc, last_at_snoc.
    assert (Hx : In x (l2 ++ [x])) by (apply in_or_app; right; left; reflexivity). rewrite (proj2 (Nat.eqb_neq _ _) (Hl x Hx)). apply IH. intros h' H'. apply Hl. apply in_or_app. auto.
Qed.
Lemma free_spec board dead a b h : same_hand a b h -> free board dead h = negb (on_table board dead a) && negb (on_table board dead b).
Proof.
  intros H. unfold free, avoids, on_table. destruct H as [[-> ->]|[-> ->]]; destruct (N.testbit board a), (N.testbit board b), (N.testbit dead a), (N.testbit dead b); reflexivity.
Qed.
Lemma slot_same p i a b h : hole a b -> hole_hand h -> (hslot p i h = (NUM_HANDS * i + idx p a b)%nat <-> same_hand a b h).
Proof.
  intros Hab Hh. unfold hslot. pose proof (idx_eq p (first_card h) (second_card h) a b Hh Hab) as E. unfold same_hand.
  change (c_1 h) with (first_card h). change (c_2 h) with (second_card h).
  apply eq_iff_eq_true in E. rewrite Nat.eqb_eq, orb_true_iff, !andb_true_iff, !N.eqb_eq in E. rewrite <- E. clear. lia.
Qed.

Section Entry.
  Variables (p : profile) (ranges : list (list whand)) (board dead : N).
  Hypothesis Hok : Forall (Forall hole_hand) ranges.
  Variables (i : nat) (a b : N).
  Hypothesis Hi : (i < length ranges)%nat.
  Hypothesis Hab : hole a b.
  Notation fr := (filtered board dead ranges).

  Lemma filtered_range : @nth (list combo) i fr (@nil combo) = filter (free board dead) (range_at ranges i).
  Proof.
    change (@nth (list whand) i fr [] = filter (free board dead) (range_at ranges i)). unfold filtered, range_at. rewrite (nth_indep (map (filter (free board dead)) ranges) [] (filter (free board dead) [])) by (rewrite map_length; exact Hi).
    apply map_nth.
  Qed.
  Lemma range_hole h : In h (range_at ranges i) -> hole_hand h.
  Proof.
    intros H. rewrite Forall_forall in Hok. assert (Hin : In (range_at ranges i) ranges) by (apply nth_In; exact Hi).
    specialize (Hok _ Hin). rewrite Forall_forall in Hok. apply Hok. exact H.
  Qed.
  Lemma hand_at_some h : hand_at p fr i (idx p a b) = Some h -> In h (range_at ranges i) /\ same_hand a b h /\ on_table board dead a = false /\ on_table board dead b = false.
  Proof.
    unfold hand_at. rewrite filtered_range. intros H. apply last_at_some in H as [Hin Hs]. apply filter_In in Hin as [Hin Hf].
    apply (slot_same p i a b h Hab (range_hole h Hin)) in Hs. split; [exact Hin|]. split; [exact Hs|].
    rewrite (free_spec _ _ _ _ _ Hs) in Hf. destruct (on_table board dead a), (on_table board dead b); try discriminate. auto.
  Qed.
  Lemma hand_at_last l1 h l2 : on_table board dead a = false -> on_table board dead b = false ->
    range_at ranges i = l1 ++ h :: l2 -> same_hand a b h -> (forall h', In h' l2 -> ~ same_hand a b h') -> hand_at p fr i (idx p a b) = Some h.
  Proof.
    intros Ha Hb E Hs Hl. unfold hand_at. rewrite filtered_range, E, filter_app. cbn [filter]. rewrite (free_spec _ _ _ _ _ Hs), Ha, Hb. cbn [negb andb].
    assert (Hh : forall x, In x (l1 ++ h :: l2) -> hole_hand x) by (rewrite <- E; exact range_hole).
    apply last_at_app.
    - apply (slot_same p i a b h Hab); [apply Hh; apply in_or_app; right; left; reflexivity|exact Hs].
    - intros h' H' Hc. apply filter_In in H' as [H' _]. apply (Hl h' H'). apply (slot_same p i a b h' Hab); [|exact Hc].
      apply Hh. apply in_or_app. right. right. exact H'.
  Qed.
  Lemma last_of : (exists h, In h (range_at ranges i) /\ same_hand a b h) ->
    exists l1 h l2, range_at ranges i = l1 ++ h :: l2 /\ same_hand a b h /\ forall h', In h' l2 -> ~ same_hand a b h'.
  Proof.
    generalize (range_at ranges i). induction l as [|x l IH] using rev_ind; intros (h & Hin & Hs); [contradiction|].
    assert (Hdec : same_hand a b x \/ ~ same_hand a b x).
    { unfold same_hand. destruct (N.eq_dec (first_card x) a), (N.eq_dec (second_card x) b), (N.eq_dec (first_card x) b), (N.eq_dec (second_card x) a); tauto. }
    destruct Hdec as [Hx|Hx]; [exists l, x, []; split; [reflexivity|]; split; [exact Hx|]; intros ? []|].
    apply in_app_iff in Hin as [Hin|[<-|[]]]; [|contradiction]. destruct IH as (l1 & h0 & l2 & -> & Hs0 & Hn); [exists h; auto|].
    exists l1, h0, (l2 ++ [x]). split; [rewrite <- app_assoc; reflexivity|]. split; [exact Hs0|]. intros h' H'. apply in_app_iff in H' as [H'|[<-|[]]]; auto.
  Qed.

  Variable r : results.
  Hypothesis HT : tables p ranges board dead r.
  Variable k : N.
  Hypothesis Hk : get_card_index p a b = Ret k.
  Notation u := (hand_entry r i (N.to_nat k)).
  Lemma the_index : N.to_nat k = idx p a b /\ (idx p a b < 1326)%nat.
  Proof. destruct (idx_spec p a b Hab) as [E Hlt]. rewrite E in Hk. injection Hk as <-. rewrite Nat2N.id. auto. Qed.

  Lemma entry_valid :
    nth_error (r_hand_results r) (1326 * i + N.to_nat k) = Some u /\
    (u_valid u = true <-> (exists h, In h (range_at ranges i) /\ same_hand a b h) /\ on_table board dead a = false /\ on_table board dead b = false) /\
    (u_valid u = false -> u_weight u = 0) /\
    forall l1 h l2, range_at ranges i = l1 ++ h :: l2 -> same_hand a b h -> (forall h', In h' l2 -> ~ same_hand a b h') -> u_valid u = true -> u_weight u = weight h.
  Proof.
    destruct the_index as [Ek Hlt]. split.
    { unfold hand_entry. apply nth_error_nth'. rewrite (tb_hands _ _ _ _ _ HT). nia. }
    rewrite Ek. destruct (tb_entries _ _ _ _ _ HT i (idx p a b) Hi Hlt) as (u0 & _ & _ & _ & _ & Hv & Hw & _).
    split; [|split].
    - rewrite Hv. split.
      + destruct (hand_at p fr i (idx p a b)) as [h|] eqn:E; [intros _|discriminate]. apply hand_at_some in E as (H1 & H2 & H3). split; [exists h; auto|exact H3].
      + intros (Hex & Ha & Hb). apply last_of in Hex as (l1 & h & l2 & E & Hs & Hl). rewrite (hand_at_last l1 h l2 Ha Hb E Hs Hl). reflexivity.
    - rewrite Hv, Hw. destruct (hand_at p fr i (idx p a b)); [discriminate|reflexivity].
    - intros l1 h l2 E Hs Hl Hval. rewrite Hw. rewrite Hv in Hval. destruct (hand_at p fr i (idx p a b)) as [h0|] eqn:E0; [|discriminate].
      apply hand_at_some in E0 as E1. destruct E1 as (_ & _ & Ha & Hb). rewrite (hand_at_last l1 h l2 Ha Hb E Hs Hl) in E0. injection E0 as <-. reflexivity.
  Qed.
End Entry.

(* the flags of a hand are those [get_draw] returns *)
Lemma draw_ready p a b bl bd cat : cards (a :: b :: bl) -> (length bl <= 5)%nat -> hand_of base bl bd ->
  (cat = 5 -> exists s, s < 4 /\ (5 <= nsuit s (a :: b :: bl))%nat) ->
  exists hc d, from_hole_cards p a b = Ret hc /\ from_hole_cards p b a = Ret hc /\ get_draw p hc bd cat = Ret d.
Proof.
  intros Hcards H5 Hbo Hcat. pose proof Hcards as [_ Hf]. apply Forall_cons_iff in Hf as [Hca Hf]. apply Forall_cons_iff in Hf as [Hcb _].
  destruct (from_hole_cards_of p a b Hca Hcb) as (x & Ex & Hx). destruct (from_hole_cards_of p b a Hcb Hca) as (y & Ey & Hy).
  assert (y = x) as ->. { eapply hand_of_unique; [|exact Hx]. eapply hand_of_perm; [|exact Hy]. apply Permutation.perm_swap. }
  assert (Hl : (length ([a; b] ++ bl) <= 7)%nat) by (cbn [app length]; lia).
  destruct (get_draw_ok p [a; b] bl x bd Hcards Hl Hx Hbo cat Hcat) as (d & Ed & _). exists x, d. auto.
Qed.
Lemma draw_of_gen p a b bl bd cat cat' board h : cards (a :: b :: bl) -> (length bl <= 5)%nat -> hand_of base bl bd ->
  (cat = 5 -> exists s, s < 4 /\ (5 <= nsuit s (a :: b :: bl))%nat) -> from_bit_mask p board = Ret bd -> same_hand a b h -> cat' = cat ->
  (hc <- from_hole_cards p a b ;; bd <- from_bit_mask p board ;; get_draw p hc bd cat) =
  Ret match (holding <- from_hole_cards p (c_1 h) (c_2 h) ;; bd <- from_bit_mask p board ;; get_draw p holding bd cat') with Ret d => d | Fail _ => 0 end.
Proof.
  intros Hcards H5 Hbo Hcat Eb Hs ->. destruct (draw_ready p a b bl bd cat Hcards H5 Hbo Hcat) as (hc & d & E1 & E2 & Ed).
  change (c_1 h) with (first_card h). change (c_2 h) with (second_card h). rewrite Eb. destruct Hs as [[-> ->]|[-> ->]]; rewrite E1, ?E2; cbn [bind]; rewrite Ed; reflexivity.
Qed.

Section EntryRank.
  Variables (p : profile) (ranges : list (list whand)) (board dead : N).
  Hypothesis Hok : Forall (Forall hole_hand) ranges.
  Variable r : results.
  Hypothesis HT : tables p ranges board dead r.
  Variables (i : nat) (a b k : N).
  Hypothesis Hi : (i < length ranges)%nat.
  Hypothesis Hab : hole a b.
  Hypothesis Hk : get_card_index p a b = Ret k.
  Notation u := (hand_entry r i (N.to_nat k)).
  Notation fr := (filtered board dead ranges).

  Lemma best_same h : same_hand a b h -> category_of (now board h) = category_of (a :: b :: mask_cards board).
  Proof.
    intros Hs. unfold category_of. apply (f_equal (hd 0)). apply best_perm. unfold now. destruct Hs as [[H1 H2]|[H1 H2]]; unfold two_cards; rewrite H1, H2; [reflexivity|apply Permutation.perm_swap].
  Qed.
  Lemma entry_rank : 2 < count_ones board -> u_valid u = true -> u_rank u = category_of (a :: b :: mask_cards board).
  Proof.
    intros H2 Hv. destruct (the_index p a b Hab k Hk) as [Ek Hlt]. rewrite Ek in *.
    destruct (tb_entries _ _ _ _ _ HT i (idx p a b) Hi Hlt) as (u0 & _ & _ & _ & _ & Hv' & _ & Hr & _). rewrite Hv in Hv'. rewrite Hr.
    destruct (hand_at p fr i (idx p a b)) as [h|] eqn:E; [|discriminate]. rewrite (proj2 (N.ltb_lt _ _) H2).
    apply (hand_at_some p ranges board dead Hok i a b Hi Hab) in E as (_ & Hs & Ha & Hb). apply best_same; assumption.
  Qed.
  Lemma entry_draw : 2 < count_ones board -> (length (mask_cards board) <= 5)%nat -> u_valid u = true ->
    if (length (mask_cards board) <? 5)%nat
    then (hc <- from_hole_cards p a b ;; bd <- from_bit_mask p board ;; get_draw p hc bd (u_rank u)) = Ret (u_draw u)
    else u_draw u = 0.
  Proof.
    intros H2 H5 Hv. pose proof (entry_rank H2 Hv) as Hrank. destruct (the_index p a b Hab k Hk) as [Ek Hlt]. rewrite Ek in *.
    destruct (tb_entries _ _ _ _ _ HT i (idx p a b) Hi Hlt) as (u0 & _ & _ & _ & _ & Hv' & _ & _ & Hd & _). rewrite Hv in Hv'. rewrite Hd, Hrank.
    destruct (hand_at p fr i (idx p a b)) as [h|] eqn:E; [|discriminate]. rewrite (proj2 (N.ltb_lt _ _) H2).
    apply (hand_at_some p ranges board dead Hok i a b Hi Hab) in E as (Hin & Hs & Ha & Hb). pose proof (range_hole ranges Hok i Hi h Hin) as Hh.
    unfold draw_of. destruct (length (mask_cards board) <? 5)%nat; [|reflexivity].
    destruct (from_bit_mask_of p board) as (bd & Eb & Hbo); [apply fits_of_length; lia|].
    destruct Hab as (Hca & Hcb & Hne). unfold on_table in Ha, Hb. apply orb_false_iff in Ha as [Ha _]. apply orb_false_iff in Hb as [Hb _].
    assert (Hcards : cards (a :: b :: mask_cards board)) by (apply two_more; [exact Hca|exact Hcb|exact Hne|apply off_mask; exact Ha|apply off_mask; exact Hb|apply mask_cards_ok]).
    exact (draw_of_gen p a b (mask_cards board) bd _ _ board h Hcards H5 Hbo (category_flush _) Eb Hs (best_same h Hs)).
  Qed.
End EntryRank.

(* ------------------------------------------------------------------------- *)
(** * Runs *)

Section Tables.
  Variables (p : profile) (ranges : list (list whand)) (board dead : N).
  Hypothesis Hok : Forall (Forall hole_hand) ranges.
  Variable r : results.
  Hypothesis HT : tables p ranges board dead r.
  Hypothesis HS : shares_fit (r_hand_results r).
  Notation n := (length ranges).

  (* the hand in entry j *)
  Lemma hand_of_entry j : (j < 1326)%nat -> exists a b, hole a b /\ get_card_index p a b = Ret (N.of_nat j).
  Proof. intros Hj. destruct (proj2 (index_bijection p) (N.of_nat j) ltac:(lia)) as (a & b & Hab & E & _). exists a, b. auto. Qed.

  Lemma tables_boards : 2 < count_ones board -> forall cat,
    (forall a b k, hole a b -> N.testbit board a = false -> N.testbit board b = false -> get_card_index p a b = Ret k -> cat (N.to_nat k) = category_of (a :: b :: mask_cards board)) ->
    forall i c, (i < n)%nat -> (c < 9)%nat ->
    let mine := filter (fun j => u_valid (hand_entry r i j) && (cat j =? N.of_nat c)) (seq 0 1326) in
    exists u, nth_error (r_board_results r) (9 * i + c) = Some u /\ sums_up r i mine u /\
      u_weight u = if 0 <? sum_of (fun j => u_total (hand_entry r i j)) mine then sum_of (fun j => u_weight (hand_entry r i j)) mine else 0.
  Proof.
    intros H2 cat Hcat i c Hi Hc. cbv zeta. exists (unth (i * 9 + c)%nat (r_board_results r)). split.
    { replace (9 * i + c)%nat with (i * 9 + c)%nat by lia. apply nth_error_nth'. rewrite (tb_br _ _ _ _ _ HT). nia. }
    rewrite (tb_boards _ _ _ _ _ HT i c Hi Hc), (proj2 (N.ltb_lt _ _) H2). apply (table_results r n); [exact (tb_hands _ _ _ _ _ HT)|exact HS|exact Hi|].
    intros j Hj. unfold in_rank. destruct (u_valid (hand_entry r i j)) eqn:Ev; [|reflexivity]. cbn [andb].
    destruct (hand_of_entry j Hj) as (a & b & Hab & Ek). pose proof (entry_rank p ranges board dead Hok r HT i a b _ Hi Hab Ek H2) as Hrank.
    destruct (entry_valid p ranges board dead Hok i a b Hi Hab r HT _ Ek) as (_ & Hval & _). rewrite Nat2N.id in *. specialize (Hrank Ev). rewrite Hrank.
    destruct (proj1 Hval Ev) as (_ & Ha & Hb). unfold on_table in Ha, Hb. apply orb_false_iff in Ha as [Ha _]. apply orb_false_iff in Hb as [Hb _].
    specialize (Hcat a b _ Hab Ha Hb Ek). rewrite Nat2N.id in Hcat. rewrite <- Hcat. generalize (cat j). intros x.
    destruct (Nat.eqb_spec (N.to_nat x) c), (N.eqb_spec x (N.of_nat c)); try reflexivity; lia.
  Qed.

  Lemma in_draw_column k u : (k < 10)%nat -> in_draw k u = u_valid u && draw_column k (u_draw u).
  Proof.
    intros Hk. unfold in_draw, draw_column. f_equal. destruct (Nat.ltb_spec k 7) as [H|H]; [reflexivity|]. f_equal.
    assert (Hc : k = 7%nat \/ k = 8%nat \/ k = 9%nat) by lia. destruct Hc as [->|[->| ->]]; destruct (N.testbit (u_draw u) 5), (N.testbit (u_draw u) 6); reflexivity.
  Qed.
  Lemma tables_draws : 2 < count_ones board -> forall i c, (i < n)%nat -> (c < 10)%nat ->
    let mine := filter (fun j => u_valid (hand_entry r i j) && draw_column c (u_draw (hand_entry r i j))) (seq 0 1326) in
    exists u, nth_error (r_board_draws r) (10 * i + c) = Some u /\ sums_up r i mine u /\
      u_weight u = if 0 <? sum_of (fun j => u_total (hand_entry r i j)) mine then sum_of (fun j => u_weight (hand_entry r i j)) mine else 0.
  Proof.
    intros H2 i c Hi Hc. cbv zeta. exists (unth (i * 10 + c)%nat (r_board_draws r)). split.
    { replace (10 * i + c)%nat with (i * 10 + c)%nat by lia. apply nth_error_nth'. rewrite (tb_bd _ _ _ _ _ HT). nia. }
    rewrite (tb_draws _ _ _ _ _ HT i c Hi Hc), (proj2 (N.ltb_lt _ _) H2). apply (table_results r n); [exact (tb_hands _ _ _ _ _ HT)|exact HS|exact Hi|].
    intros j Hj. apply in_draw_column. exact Hc.
  Qed.
End Tables.

Lemma run_tables p ranges board dead threads cancelled sched o : usable ranges -> exact_equity p ranges board dead threads cancelled sched = Ret (ROk o) ->
  tables p ranges board dead (o_results o).
Proof. intros Hu H. destruct (some_run _ _ _ _ _ _ _ _ Hu H) as (D & left & e & _ & _ & Hrep). exact (report_tables _ _ _ _ _ _ _ Hrep). Qed.
Lemma run_shares p ranges board dead threads cancelled sched o : usable ranges -> exact_equity p ranges board dead threads cancelled sched = Ret (ROk o) ->
  p = Debug \/ weights_fit ranges board -> shares_fit (r_hand_results (o_results o)).
Proof. intros Hu H Hp. exact (proj1 (proj2 (consistent p ranges board dead threads cancelled sched o Hu H Hp))). Qed.

Lemma run_entry p ranges board dead threads cancelled sched o : usable ranges -> exact_equity p ranges board dead threads cancelled sched = Ret (ROk o) ->
  forall i a b k, (i < length ranges)%nat -> hole a b -> get_card_index p a b = Ret k ->
  exists u, nth_error (r_hand_results (o_results o)) (1326 * i + N.to_nat k) = Some u /\
    (u_valid u = true <-> (exists h, In h (range_at ranges i) /\ same_hand a b h) /\ on_table board dead a = false /\ on_table board dead b = false) /\
    (u_valid u = false -> u_weight u = 0) /\
    forall l1 h l2, range_at ranges i = l1 ++ h :: l2 -> same_hand a b h -> (forall h', In h' l2 -> ~ same_hand a b h') -> u_valid u = true -> u_weight u = weight h.
Proof.
  intros Hu H i a b k Hi Hab Hk. exists (hand_entry (o_results o) i (N.to_nat k)).
  apply (entry_valid p ranges board dead); [apply ok_hole; exact (proj1 Hu)|exact Hi|exact Hab|eapply run_tables; eassumption|exact Hk].
Qed.
Lemma run_combos p ranges board dead threads cancelled sched o : usable ranges -> exact_equity p ranges board dead threads cancelled sched = Ret (ROk o) ->
  p = Debug \/ weights_fit ranges board -> forall i c, (i < length ranges)%nat -> (c < 169)%nat ->
  let r := o_results o in
  let mine := filter (fun j => dealt_hand (hand_entry r i j)) (hands_in c) in
  exists u, nth_error (r_combo_results r) (169 * i + c) = Some u /\ sums_up r i mine u /\ u_valid u = (0 <? length mine)%nat /\
    u_weight u = if (0 <? length mine)%nat then sum_of (fun j => u_weight (hand_entry r i j)) mine / N.of_nat (length (hands_in c)) else 0.
Proof.
  intros Hu H Hp i c Hi Hc. pose proof (run_tables _ _ _ _ _ _ _ _ Hu H) as HT.
  exact (combo_results (o_results o) (length ranges) (tb_hands _ _ _ _ _ HT) (run_shares _ _ _ _ _ _ _ _ Hu H Hp) (tb_combos _ _ _ _ _ HT) i c Hi Hc).
Qed.
Lemma run_boards p ranges board dead threads cancelled sched o : usable ranges -> exact_equity p ranges board dead threads cancelled sched = Ret (ROk o) ->
  p = Debug \/ weights_fit ranges board -> board < 2 ^ 64 -> 2 < ones board -> forall cat,
  (forall a b k, hole a b -> N.testbit board a = false -> N.testbit board b = false -> get_card_index p a b = Ret k -> cat (N.to_nat k) = category_of (a :: b :: mask_cards board)) ->
  let r := o_results o in
  forall i c, (i < length ranges)%nat -> (c < 9)%nat ->
  let mine := filter (fun j => u_valid (hand_entry r i j) && (cat j =? N.of_nat c)) (seq 0 1326) in
  exists u, nth_error (r_board_results r) (9 * i + c) = Some u /\ sums_up r i mine u /\
    u_weight u = if 0 <? sum_of (fun j => u_total (hand_entry r i j)) mine then sum_of (fun j => u_weight (hand_entry r i j)) mine else 0.
Proof.
  intros Hu H Hp Hb H2 cat Hcat. rewrite <- (ones_ok _ Hb) in H2.
  exact (tables_boards p ranges board dead (ok_hole _ (proj1 Hu)) (o_results o) (run_tables _ _ _ _ _ _ _ _ Hu H) (run_shares _ _ _ _ _ _ _ _ Hu H Hp) H2 cat Hcat).
Qed.
Lemma run_draws p ranges board dead threads cancelled sched o : usable ranges -> exact_equity p ranges board dead threads cancelled sched = Ret (ROk o) ->
  p = Debug \/ weights_fit ranges board -> board < 2 ^ 64 -> 2 < ones board ->
  let r := o_results o in
  forall i c, (i < length ranges)%nat -> (c < 10)%nat ->
  let mine := filter (fun j => u_valid (hand_entry r i j) && draw_column c (u_draw (hand_entry r i j))) (seq 0 1326) in
  exists u, nth_error (r_board_draws r) (10 * i + c) = Some u /\ sums_up r i mine u /\
    u_weight u = if 0 <? sum_of (fun j => u_total (hand_entry r i j)) mine then sum_of (fun j => u_weight (hand_entry r i j)) mine else 0.
Proof.
  intros Hu H Hp Hb H2. rewrite <- (ones_ok _ Hb) in H2.
  exact (tables_draws p ranges board dead (o_results o) (run_tables _ _ _ _ _ _ _ _ Hu H) (run_shares _ _ _ _ _ _ _ _ Hu H Hp) H2).
Qed.
Lemma run_rank_draw p ranges board dead threads cancelled sched o : usable ranges -> exact_equity p ranges board dead threads cancelled sched = Ret (ROk o) ->
  board < 2 ^ 64 -> 2 < ones board -> forall i a b k u, (i < length ranges)%nat -> hole a b -> get_card_index p a b = Ret k ->
  nth_error (r_hand_results (o_results o)) (1326 * i + N.to_nat k) = Some u -> u_valid u = true ->
  u_rank u = category_of (a :: b :: mask_cards board) /\
  if (length (mask_cards board) <? 5)%nat
  then (hc <- from_hole_cards p a b ;; bd <- from_bit_mask p board ;; get_draw p hc bd (u_rank u)) = Ret (u_draw u)
  else u_draw u = 0.
Proof.
  intros Hu H Hb H2 i a b k u Hi Hab Hk Hn Hv. rewrite <- (ones_ok _ Hb) in H2. pose proof (run_tables _ _ _ _ _ _ _ _ Hu H) as HT.
  apply (nth_error_nth _ _ unit_default) in Hn. subst u. fold (hand_entry (o_results o) i (N.to_nat k)) in *.
  destruct (exact_common p ranges board dead Hu) as (total & work & _ & _ & _ & Hrun). destruct (Hrun _ _ _ _ H) as [Hval _]. apply validate_none in Hval as (_ & Hb5 & _).
  pose proof (mask_cards_length board) as Hm. pose proof (ok_hole _ (proj1 Hu)) as Hok.
  split; [eapply entry_rank; eassumption|eapply entry_draw; try eassumption; lia].
Qed.
