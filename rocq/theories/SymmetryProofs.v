(* Changes of the arguments of exact_equity and their effect on the counters. *)
From Verif Require Import Base BaseProofs SumFacts ListFacts Ghost Float64 Hand Range FastDivide Combined Sim SpecPoker SpecNames SpecHand SpecRange SpecEquity SpecResults SpecRun SpecSymmetry
  PokerFacts HandExprProofs IndexProofs EnumProofs ShowdownProofs BoardProofs CombinedProofs PositionProofs MergeProofs MachineProofs SetupProofs WeightProofs FinalProofs ExactProofs ResultProofs
  CombineRunProofs RunProofs ConsistProofs SeatProofs.
From Coq Require Import Permutation Sorted.
Local Open Scope N_scope.
#[local] Opaque NUM_HANDS.

(* ------------------------------------------------------------------------- *)
(** * Totals as sums *)

Definition gain (board dead : N) (what : list whand -> list N -> bool) (d : list whand) : N :=
  if possible board dead d then deal_weight d * sumf (fun l => if what d l then 1 else 0) (boards board dead d) else 0.
Lemma total_gain ranges board dead what : total_of ranges board dead what = sumf (gain board dead what) (picks ranges).
Proof. rewrite <- sum_over_total, sum_over_sumf. unfold deals. rewrite sumf_filter. reflexivity. Qed.

(* ------------------------------------------------------------------------- *)
(** * The order of the hands *)

Lemma perm_flat_map {A B} (f g : A -> list B) l l' : Permutation l l' -> (forall x, In x l' -> Permutation (f x) (g x)) -> Permutation (flat_map f l) (flat_map g l').
Proof.
  intros HP Hx. transitivity (flat_map f l'); [apply Permutation_flat_map; exact HP|]. clear HP. induction l' as [|x l' IH]; [constructor|].
  cbn [flat_map]. apply Permutation_app; [apply Hx; left; reflexivity|]. apply IH. intros y Hy. apply Hx. right. exact Hy.
Qed.
Lemma picks_perm (rs rs' : list (list whand)) : Forall2 (@Permutation whand) rs rs' -> Permutation (picks rs) (picks rs').
Proof.
  induction 1 as [|r r' rs rs' Hr Hrs IH]; [reflexivity|]. cbn [picks]. apply perm_flat_map; [exact Hr|]. intros x _. apply Permutation_map. exact IH.
Qed.
Lemma total_order rs rs' board dead what : Forall2 (@Permutation whand) rs rs' -> total_of rs' board dead what = total_of rs board dead what.
Proof. intros H. rewrite !total_gain. symmetry. apply sumf_perm, picks_perm, H. Qed.

(* ------------------------------------------------------------------------- *)
(** * Hands that cannot be dealt *)

Lemma possible_usable board dead d : possible board dead d = true -> forallb (usable_hand board dead) d = true.
Proof.
  intros H. unfold possible in H. apply andb_prop in H as [_ H]. rewrite forallb_forall in H. apply forallb_forall. intros h Hh. unfold usable_hand.
  rewrite (H (first_card h)), (H (second_card h)); [reflexivity| |]; unfold dealt; apply in_flat_map; exists h; (split; [exact Hh|]); [right; left|left]; reflexivity.
Qed.
Lemma sum_usable board dead rs : forall G, (forall d, forallb (usable_hand board dead) d = false -> G d = 0) ->
  sumf G (picks (map (filter (usable_hand board dead)) rs)) = sumf G (picks rs).
Proof.
  induction rs as [|r rs IH]; intros G HG; [reflexivity|]. cbn [map picks]. rewrite !sumf_flat_map, sumf_filter. apply sumf_ext. intros h _. rewrite !sumf_map.
  destruct (usable_hand board dead h) eqn:Eh.
  - apply (IH (fun d => G (h :: d))). intros d Hd. apply HG. cbn [forallb]. rewrite Hd. apply andb_false_r.
  - symmetry. apply sumf_zero. intros d _. apply HG. cbn [forallb]. rewrite Eh. reflexivity.
Qed.
Lemma total_usable rs board dead what : total_of (map (filter (usable_hand board dead)) rs) board dead what = total_of rs board dead what.
Proof.
  rewrite !total_gain. apply sum_usable. intros d Hd. unfold gain. destruct (possible board dead d) eqn:Ep; [|reflexivity].
  apply possible_usable in Ep. congruence.
Qed.

(* ------------------------------------------------------------------------- *)
(** * Weights *)

Fixpoint scale_deal (ks : list N) (d : list whand) : list whand :=
  match ks, d with
  | k :: ks', h :: d' => times k h :: scale_deal ks' d'
  | _, _ => []
  end.
Lemma picks_scaled ks : forall rs, length ks = length rs -> picks (scaled ks rs) = map (scale_deal ks) (picks rs).
Proof.
  induction ks as [|k ks IH]; intros [|r rs] H; try discriminate; [reflexivity|]. cbn [scaled picks]. injection H as H. rewrite (IH rs H).
  induction r as [|h r IHr]; [reflexivity|]. cbn [map flat_map]. rewrite map_app, IHr. f_equal. rewrite !map_map. apply map_ext. reflexivity.
Qed.
Lemma scale_cards ks : forall d, length ks = length d -> map fst (scale_deal ks d) = map fst d.
Proof.
  induction ks as [|k ks IH]; intros [|h d] H; try discriminate; [reflexivity|]. cbn [scale_deal map]. injection H as H. rewrite (IH d H). f_equal. destruct h as [[a b] w]. reflexivity.
Qed.
Lemma scale_weight ks : forall d, length ks = length d -> deal_weight (scale_deal ks d) = prod_of (fun k => k) ks * deal_weight d.
Proof.
  unfold deal_weight, prod_of. induction ks as [|k ks IH]; intros [|h d] H; try discriminate; [reflexivity|]. injection H as H. cbn [scale_deal fold_right].
  rewrite (IH d H). change (weight (times k h)) with (k * weight h). ring.
Qed.
Lemma dealt_cards d d' : map fst d' = map fst d -> dealt d' = dealt d.
Proof.
  revert d'. induction d as [|h d IH]; intros [|h' d'] H; try discriminate; [reflexivity|]. cbn [map] in H. injection H as H1 H2. unfold dealt in *. cbn [flat_map].
  rewrite (IH d' H2). unfold two_cards, first_card, second_card. rewrite H1. reflexivity.
Qed.
Lemma possible_cards board dead d d' : map fst d' = map fst d -> possible board dead d' = possible board dead d.
Proof. intros H. unfold possible. rewrite (dealt_cards _ _ H). reflexivity. Qed.
Lemma boards_cards board dead d d' : map fst d' = map fst d -> boards board dead d' = boards board dead d.
Proof. intros H. rewrite !boards_eq. unfold unseen. rewrite (dealt_cards _ _ H). reflexivity. Qed.
Lemma holding_cards d d' i : map fst d' = map fst d -> fst (holding d' i) = fst (holding d i).
Proof.
  intros H. unfold holding. pose proof (map_nth (@fst (N * N) N) d' (0, 0, 0) i) as E. pose proof (map_nth (@fst (N * N) N) d (0, 0, 0) i) as E'. cbn [fst] in E, E'.
  etransitivity; [symmetry; exact E|]. etransitivity; [|exact E']. f_equal. exact H.
Qed.
Lemma length_cards (d d' : list whand) : map fst d' = map fst d -> length d' = length d.
Proof. intros H. apply (f_equal (@length _)) in H. rewrite !map_length in H. exact H. Qed.
Lemma winners_cards d d' l : map fst d' = map fst d -> winners d' l = winners d l.
Proof.
  intros H. unfold winners. rewrite (length_cards _ _ H). apply filter_ext. intros i.
  assert (E : forall g : N * N -> bool, forallb (fun h : whand => g (fst h)) d' = forallb (fun h : whand => g (fst h)) d).
  { intros g. revert d' H. induction d as [|h d IH]; intros [|h' d'] H; try discriminate; [reflexivity|]. cbn [map] in H. injection H as H1 H2. cbn [forallb]. rewrite (IH d' H2), H1. reflexivity. }
  unfold two_cards, first_card, second_card. rewrite (holding_cards _ _ i H).
  apply (E (fun c => not_better (best ([fst c; snd c] ++ l)) (best ([fst (fst (holding d i)); snd (fst (holding d i))] ++ l)))).
Qed.
Lemma holds_cards d d' i a b : map fst d' = map fst d -> holds i a b d' = holds i a b d.
Proof. intros H. unfold holds, first_card, second_card. cbv zeta. rewrite (holding_cards _ _ i H). reflexivity. Qed.

Lemma total_scaled ks ranges board dead what : length ks = length ranges ->
  (forall d d' l, map fst d' = map fst d -> what d' l = what d l) ->
  total_of (scaled ks ranges) board dead what = prod_of (fun k => k) ks * total_of ranges board dead what.
Proof.
  intros Hk Hw. rewrite !total_gain, picks_scaled, sumf_map, <- sumf_mul by exact Hk. apply sumf_ext. intros d Hd. apply picks_length in Hd.
  assert (Hc : map fst (scale_deal ks d) = map fst d) by (apply scale_cards; congruence). unfold gain.
  rewrite (possible_cards _ _ _ _ Hc), (boards_cards _ _ _ _ Hc), scale_weight by congruence. destruct (possible board dead d); [|lia].
  rewrite (sumf_ext (fun l => if what (scale_deal ks d) l then 1 else 0) (fun l => if what d l then 1 else 0)); [lia|]. intros l _. rewrite (Hw d _ l Hc). reflexivity.
Qed.

(* ------------------------------------------------------------------------- *)
(** * Splitting a range *)

Lemma sum_picks_app (before after : list (list whand)) r1 r2 : forall G, sumf G (picks (before ++ (r1 ++ r2) :: after)) =
  sumf G (picks (before ++ r1 :: after)) + sumf G (picks (before ++ r2 :: after)).
Proof.
  induction before as [|r before IH]; intros G; cbn [app picks]; rewrite ?flat_map_app, ?sumf_app; [reflexivity|].
  rewrite !sumf_flat_map, <- sumf_add. apply sumf_ext. intros h _. rewrite !sumf_map. apply (IH (fun d => G (h :: d))).
Qed.
Lemma total_split ranges i r1 r2 board dead what :
  total_of (replaced ranges i (r1 ++ r2)) board dead what = total_of (replaced ranges i r1) board dead what + total_of (replaced ranges i r2) board dead what.
Proof. rewrite !total_gain. apply sum_picks_app. Qed.

(* ------------------------------------------------------------------------- *)
(** * Suits *)

Section Suits.
  Variable f : N -> N.
  Hypothesis Hf : suit_permutation f.
  Let rs := rename_suits f.

  Lemma rs_inj a b : rs a = rs b -> a = b.
  Proof.
    destruct Hf as [H4 Hi]. intros E. pose proof (f_equal rank_of E) as E1. pose proof (f_equal suit_of E) as E2. unfold rs in E1, E2.
    rewrite !rename_rank in E1 by (apply H4, suit_lt). rewrite !rename_suit in E2 by (apply H4, suit_lt).
    apply card_inj; [exact E1|]. apply Hi; [apply suit_lt|apply suit_lt|exact E2].
  Qed.
  Lemma rs_eqb a b : (rs a =? rs b) = (a =? b).
  Proof. destruct (N.eqb_spec a b) as [->|Hne]; [apply N.eqb_refl|]. apply N.eqb_neq. intros E. apply Hne, rs_inj, E. Qed.
  Lemma rs_card c : c < 52 -> rs c < 52.
  Proof. intros H. unfold rs, rename_suits. apply rank_lt in H. destruct Hf as [H4 _]. pose proof (H4 _ (suit_lt c)). lia. Qed.
  Lemma rs_deck : Permutation (map rs (nseq 0 52)) (nseq 0 52).
  Proof.
    apply NoDup_Permutation_bis.
    - apply FinFun.Injective_map_NoDup; [intros a b; apply rs_inj|apply nseq_NoDup].
    - rewrite map_length. apply Nat.le_refl.
    - intros c Hc. apply in_map_iff in Hc as (x & <- & Hx). apply nseq_In in Hx. apply nseq_In. assert (Hx' : x < 52) by lia. apply rs_card in Hx'. lia.
  Qed.
  (* filters of the deck *)
  Lemma rs_filter g g' : (forall c, c < 52 -> g' (rs c) = g c) -> Permutation (filter g' (nseq 0 52)) (map rs (filter g (nseq 0 52))).
  Proof.
    intros H. transitivity (filter g' (map rs (nseq 0 52))); [apply perm_filter; symmetry; apply rs_deck|]. rewrite filter_map_swap.
    rewrite (filter_ext_in (fun x => g' (rs x)) g); [reflexivity|]. intros c Hc. apply nseq_In in Hc. apply H. lia.
  Qed.

  Definition rename_deal (d : list whand) : list whand := map (rename_hand f) d.
  Lemma dealt_renamed d : dealt (rename_deal d) = map rs (dealt d).
  Proof. unfold dealt, rename_deal. induction d as [|h d IH]; [reflexivity|]. cbn [map flat_map]. rewrite IH. reflexivity. Qed.
  Lemma existsb_renamed c l : existsb (N.eqb (rs c)) (map rs l) = existsb (N.eqb c) l.
  Proof. induction l as [|x l IH]; [reflexivity|]. cbn [map existsb]. rewrite IH, rs_eqb. reflexivity. Qed.
  Lemma distinct_renamed l : distinct (map rs l) = distinct l.
  Proof. induction l as [|x l IH]; [reflexivity|]. cbn [map distinct]. rewrite existsb_renamed, IH. reflexivity. Qed.

  Variables board board' dead dead' : N.
  Hypothesis Hb : renamed_mask f board board'.
  Hypothesis Hd : renamed_mask f dead dead'.

  Lemma table_renamed c : c < 52 -> on_table board' dead' (rs c) = on_table board dead c.
  Proof. intros Hc. unfold on_table, rs. rewrite (Hb c Hc), (Hd c Hc). reflexivity. Qed.
  Lemma possible_renamed d : Forall (fun c => c < 52) (dealt d) -> possible board' dead' (rename_deal d) = possible board dead d.
  Proof.
    intros Hc. unfold possible. rewrite dealt_renamed, distinct_renamed. f_equal. induction Hc as [|c l Hc Hl IH]; [reflexivity|].
    cbn [map forallb]. rewrite IH, (table_renamed c Hc). reflexivity.
  Qed.
  Lemma unseen_renamed d : Permutation (unseen board' dead' (rename_deal d)) (map rs (unseen board dead d)).
  Proof. unfold unseen. apply rs_filter. intros c Hc. rewrite dealt_renamed, existsb_renamed, (table_renamed c Hc). reflexivity. Qed.
  Lemma mask_renamed : Permutation (mask_cards board') (map rs (mask_cards board)).
  Proof. unfold mask_cards. apply rs_filter. intros c Hc. apply Hb, Hc. Qed.

  (* the boards are the renamed boards, up to the order of the cards *)
  Lemma sum_boards d g : (forall l l', Permutation l l' -> g l = g l') ->
    sumf g (boards board' dead' (rename_deal d)) = sumf (fun l => g (map rs l)) (boards board dead d).
  Proof.
    intros Hg. rewrite !boards_eq, !sumf_map. rewrite (Permutation_length mask_renamed), map_length.
    rewrite (choose_perm_sum _ _ (unseen_renamed d)).
    2:{ intros s t Hst _. apply Hg. apply Permutation_app_head. exact Hst. }
    rewrite choose_map, sumf_map. apply sumf_ext. intros s _. rewrite map_app. apply Hg. apply Permutation_app_tail. apply mask_renamed.
  Qed.
  Lemma total_renamed ranges what what' : Forall (fun r => Forall (fun h => hole (first_card h) (second_card h)) r) ranges ->
    (forall d l l', Permutation l l' -> what' d l = what' d l') ->
    (forall d l, length d = length ranges -> what' (rename_deal d) (map rs l) = what d l) ->
    total_of (map (map (rename_hand f)) ranges) board' dead' what' = total_of ranges board dead what.
  Proof.
    intros Hr Hp Hw. rewrite !total_gain.
    assert (E : picks (map (map (rename_hand f)) ranges) = map rename_deal (picks ranges)).
    { clear. induction ranges as [|r rs IH]; [reflexivity|]. cbn [map picks]. rewrite IH. induction r as [|h r IHr]; [reflexivity|].
      cbn [map flat_map]. rewrite map_app, IHr. f_equal. rewrite !map_map. apply map_ext. reflexivity. }
    rewrite E, sumf_map. apply sumf_ext. intros d Hdd. unfold gain. rewrite possible_renamed.
    2:{ clear - Hr Hdd. revert d Hdd. induction Hr as [|r rs Hr Hrs IH]; intros d Hdd.
        - destruct Hdd as [<-|[]]. constructor.
        - cbn [picks] in Hdd. apply in_flat_map in Hdd as (h & Hh & Hdd). apply in_map_iff in Hdd as (d' & <- & Hd'). specialize (IH d' Hd').
          rewrite Forall_forall in Hr. destruct (Hr h Hh) as (H1 & H2 & _). unfold dealt. cbn [flat_map two_cards app]. constructor; [exact H1|]. constructor; [exact H2|]. exact IH. }
    destruct (possible board dead d); [|reflexivity]. f_equal.
    - unfold deal_weight, rename_deal. clear. induction d as [|h d IH]; [reflexivity|]. cbn [map fold_right]. rewrite IH. reflexivity.
    - rewrite sum_boards; [|intros l l' HP; rewrite (Hp _ _ _ HP); reflexivity]. apply sumf_ext. intros l _. rewrite Hw; [reflexivity|]. exact (picks_length _ _ Hdd).
  Qed.

  Lemma winners_perm d l l' : Permutation l l' -> winners d l = winners d l'.
  Proof.
    intros HP. unfold winners. apply filter_ext. intros i. apply forallb_ext_in. intros h _. f_equal; apply best_perm; apply Permutation_app_head; exact HP.
  Qed.
  Lemma winners_renamed d l : winners (rename_deal d) (map rs l) = winners d l.
  Proof.
    unfold winners, rename_deal. rewrite map_length. apply filter_ext_in. intros i Hi. apply in_seq in Hi.
    assert (E : holding (map (rename_hand f) d) i = rename_hand f (holding d i)).
    { unfold holding. rewrite (nth_indep _ _ (rename_hand f (0, 0, 0))) by (rewrite map_length; lia). apply map_nth. }
    assert (G : forall h, best (two_cards (rename_hand f h) ++ map rs l) = best (two_cards h ++ l)).
    { intros h. change (two_cards (rename_hand f h)) with (map rs (two_cards h)). rewrite <- map_app. apply rename_best. exact Hf. }
    rewrite E, G. generalize (best (two_cards (holding d i) ++ l)). intros x. clear - G. induction d as [|h d IH]; [reflexivity|]. cbn [map forallb]. rewrite IH, G. reflexivity.
  Qed.
  Lemma holds_renamed d i a b : (i < length d)%nat -> holds i (rs a) (rs b) (rename_deal d) = holds i a b d.
  Proof.
    intros Hi. unfold holds. cbv zeta. assert (E : holding (rename_deal d) i = rename_hand f (holding d i)).
    { unfold holding, rename_deal. rewrite (nth_indep _ _ (rename_hand f (0, 0, 0))) by (rewrite map_length; exact Hi). apply map_nth. }
    rewrite E. change (first_card (rename_hand f (holding d i))) with (rs (first_card (holding d i))). change (second_card (rename_hand f (holding d i))) with (rs (second_card (holding d i))).
    rewrite !rs_eqb. reflexivity.
  Qed.
End Suits.

(* ------------------------------------------------------------------------- *)
(** * Two complete runs *)

Definition event_of (n : nat) (c : figure) (d : list whand) (l : list N) : bool :=
  match c with
  | Winners m => nats_eqb (first_eight (winners d l)) (players_of n m)
  | Winner i => nats_eqb (first_eight (winners d l)) (players_of n (2 ^ N.of_nat i))
  | Wins i a b => wins_with i a b d l
  | Ties i a b => ties_with i a b d l
  | Total i a b => holds i a b d
  end.

Lemma read_figure p ranges board dead o c : usable ranges -> completes p ranges board dead o -> has_figure (length ranges) c ->
  exists x, figure_of p o c = Some x /\ counter p x (total_of ranges board dead (event_of (length ranges) c)).
Proof.
  intros Hu (threads & sched & Ht & Hc & H) Hp. destruct (full_run p ranges board dead threads sched o Hu H Hc Ht) as (D & e & HP & _ & Hrep).
  assert (HN : N.of_nat (2 ^ length ranges) = 2 ^ N.of_nat (length ranges)) by (rewrite Nat2N.inj_pow; reflexivity).
  assert (HM : forall m, m < 2 ^ N.of_nat (length ranges) -> exists x, nth_error (r_wins_by_mask (o_results o)) (N.to_nat m) = Some x /\
    counter p x (total_of ranges board dead (fun d l => nats_eqb (first_eight (winners d l)) (players_of (length ranges) m)))).
  { intros m Hm. exists (nth (N.to_nat m) (r_wins_by_mask (o_results o)) 0). split; [apply nth_error_nth'; rewrite (rp_wbm _ _ _ _ _ _ _ Hrep); lia|].
    exact (masks_nine p ranges board dead threads sched o Hu H Hc Ht m Hm). }
  assert (HH : forall i a b, (i < length ranges)%nat -> hole a b -> exists u, of_hand p (o_results o) i a b = Some u /\
    counter p (u_wins u) (hand_wins ranges board dead i a b) /\ counter p (u_ties u) (hand_ties ranges board dead i a b) /\ counter p (u_total u) (hand_total ranges board dead i a b)).
  { intros i a b Hi Hab. destruct (index_total p a b Hab) as (k & _ & Hk & _). unfold of_hand. rewrite Hk. exact (hands_spec p ranges board dead threads sched o Hu H Hc Ht i a b k Hi Hab Hk). }
  destruct c as [m|i|i a b|i a b|i a b]; cbn [has_figure figure_of event_of] in *.
  - apply HM, Hp.
  - exists (nth i (r_wins (o_results o)) 0). split; [apply nth_error_nth'; rewrite (rp_wins _ _ _ _ _ _ _ Hrep); exact Hp|].
    rewrite (rp_single _ _ _ _ _ _ _ Hrep i Hp).
    assert (Hi : 2 ^ N.of_nat i < 2 ^ N.of_nat (length ranges)) by (apply N.pow_lt_mono_r; lia).
    destruct (HM _ Hi) as (x & E & Hx). apply (nth_error_nth _ _ 0) in E. replace (N.to_nat (2 ^ N.of_nat i)) with (2 ^ i)%nat in E by (rewrite N2Nat.inj_pow, Nat2N.id; reflexivity).
    rewrite E. exact Hx.
  - destruct Hp as [Hi Hab]. destruct (HH i a b Hi Hab) as (u & -> & U1 & U2 & U3). exists (u_wins u). split; [reflexivity|exact U1].
  - destruct Hp as [Hi Hab]. destruct (HH i a b Hi Hab) as (u & -> & U1 & U2 & U3). exists (u_ties u). split; [reflexivity|exact U2].
  - destruct Hp as [Hi Hab]. destruct (HH i a b Hi Hab) as (u & -> & U1 & U2 & U3). exists (u_total u). split; [reflexivity|exact U3].
Qed.

Lemma usable_sizes ranges ranges' : usable ranges -> Forall range_ok ranges' ->
  Forall2 (fun r r' : list whand => (length r' <= length r)%nat) ranges ranges' -> usable ranges'.
Proof.
  intros [_ Hs] Hr H. split; [exact Hr|]. eapply N.le_lt_trans; [|exact Hs]. clear - H. unfold prod_of. induction H as [|r r' rs rs' Hr Hrs IH]; [reflexivity|].
  cbn [fold_right]. apply N.mul_le_mono; [lia|exact IH].
Qed.

Lemma order_of_hands p ranges ranges' board dead o o' : usable ranges -> Forall2 (@Permutation whand) ranges ranges' ->
  completes p ranges board dead o -> completes p ranges' board dead o' -> forall c, has_figure (length ranges) c -> figure_of p o' c = figure_of p o c.
Proof.
  intros Hu HP H H' c Hc.
  assert (Hu' : usable ranges').
  { eapply usable_sizes; [exact Hu| |].
    - destruct Hu as [Hr _]. clear - Hr HP. induction HP as [|r r' rs rs' Hp HP IH]; [constructor|]. inversion Hr as [|? ? Hr1 Hr2]; subst. constructor; [|apply IH; exact Hr2].
      destruct Hr1 as [H1 H2]. split; [eapply Permutation_Forall; [exact Hp|exact H1]|]. rewrite <- (Permutation_length Hp). exact H2.
    - clear - HP. induction HP as [|r r' rs rs' Hp HP IH]; constructor; [|exact IH]. rewrite (Permutation_length Hp). apply Nat.le_refl. }
  assert (Hl : length ranges' = length ranges) by (symmetry; eapply Forall2_length; exact HP).
  destruct (read_figure p ranges board dead o c Hu H Hc) as (x & E & Hx). destruct (read_figure p ranges' board dead o' c Hu' H' ltac:(rewrite Hl; exact Hc)) as (x' & E' & Hx').
  rewrite Hl, (total_order _ _ _ _ _ HP) in Hx'. rewrite E, E'. f_equal. eapply counter_fun; eassumption.
Qed.

Lemma usable_hands p ranges board dead o o' : usable ranges -> completes p ranges board dead o ->
  completes p (map (filter (usable_hand board dead)) ranges) board dead o' -> forall c, has_figure (length ranges) c -> figure_of p o' c = figure_of p o c.
Proof.
  intros Hu H H' c Hc. assert (Hl : forall g (r : list whand), (length (filter g r) <= length r)%nat) by (intros g r; apply filter_length_le).
  assert (Hu' : usable (map (filter (usable_hand board dead)) ranges)).
  { eapply usable_sizes; [exact Hu| |].
    - destruct Hu as [Hr _]. apply Forall_map. eapply Forall_impl; [|exact Hr]. intros r [H1 H2]. split; [apply Forall_forall; intros h Hh; apply filter_In in Hh as [Hh _]; rewrite Forall_forall in H1; apply H1, Hh|].
      specialize (Hl (usable_hand board dead) r). lia.
    - clear - Hl. induction ranges as [|r rs IH]; constructor; [apply Hl|exact IH]. }
  destruct (read_figure p ranges board dead o c Hu H Hc) as (x & E & Hx). destruct (read_figure p _ board dead o' c Hu' H' ltac:(rewrite map_length; exact Hc)) as (x' & E' & Hx').
  rewrite map_length, total_usable in Hx'. rewrite E, E'. f_equal. eapply counter_fun; eassumption.
Qed.

Lemma counter_times p x v k x' : counter p x v -> counter p x' (k * v) -> counter p x' (k * x).
Proof. destruct p; cbn [counter]; [congruence|]. intros -> ->. rewrite N.mul_mod_idemp_r by discriminate. reflexivity. Qed.
Lemma counter_plus p x1 v1 x2 v2 x : counter p x1 v1 -> counter p x2 v2 -> counter p x (v1 + v2) -> counter p x (x1 + x2).
Proof. destruct p; cbn [counter]; [congruence|]. intros -> -> ->. rewrite <- N.add_mod by discriminate. reflexivity. Qed.

Lemma event_cards n c d d' l : map fst d' = map fst d -> event_of n c d' l = event_of n c d l.
Proof.
  intros H. destruct c as [m|i|i a b|i a b|i a b]; cbn [event_of]; unfold wins_with, ties_with; rewrite ?(winners_cards _ _ l H), ?(holds_cards _ _ _ a b H); reflexivity.
Qed.
Lemma scaled_weights p ranges ks board dead o o' : usable ranges -> usable (scaled ks ranges) -> length ks = length ranges ->
  completes p ranges board dead o -> completes p (scaled ks ranges) board dead o' -> forall c, has_figure (length ranges) c ->
  exists x x', figure_of p o c = Some x /\ figure_of p o' c = Some x' /\ counter p x' (prod_of (fun k => k) ks * x).
Proof.
  intros Hu Hu' Hk H H' c Hc.
  assert (Hl : length (scaled ks ranges) = length ranges).
  { clear - Hk. revert ranges Hk. induction ks as [|k ks IH]; intros [|r rs] Hk; try discriminate; [reflexivity|]. cbn [scaled length]. f_equal. apply IH. injection Hk as Hk. exact Hk. }
  destruct (read_figure p ranges board dead o c Hu H Hc) as (x & E & Hx). destruct (read_figure p _ board dead o' c Hu' H' ltac:(rewrite Hl; exact Hc)) as (x' & E' & Hx').
  exists x, x'. split; [exact E|]. split; [exact E'|]. rewrite Hl, total_scaled in Hx'; [|exact Hk|intros d d' l Hdd; apply event_cards; exact Hdd]. eapply counter_times; eassumption.
Qed.

Lemma replaced_length ranges i r : (i < length ranges)%nat -> length (replaced ranges i r) = length ranges.
Proof. intros Hi. unfold replaced. rewrite app_length, firstn_length. cbn [length]. rewrite skipn_length. lia. Qed.
Lemma usable_part ranges i (r r' : list whand) : (i < length ranges)%nat -> incl r' r -> (length r' <= length r)%nat -> usable (replaced ranges i r) -> usable (replaced ranges i r').
Proof.
  intros Hi Hin Hl Hu. eapply usable_sizes; [exact Hu| |].
  - destruct Hu as [Hr _]. unfold replaced in *. apply Forall_app in Hr as [Hr1 Hr2]. inversion Hr2 as [|? ? Hr3 Hr4]; subst. apply Forall_app. split; [exact Hr1|]. constructor; [|exact Hr4].
    destruct Hr3 as [H1 H2]. split; [|lia]. rewrite Forall_forall in *. intros h Hh. apply H1, Hin, Hh.
  - unfold replaced. apply Forall2_app; [|constructor; [exact Hl|]]; generalize (firstn i ranges), (skipn (S i) ranges); intros l1 l2; [induction l1|induction l2]; constructor; auto.
Qed.
Lemma split_range p ranges i r1 r2 board dead o o1 o2 : (i < length ranges)%nat -> usable (replaced ranges i (r1 ++ r2)) ->
  completes p (replaced ranges i (r1 ++ r2)) board dead o -> completes p (replaced ranges i r1) board dead o1 -> completes p (replaced ranges i r2) board dead o2 ->
  forall c, has_figure (length ranges) c ->
  exists x x1 x2, figure_of p o c = Some x /\ figure_of p o1 c = Some x1 /\ figure_of p o2 c = Some x2 /\ counter p x (x1 + x2).
Proof.
  intros Hi Hu H H1 H2 c Hc.
  assert (Hu1 : usable (replaced ranges i r1)) by (eapply usable_part; [exact Hi| | |exact Hu]; [apply incl_appl, incl_refl|rewrite app_length; lia]).
  assert (Hu2 : usable (replaced ranges i r2)) by (eapply usable_part; [exact Hi| | |exact Hu]; [apply incl_appr, incl_refl|rewrite app_length; lia]).
  destruct (read_figure p _ board dead o c Hu H ltac:(rewrite replaced_length by exact Hi; exact Hc)) as (x & E & Hx).
  destruct (read_figure p _ board dead o1 c Hu1 H1 ltac:(rewrite replaced_length by exact Hi; exact Hc)) as (x1 & E1 & Hx1).
  destruct (read_figure p _ board dead o2 c Hu2 H2 ltac:(rewrite replaced_length by exact Hi; exact Hc)) as (x2 & E2 & Hx2).
  exists x, x1, x2. split; [exact E|]. split; [exact E1|]. split; [exact E2|]. rewrite !replaced_length in Hx, Hx1, Hx2 by exact Hi. rewrite total_split in Hx. eapply counter_plus; eassumption.
Qed.
Lemma split_conflict p ranges i r1 r2 board dead threads cancelled sched o o2 : (i < length ranges)%nat -> usable (replaced ranges i (r1 ++ r2)) ->
  completes p (replaced ranges i (r1 ++ r2)) board dead o -> exact_equity p (replaced ranges i r1) board dead threads cancelled sched = Ret (RErr ConflictingRanges) ->
  completes p (replaced ranges i r2) board dead o2 ->
  forall c, has_figure (length ranges) c -> figure_of p o2 c = figure_of p o c.
Proof.
  intros Hi Hu H H1 H2 c Hc.
  assert (Hu1 : usable (replaced ranges i r1)) by (eapply usable_part; [exact Hi| | |exact Hu]; [apply incl_appl, incl_refl|rewrite app_length; lia]).
  assert (Hu2 : usable (replaced ranges i r2)) by (eapply usable_part; [exact Hi| | |exact Hu]; [apply incl_appr, incl_refl|rewrite app_length; lia]).
  destruct (read_figure p _ board dead o c Hu H ltac:(rewrite replaced_length by exact Hi; exact Hc)) as (x & E & Hx).
  destruct (read_figure p _ board dead o2 c Hu2 H2 ltac:(rewrite replaced_length by exact Hi; exact Hc)) as (x2 & E2 & Hx2).
  rewrite !replaced_length in Hx, Hx2 by exact Hi. rewrite total_split in Hx.
  assert (H0 : total_of (replaced ranges i r1) board dead (event_of (length ranges) c) = 0).
  { unfold total_of. replace (deals (replaced ranges i r1) board dead) with (@nil (list whand)); [reflexivity|]. symmetry. exact (proj1 (equity_conflict_sound p _ board dead (proj1 Hu1)) threads cancelled sched H1). }
  rewrite H0, N.add_0_l in Hx. rewrite E, E2. f_equal. eapply counter_fun; eassumption.
Qed.

Lemma renamed_suits p f ranges board board' dead dead' o o' : suit_permutation f -> renamed_mask f board board' -> renamed_mask f dead dead' -> usable ranges ->
  completes p ranges board dead o -> completes p (map (map (rename_hand f)) ranges) board' dead' o' ->
  forall c, has_figure (length ranges) c -> figure_of p o' (rename_figure f c) = figure_of p o c.
Proof.
  intros Hf Hb Hd Hu H H' c Hc. assert (Hn : length (map (map (rename_hand f)) ranges) = length ranges) by apply map_length.
  assert (Hh : forall a b, hole a b -> hole (rename_suits f a) (rename_suits f b)).
  { intros a b (Ha & Hb' & Hab). split; [apply rs_card; assumption|]. split; [apply rs_card; assumption|]. intros E. apply Hab. eapply rs_inj; eassumption. }
  assert (Hu' : usable (map (map (rename_hand f)) ranges)).
  { eapply usable_sizes; [exact Hu| |].
    - destruct Hu as [Hr _]. apply Forall_map. eapply Forall_impl; [|exact Hr]. intros r [H1 H2]. split; [|rewrite map_length; exact H2]. apply Forall_map. eapply Forall_impl; [|exact H1].
      intros h [H3 H4]. split; [apply Hh; exact H3|exact H4].
    - clear. induction ranges as [|r rs IH]; constructor; [rewrite map_length; apply Nat.le_refl|exact IH]. }
  assert (Hc' : has_figure (length ranges) (rename_figure f c)).
  { destruct c as [m|i|i a b|i a b|i a b]; cbn [has_figure rename_figure] in *; try exact Hc; destruct Hc as [Hi Hab]; (split; [exact Hi|apply Hh; exact Hab]). }
  destruct (read_figure p ranges board dead o c Hu H Hc) as (x & E & Hx). destruct (read_figure p _ board' dead' o' (rename_figure f c) Hu' H' ltac:(rewrite Hn; exact Hc')) as (x' & E' & Hx').
  rewrite Hn in Hx'. rewrite (total_renamed f Hf board board' dead dead' Hb Hd ranges (event_of (length ranges) c)) in Hx'.
  - rewrite E, E'. f_equal. eapply counter_fun; eassumption.
  - destruct Hu as [Hr _]. eapply Forall_impl; [|exact Hr]. intros r [H1 _]. eapply Forall_impl; [|exact H1]. intros h [H3 _]. exact H3.
  - intros d l l' HP. destruct c as [m|i|i a b|i a b|i a b]; cbn [event_of rename_figure]; unfold wins_with, ties_with; rewrite ?(winners_perm d l l' HP); reflexivity.
  - intros d l Hdl. destruct c as [m|i|i a b|i a b|i a b]; cbn [event_of rename_figure has_figure] in *; unfold wins_with, ties_with; rewrite ?(winners_renamed f Hf d l); try reflexivity;
      destruct Hc as [Hi _]; rewrite (holds_renamed f Hf d i a b) by lia; reflexivity.
Qed.
