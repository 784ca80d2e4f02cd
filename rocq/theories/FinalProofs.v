(* The per-hand entries when the threads start, and the data derived from them at the end. *)
From Verif Require Import Base BaseProofs SumFacts Ghost Float64 Hand FastDivide FastDivideProofs Range Combined Sim SpecPoker ListFacts
  HandProofs HandExprProofs SpecNames SpecHand SpecRange SpecEquity EvalProofs EnumProofs ShowdownProofs BoardProofs CombinedProofs PositionProofs MergeProofs
  SetupProofs DrawProofs WeightProofs.
Local Open Scope N_scope.

#[local] Opaque NUM_HANDS.

(* ------------------------------------------------------------------------- *)
(** * Before the threads start *)

Definition ready (p : profile) (board : N) (i : nat) (hands : list combo) (k : nat) : unit_results :=
  match last_at p i hands k with
  | Some h =>
      let u := with_weight unit_default (if plain hands then 1 else c_w h) true in
      if 2 <? count_ones board then with_rank u (category_of (now board h)) (draw_of p board h) else u
  | None => unit_default
  end.

Definition entries_ready (p : profile) (board : N) (ranges : list (list combo)) (hr : list unit_results) : Prop :=
  length hr = (NUM_HANDS * length ranges)%nat /\
  forall i j, (i < length ranges)%nat -> (j < NUM_HANDS)%nat ->
    unth (NUM_HANDS * i + j)%nat hr = ready p board i (nth i ranges []) (NUM_HANDS * i + j)%nat.

Lemma nth_repeat_unit k n : unth k (repeat unit_default n) = unit_default.
Proof. revert k. induction n as [|n IH]; intros [|k]; cbn [repeat nth]; auto. Qed.
Lemma nth_repeat_any {A} k n (d : A) : nth k (repeat d n) d = d.
Proof. revert k. induction n as [|n IH]; intros [|k]; cbn [repeat nth]; auto. Qed.

Lemma slot_split k n : (k < NUM_HANDS * n)%nat -> exists i j, k = (NUM_HANDS * i + j)%nat /\ (i < n)%nat /\ (j < NUM_HANDS)%nat.
Proof.
  intros H. exists (k / NUM_HANDS)%nat, (k mod NUM_HANDS)%nat.
  assert (Hn : NUM_HANDS <> 0%nat) by discriminate. split; [apply Nat.div_mod; exact Hn|].
  split; [apply Nat.div_lt_upper_bound; assumption|apply Nat.mod_upper_bound; exact Hn].
Qed.

Section Prepare.
  Variable p : profile.
  Variable ranges : list (list combo).
  Variable board : N.
  Variable m : simulator.
  Hypothesis Hm1 : m_n_players m = length ranges.
  Hypothesis Hm2 : m_hand_ranges m = ranges.
  Hypothesis Hm3 : m_board_mask m = board.
  Hypothesis Hok : Forall (Forall (off_board board)) ranges.
  Hypothesis Hb5 : (length (mask_cards board) <= 5)%nat.

  Lemma ranges_hole : Forall (Forall hole_hand) ranges.
  Proof. eapply Forall_impl; [|exact Hok]. intros r Hr. eapply Forall_impl; [|exact Hr]. intros h Hh. apply Hh. Qed.

  Lemma prepare_ok : exists r0 flag, prepare p m = Ret (r0, flag) /\ entries_ready p board ranges (r_hand_results r0) /\
    r0 = with_hand_results (results_init (length ranges)) (r_hand_results r0) /\
    forall i, (i < length ranges)%nat -> N.testbit flag (N.of_nat i) = plain (nth i ranges []).
  Proof.
    unfold prepare. rewrite Hm1, Hm2, Hm3. cbv zeta.
    change (r_hand_results (results_init (length ranges))) with (repeat unit_default (NUM_HANDS * length ranges)).
    destruct (save_hand_weights_ok p ranges (repeat unit_default (NUM_HANDS * length ranges)) ranges_hole (repeat_length _ _)) as (hr & flag & E & L & Hx).
    rewrite E. cbn [bind]. rewrite repeat_length in L.
    assert (Hs : forall i j, (i < length ranges)%nat -> (j < NUM_HANDS)%nat -> unth (NUM_HANDS * i + j)%nat hr = saved p i (nth i ranges []) (NUM_HANDS * i + j)%nat unit_default).
    { intros i j Hi Hj. destruct (Hx i Hi) as [H _]. rewrite H, nth_repeat_unit by exact Hj. reflexivity. }
    assert (Hf : forall i, (i < length ranges)%nat -> N.testbit flag (N.of_nat i) = plain (nth i ranges [])) by (intros i Hi; apply Hx; exact Hi).
    unfold entries_ready, ready. destruct (2 <? count_ones board) eqn:E2.
    - destruct (set_ranks_ok p board ranges hr Hb5 Hok L) as (hr1 & E1 & L1 & N1). rewrite E1. cbn [bind].
      do 2 eexists. split; [reflexivity|]. cbn [with_hand_results r_hand_results]. split; [|split; [reflexivity|exact Hf]]. split; [congruence|].
      intros i j Hi Hj. rewrite N1, Hs by assumption. unfold saved. destruct (last_at p i (nth i ranges []) (NUM_HANDS * i + j)); reflexivity.
    - cbn [bind]. do 2 eexists. split; [reflexivity|]. cbn [with_hand_results r_hand_results]. split; [|split; [reflexivity|exact Hf]]. split; [exact L|].
      intros i j Hi Hj. rewrite Hs by assumption. reflexivity.
  Qed.

  Lemma ready_zero i hands k : u_wins (ready p board i hands k) = 0 /\ u_ties (ready p board i hands k) = 0 /\ u_total (ready p board i hands k) = 0.
  Proof using p board. unfold ready. destruct (last_at p i hands k); [|repeat split]. destruct (2 <? count_ones board); repeat split. Qed.

  Lemma prepared_ok r0 : r0 = with_hand_results (results_init (length ranges)) (r_hand_results r0) -> entries_ready p board ranges (r_hand_results r0) ->
    results_ok p (length ranges) r0 r0 (fun _ => 0).
  Proof using p ranges board.
    clear Hm1 Hm2 Hm3 Hok Hb5. intros E [HL HE]. unfold results_ok. rewrite E. cbn [with_hand_results results_init r_wins r_ties r_wins_by_mask r_hand_results r_combo_results r_board_results r_board_draws].
    rewrite !repeat_length. do 3 (split; [reflexivity|]). split; [rewrite HL; lia|]. split; [|split; [|split; [|auto]]].
    - intros o Ho. destruct o as [mm|f k|]; cbn [rdr with_hand_results results_init r_wins_by_mask r_hand_results r_eval_count].
      + rewrite nth_repeat_any. apply agr_0.
      + cbn [inr] in Ho. destruct (slot_split k (length ranges)) as (i & j & -> & Hi & Hj); [lia|].
        unfold hget. destruct (ready_zero i (nth i ranges []) (NUM_HANDS * i + j)%nat) as (H1 & H2 & H3).
        rewrite HE by assumption. destruct f; cbn [fget]; rewrite ?H1, ?H2, ?H3; apply agr_0.
      + apply agr_0.
    - intros j Hj. rewrite nth_repeat_any. apply agr_0.
    - apply Forall2_refl. apply static_refl.
  Qed.
End Prepare.

(* ------------------------------------------------------------------------- *)
(** * generate_final_data *)

Definition rated (u : unit_results) : unit_results :=
  if u_valid u then
    if 0 <? u_total u then
      with_rates u (u_equity u) (f_div (f_of_N (u_wins u)) (f_of_N (u_total u))) (f_div (f_of_N (u_ties u)) (f_of_N (u_total u)))
    else with_rates u f_zero (u_winrate u) (u_tierate u)
  else u.
Definition fin0 : fin := {| f_counter := 0; f_weight := 0; f_wins := 0; f_ties := 0; f_ct := f_zero; f_total := 0 |}.
Definition fin_add (a : fin) (u : unit_results) : fin :=
  if u_valid u && (0 <? u_total u) then
    {| f_counter := S (f_counter a); f_weight := f_weight a + u_weight u; f_wins := f_wins a + u_wins u;
       f_ties := f_ties a + u_ties u; f_ct := f_add (f_ct a) (u_corrected_ties u); f_total := f_total a + u_total u |}
  else a.
Lemma fin_add_rated a u : fin_add a (rated u) = fin_add a u.
Proof. unfold rated, fin_add. destruct (u_valid u) eqn:Ev, (0 <? u_total u) eqn:Et; cbn [andb with_rates u_valid u_total u_weight u_wins u_ties u_corrected_ties]; rewrite ?Ev, ?Et; reflexivity. Qed.
Lemma rated_weight u : u_weight (rated u) = u_weight u.
Proof. unfold rated. destruct (u_valid u), (0 <? u_total u); reflexivity. Qed.

Definition light (hr : list unit_results) : Prop := forall k, u_weight (unth k hr) <= 255.

Lemma final_hand_ok p a hr k : (k < length hr)%nat -> f_weight a + u_weight (unth k hr) < 2 ^ 32 ->
  exists hr', final_hand p (a, hr) k = Ret (fin_add a (unth k hr), hr') /\ length hr' = length hr /\
    forall q, unth q hr' = if (q =? k)%nat then rated (unth q hr) else unth q hr.
Proof.
  intros Hk Hw. unfold final_hand. rewrite (get_nth hr k unit_default) by exact Hk. cbn [bind].
  unfold fin_add, rated. destruct (u_valid (unth k hr)) eqn:Ev; cbn [andb].
  - destruct (0 <? u_total (unth k hr)) eqn:Et; cbv zeta.
    + rewrite add_ok by exact Hw. cbn [bind]. rewrite upd_ok by exact Hk. cbn [bind]. eexists. split; [reflexivity|].
      split; [apply set_nth_length|]. intros q. rewrite nth_set_nth by exact Hk. destruct (Nat.eqb_spec q k) as [->|]; [|reflexivity].
      rewrite Ev, Et. reflexivity.
    + rewrite upd_ok by exact Hk. cbn [bind]. eexists. split; [reflexivity|].
      split; [apply set_nth_length|]. intros q. rewrite nth_set_nth by exact Hk. destruct (Nat.eqb_spec q k) as [->|]; [|reflexivity].
      rewrite Ev, Et. reflexivity.
  - eexists. split; [reflexivity|]. split; [reflexivity|]. intros q. destruct (Nat.eqb_spec q k) as [->|]; [|reflexivity]. rewrite Ev. reflexivity.
Qed.

Definition inb (a n k : nat) : bool := (a <=? k)%nat && (k <? a + n)%nat.
Lemma inb_step a n k : inb a (S n) k = ((k =? a)%nat || inb (S a) n k)%bool.
Proof. unfold inb. destruct (Nat.leb_spec a k), (Nat.ltb_spec k (a + S n)), (Nat.eqb_spec k a), (Nat.leb_spec (S a) k), (Nat.ltb_spec k (S a + n)); cbn [andb orb]; try reflexivity; lia. Qed.
Lemma inb_none a k : inb a 0 k = false.
Proof. unfold inb. destruct (Nat.leb_spec a k), (Nat.ltb_spec k (a + 0)); cbn [andb]; try reflexivity; lia. Qed.

Lemma light_rated hr hr' f : light hr -> (forall q, unth q hr' = if (f q : bool) then rated (unth q hr) else unth q hr) -> light hr'.
Proof. intros H E k. rewrite E. destruct (f k); [rewrite rated_weight|]; apply H. Qed.

Lemma final_batch_ok p len : forall s a hr, (s + len <= length hr)%nat -> light hr -> f_weight a + 255 * N.of_nat len < 2 ^ 32 ->
  exists hr', foldM (final_hand p) (seq s len) (a, hr) = Ret (fold_left fin_add (map (fun k => unth k hr) (seq s len)) a, hr') /\ length hr' = length hr /\
    forall q, unth q hr' = if inb s len q then rated (unth q hr) else unth q hr.
Proof.
  induction len as [|len IH]; intros s a hr Hl Hlt Hw; cbn [seq foldM map fold_left].
  - exists hr. split; [reflexivity|]. split; [reflexivity|]. intros q. rewrite inb_none. reflexivity.
  - pose proof (Hlt s) as Hs. rewrite Nat2N.inj_succ in Hw. destruct (final_hand_ok p a hr s) as (hr1 & E1 & L1 & N1); [lia|lia|].
    rewrite E1. cbn [bind].
    destruct (IH (S s) (fin_add a (unth s hr)) hr1) as (hr2 & E2 & L2 & N2); [lia|exact (light_rated hr hr1 _ Hlt N1)| |].
    { unfold fin_add. destruct (u_valid (unth s hr) && (0 <? u_total (unth s hr))); cbn [f_weight]; lia. }
    rewrite E2. exists hr2. split; [|split; [congruence|]].
    + do 3 f_equal. apply map_ext_in. intros k Hk. apply in_seq in Hk. rewrite N1. destruct (Nat.eqb_spec k s); [lia|reflexivity].
    + intros q. rewrite N2, N1, inb_step. destruct (Nat.eqb_spec q s) as [->|]; cbn [orb]; [|reflexivity].
      unfold inb. rewrite (proj2 (Nat.leb_gt (S s) s)) by lia. reflexivity.
Qed.

(* the 169 combos: 13 pairs, 78 suited and 78 offsuit ones *)
Definition combo_start (c : nat) : nat := if (c <? 13)%nat then 6 * c else if (c <? 91)%nat then 78 + 4 * (c - 13) else 390 + 12 * (c - 91).
Definition combo_len (c : nat) : nat := if (c <? 13)%nat then 6 else if (c <? 91)%nat then 4 else 12.
Lemma combo_next c : (c < 169)%nat -> (combo_start c < 1326)%nat /\ batch_size_at (combo_start c) = combo_len c /\ combo_start (S c) = (combo_start c + combo_len c)%nat.
Proof.
  intros H. unfold combo_start, combo_len, batch_size_at.
  destruct (Nat.ltb_spec c 13), (Nat.ltb_spec c 91), (Nat.ltb_spec (S c) 13), (Nat.ltb_spec (S c) 91); try lia;
    repeat match goal with |- context[(?a <? ?b)%nat] => destruct (Nat.ltb_spec a b) end; lia.
Qed.
Lemma combo_len_le c : (combo_len c <= 12)%nat.
Proof. unfold combo_len. destruct (c <? 13)%nat, (c <? 91)%nat; lia. Qed.
Lemma combo_inside c : (c < 169)%nat -> (combo_start c + combo_len c <= 1326)%nat.
Proof. intros H. unfold combo_start, combo_len. destruct (Nat.ltb_spec c 13), (Nat.ltb_spec c 91); lia. Qed.
Lemma combo_start_mono c c' : (c <= c')%nat -> (combo_start c <= combo_start c')%nat.
Proof.
  intros H. unfold combo_start. destruct (Nat.ltb_spec c 13), (Nat.ltb_spec c' 13), (Nat.ltb_spec c 91), (Nat.ltb_spec c' 91); lia.
Qed.

Definition combo_fin (hr : list unit_results) (i c : nat) : fin :=
  fold_left fin_add (map (fun k => unth k hr) (seq (i * NUM_HANDS + combo_start c) (combo_len c))) fin0.
Definition combo_of (hr : list unit_results) (i c : nat) : unit_results := final_combo (combo_len c) (combo_fin hr i c).

Lemma map_add_seq a j n : map (fun k => a + j + k)%nat (seq 0 n) = seq (a + j) n.
Proof.
  assert (G : forall n b, map (fun k => a + j + k)%nat (seq b n) = seq (a + j + b) n).
  { induction n0 as [|n0 IH]; intros b; [reflexivity|]. cbn [seq map]. f_equal. rewrite IH. f_equal. lia. }
  rewrite G, Nat.add_0_r. reflexivity.
Qed.

Lemma final_player_ok p i d : forall c fuel hr combos, (c + d = 169)%nat -> (d < fuel)%nat -> ((S i) * NUM_HANDS <= length hr)%nat -> light hr ->
  exists hr', final_player p fuel i (combo_start c) hr combos = Ret (hr', combos ++ map (combo_of hr i) (seq c d)) /\ length hr' = length hr /\
    forall q, unth q hr' = if inb (i * NUM_HANDS + combo_start c) (1326 - combo_start c) q then rated (unth q hr) else unth q hr.
Proof.
  induction d as [|d IH]; intros c fuel hr combos Hc Hf Hl Hlt; destruct fuel as [|fuel]; try lia; cbn [final_player].
  - assert (Hs : combo_start c = 1326%nat) by (replace c with 169%nat by lia; reflexivity). rewrite Hs.
    change (1326 <? NUM_HANDS)%nat with false. exists hr. cbn [seq map]. rewrite app_nil_r. split; [reflexivity|]. split; [reflexivity|].
    intros q. rewrite Nat.sub_diag, inb_none. reflexivity.
  - destruct (combo_next c ltac:(lia)) as (H1 & H2 & H3). pose proof (combo_inside c ltac:(lia)) as H4. pose proof (combo_len_le c) as H5.
    assert (HN : NUM_HANDS = 1326%nat) by reflexivity.
    rewrite (proj2 (Nat.ltb_lt (combo_start c) NUM_HANDS)) by lia. cbv zeta. rewrite H2, map_add_seq.
    destruct (final_batch_ok p (combo_len c) (i * NUM_HANDS + combo_start c) fin0 hr) as (hr1 & E1 & L1 & N1); [lia|exact Hlt| |].
    { cbn [fin0 f_weight]. change (2 ^ 32) with 4294967296. lia. }
    fold fin0. rewrite E1. cbn [bind]. rewrite <- H3.
    destruct (IH (S c) fuel hr1 (combos ++ [final_combo (combo_len c) (combo_fin hr i c)])) as (hr2 & E2 & L2 & N2); [lia|lia|lia|exact (light_rated hr hr1 _ Hlt N1)|].
    exists hr2. unfold combo_fin in E2. rewrite E2. split; [|split; [congruence|]].
    + rewrite <- app_assoc. cbn [seq map app]. do 4 f_equal. apply map_ext_in. intros c' Hc'. apply in_seq in Hc'. unfold combo_of, combo_fin. do 2 f_equal.
      apply map_ext_in. intros k Hk. apply in_seq in Hk. rewrite N1. pose proof (combo_start_mono (S c) c' ltac:(lia)).
      unfold inb. destruct (Nat.ltb_spec k (i * NUM_HANDS + combo_start c + combo_len c)); [lia|]. rewrite andb_false_r. reflexivity.
    + intros q. rewrite N2, N1. unfold inb. revert H3 H4. clear - HN.
      destruct (Nat.leb_spec (i * NUM_HANDS + combo_start (S c)) q), (Nat.ltb_spec q (i * NUM_HANDS + combo_start (S c) + (1326 - combo_start (S c)))),
        (Nat.leb_spec (i * NUM_HANDS + combo_start c) q), (Nat.ltb_spec q (i * NUM_HANDS + combo_start c + combo_len c)), (Nat.ltb_spec q (i * NUM_HANDS + combo_start c + (1326 - combo_start c)));
        cbn [andb]; intros; try reflexivity; exfalso; lia.
Qed.

Lemma generate_final_data_ok p n hr : length hr = (NUM_HANDS * n)%nat -> light hr ->
  exists hr', generate_final_data p n hr = Ret (hr', flat_map (fun i => map (combo_of hr i) (seq 0 NUM_COMBOS)) (seq 0 n)) /\ length hr' = length hr /\
    forall q, (q < NUM_HANDS * n)%nat -> unth q hr' = rated (unth q hr).
Proof.
  intros Hl Hlt. unfold generate_final_data. assert (HN : NUM_HANDS = 1326%nat) by reflexivity.
  assert (G : forall d a hr combos, (a + d = n)%nat -> length hr = (NUM_HANDS * n)%nat -> light hr ->
    exists hr', foldM (fun '(hr, combos) i => final_player p (S NUM_HANDS) i 0 hr combos) (seq a d) (hr, combos) =
      Ret (hr', combos ++ flat_map (fun i => map (combo_of hr i) (seq 0 NUM_COMBOS)) (seq a d)) /\ length hr' = length hr /\
      forall q, unth q hr' = if inb (a * NUM_HANDS) (d * NUM_HANDS) q then rated (unth q hr) else unth q hr).
  { clear hr Hl Hlt. induction d as [|d IH]; intros a hr combos Ha Hl Hlt.
    - cbn [seq foldM flat_map]. exists hr. rewrite app_nil_r. split; [reflexivity|]. split; [reflexivity|]. intros q. rewrite Nat.mul_0_l, inb_none. reflexivity.
    - cbn [seq foldM flat_map].
      destruct (final_player_ok p a NUM_COMBOS 0 (S NUM_HANDS) hr combos) as (hr1 & E1 & L1 & N1); [reflexivity|rewrite HN; change NUM_COMBOS with 169%nat; lia|rewrite Hl, HN; nia|exact Hlt|].
      change (combo_start 0) with 0%nat in *. rewrite E1. cbn [bind].
      destruct (IH (S a) hr1 (combos ++ map (combo_of hr a) (seq 0 NUM_COMBOS))) as (hr2 & E2 & L2 & N2); [lia|congruence|exact (light_rated hr hr1 _ Hlt N1)|].
      rewrite E2. exists hr2. split; [|split; [congruence|]].
      + rewrite <- app_assoc. do 4 f_equal. rewrite !flat_map_concat_map. f_equal. apply map_ext_in. intros i Hi. apply in_seq in Hi. apply map_ext_in. intros c Hc. apply in_seq in Hc. change NUM_COMBOS with 169%nat in Hc.
        unfold combo_of, combo_fin. do 2 f_equal. apply map_ext_in. intros k Hk. apply in_seq in Hk. rewrite N1. unfold inb.
        destruct (Nat.ltb_spec k (a * NUM_HANDS + 0 + (1326 - 0))); [rewrite HN in *; nia|]. rewrite andb_false_r. reflexivity.
      + intros q. rewrite N2, N1. unfold inb. rewrite HN. revert IH. clear. intros _.
        destruct (Nat.leb_spec (S a * 1326) q), (Nat.ltb_spec q (S a * 1326 + d * 1326)), (Nat.leb_spec (a * 1326 + 0) q), (Nat.ltb_spec q (a * 1326 + 0 + (1326 - 0))),
          (Nat.leb_spec (a * 1326) q), (Nat.ltb_spec q (a * 1326 + S d * 1326)); cbn [andb]; try reflexivity; exfalso; lia. }
  destruct (G n 0%nat hr [] ltac:(lia) Hl Hlt) as (hr' & E & L & Nq). exists hr'. split; [exact E|]. split; [exact L|].
  intros q Hq. rewrite Nq. unfold inb. rewrite (proj2 (Nat.ltb_lt _ _)) by lia. rewrite Nat.mul_0_l. reflexivity.
Qed.

(* ------------------------------------------------------------------------- *)
(** * generate_board_data *)

Definition big_plus (u : unit_results) (b : big) : big :=
  {| bg_wins := bg_wins b + u_wins u; bg_ties := bg_ties b + u_ties u; bg_total := bg_total b + u_total u;
     bg_ct := f_add (bg_ct b) (u_corrected_ties u); bg_weight := bg_weight b + u_weight u |}.
(* the sum over the selected hands *)
Definition tally (sel : unit_results -> bool) (us : list unit_results) : big :=
  fold_left (fun b u => if sel u then big_plus u b else b) us big_default.
Definition in_rank (c : nat) (u : unit_results) : bool := u_valid u && (N.to_nat (u_rank u) =? c)%nat.
(* which hands count for draw column k: seven flags, and three columns for two overcards *)
Definition in_draw (k : nat) (u : unit_results) : bool :=
  u_valid u &&
  (if (k <? 7)%nat then N.testbit (u_draw u) (N.of_nat k)
   else N.testbit (u_draw u) 7 &&
        (if N.testbit (u_draw u) 5 then (k =? 8)%nat else if N.testbit (u_draw u) 6 then (k =? 7)%nat else (k =? 9)%nat)).

Notation bnth k l := (nth k l big_default).
Definition capped (W : N) (l : list big) : Prop := forall k, bg_weight (bnth k l) <= W.

Lemma big_step p u l k W : (k < length l)%nat -> capped W l -> W + u_weight u < 2 ^ 32 ->
  exists l', updf l k (big_add p u) = Ret l' /\ length l' = length l /\ (forall q, bnth q l' = if (q =? k)%nat then big_plus u (bnth q l) else bnth q l).
Proof.
  intros Hk Hc Hw. pose proof (Hc k) as Hck. rewrite (updf_ok l k _ (bnth k l) (big_plus u (bnth k l))).
  - eexists. split; [reflexivity|]. split; [apply set_nth_length|]. intros q. rewrite nth_set_nth by exact Hk.
    destruct (Nat.eqb_spec q k) as [->|]; reflexivity.
  - apply nth_error_nth'. exact Hk.
  - unfold big_add. rewrite add_ok by lia. reflexivity.
Qed.

Definition draw_col (u : unit_results) : nat := if N.testbit (u_draw u) 5 then 8%nat else if N.testbit (u_draw u) 6 then 7%nat else 9%nat.

Section BoardData.
  Variable p : profile.
  Variable n : nat.
  Variable hr : list unit_results.
  Hypothesis Hl : length hr = (NUM_HANDS * n)%nat.
  Hypothesis Hlt : light hr.
  Hypothesis Hn9 : (n <= 9)%nat.
  Hypothesis Hrank : forall k, (k < NUM_HANDS * n)%nat -> u_valid (unth k hr) = true -> u_rank (unth k hr) <= 8.

  Definition rank_eff (i : nat) (q : nat) (b : big) (u : unit_results) : big :=
    if u_valid u && (q =? i * 9 + N.to_nat (u_rank u))%nat then big_plus u b else b.
  Definition draw_eff (i : nat) (q : nat) (b : big) (u : unit_results) : big :=
    if (i * 10 <=? q)%nat && (q <? i * 10 + 10)%nat && in_draw (q - i * 10) u then big_plus u b else b.

  Lemma draws7 i u W : (i < n)%nat -> W + u_weight u < 2 ^ 32 -> forall c a l, (a + c <= 7)%nat -> length l = (10 * n)%nat ->
    (forall q, (i * 10 + a <= q)%nat -> bg_weight (bnth q l) <= W) ->
    exists l', foldM (fun ds k => if N.testbit (u_draw u) (N.of_nat k) then updf ds (i * 10 + k) (big_add p u) else Ret ds) (seq a c) l = Ret l' /\
      length l' = length l /\
      forall q, bnth q l' = if (i * 10 + a <=? q)%nat && (q <? i * 10 + a + c)%nat && N.testbit (u_draw u) (N.of_nat (q - i * 10)) then big_plus u (bnth q l) else bnth q l.
  Proof.
    intros Hi Hw. induction c as [|c IH]; intros a l Ha Hll Hc; cbn [seq foldM].
    - exists l. split; [reflexivity|]. split; [reflexivity|]. intros q.
      destruct (Nat.leb_spec (i * 10 + a) q), (Nat.ltb_spec q (i * 10 + a + 0)); cbn [andb]; try reflexivity; lia.
    - assert (G : exists l1, (if N.testbit (u_draw u) (N.of_nat a) then updf l (i * 10 + a) (big_add p u) else Ret l) = Ret l1 /\ length l1 = length l /\
        forall q, bnth q l1 = if (q =? i * 10 + a)%nat && N.testbit (u_draw u) (N.of_nat a) then big_plus u (bnth q l) else bnth q l).
      { destruct (N.testbit (u_draw u) (N.of_nat a)) eqn:Eb.
        - assert (Hk : (i * 10 + a < length l)%nat) by lia. pose proof (Hc (i * 10 + a)%nat ltac:(lia)) as Hck.
          rewrite (updf_ok l (i * 10 + a) _ (bnth (i * 10 + a) l) (big_plus u (bnth (i * 10 + a) l))); [| apply nth_error_nth'; exact Hk |unfold big_add; rewrite add_ok by lia; reflexivity].
          eexists. split; [reflexivity|]. split; [apply set_nth_length|]. intros q. rewrite nth_set_nth by exact Hk. rewrite andb_true_r.
          destruct (Nat.eqb_spec q (i * 10 + a)) as [->|]; reflexivity.
        - exists l. split; [reflexivity|]. split; [reflexivity|]. intros q. rewrite andb_false_r. reflexivity. }
      destruct G as (l1 & E1 & L1 & N1). rewrite E1. cbn [bind].
      destruct (IH (S a) l1) as (l2 & E2 & L2 & N2); [lia|congruence| |].
      { intros q Hq. rewrite N1. destruct (Nat.eqb_spec q (i * 10 + a)); [lia|]. cbn [andb]. apply Hc. lia. }
      exists l2. split; [exact E2|]. split; [congruence|]. intros q. rewrite N2, N1.
      destruct (Nat.eqb_spec q (i * 10 + a)) as [->|Hne].
      + rewrite (proj2 (Nat.leb_gt (i * 10 + S a) (i * 10 + a))) by lia. cbn [andb].
        rewrite (proj2 (Nat.leb_le _ _)), (proj2 (Nat.ltb_lt (i * 10 + a) (i * 10 + a + S c))) by lia. cbn [andb].
        replace (i * 10 + a - i * 10)%nat with a by lia. reflexivity.
      + cbn [andb]. destruct (Nat.leb_spec (i * 10 + S a) q), (Nat.ltb_spec q (i * 10 + S a + c)), (Nat.leb_spec (i * 10 + a) q), (Nat.ltb_spec q (i * 10 + a + S c)); cbn [andb]; try reflexivity; lia.
  Qed.

  Lemma board_hand_ok i j ranks draws W : (i < n)%nat -> (j < NUM_HANDS)%nat -> length ranks = (9 * n)%nat -> length draws = (10 * n)%nat ->
    capped W ranks -> capped W draws -> W + 255 < 2 ^ 32 ->
    exists ranks' draws', board_hand p hr i (ranks, draws) j = Ret (ranks', draws') /\ length ranks' = (9 * n)%nat /\ length draws' = (10 * n)%nat /\
      capped (W + 255) ranks' /\ capped (W + 255) draws' /\
      (forall q, bnth q ranks' = rank_eff i q (bnth q ranks) (unth (i * NUM_HANDS + j) hr)) /\
      (forall q, bnth q draws' = draw_eff i q (bnth q draws) (unth (i * NUM_HANDS + j) hr)).
  Proof.
    intros Hi Hj Hlr Hld Hcr Hcd HW. assert (HN : NUM_HANDS = 1326%nat) by reflexivity.
    assert (Hk : (i * NUM_HANDS + j < length hr)%nat) by (rewrite Hl, HN in *; nia).
    pose proof (Hlt (i * NUM_HANDS + j)%nat) as Hu. specialize (Hrank (i * NUM_HANDS + j)%nat ltac:(lia)).
    unfold board_hand. rewrite (get_nth hr _ unit_default) by exact Hk. cbn [bind].
    unfold rank_eff, draw_eff, in_draw. revert Hu Hrank. generalize (unth (i * NUM_HANDS + j) hr). intros u Hu Hr.
    destruct (u_valid u).
    2:{ exists ranks, draws. split; [reflexivity|]. do 2 (split; [assumption|]). split; [intros k; specialize (Hcr k); lia|]. split; [intros k; specialize (Hcd k); lia|].
        split; intros q; [reflexivity|]. cbn [andb]. rewrite andb_false_r. reflexivity. }
    specialize (Hr eq_refl). cbn [andb].
    destruct (big_step p u ranks (i * 9 + N.to_nat (u_rank u)) W) as (ranks1 & E1 & L1 & N1); [lia|exact Hcr|lia|].
    rewrite E1. cbn [bind].
    destruct (draws7 i u W Hi ltac:(lia) 7 0 draws) as (draws1 & E2 & L2 & N2); [lia|exact Hld|intros q _; apply Hcd|].
    rewrite E2. cbn [bind]. rewrite Nat.add_0_r in N2.
    assert (H7 : forall q, (i * 10 + 7 <= q)%nat -> bnth q draws1 = bnth q draws).
    { intros q Hq. rewrite N2. rewrite (proj2 (Nat.ltb_ge q (i * 10 + 7))) by lia. rewrite andb_false_r. reflexivity. }
    assert (G : exists draws2, (if N.testbit (u_draw u) 7 then
         let check_1 := N.testbit (u_draw u) 6 in let check_2 := N.testbit (u_draw u) 5 in
         let draw_rank := if check_2 then 8%nat else if check_1 then 7%nat else 9%nat in updf draws1 (i * 10 + draw_rank) (big_add p u) else Ret draws1) = Ret draws2 /\
       length draws2 = length draws1 /\
       forall q, bnth q draws2 = if N.testbit (u_draw u) 7 && (q =? i * 10 + draw_col u)%nat then big_plus u (bnth q draws1) else bnth q draws1).
    { cbv zeta. fold (draw_col u). assert (Hdc : (7 <= draw_col u <= 9)%nat) by (unfold draw_col; destruct (N.testbit (u_draw u) 5), (N.testbit (u_draw u) 6); lia).
      destruct (N.testbit (u_draw u) 7); cbn [andb]; [|exists draws1; auto].
      assert (Hkd : (i * 10 + draw_col u < length draws1)%nat) by lia. pose proof (Hcd (i * 10 + draw_col u)%nat) as Hck. rewrite <- H7 in Hck by lia.
      rewrite (updf_ok draws1 _ _ (bnth (i * 10 + draw_col u) draws1) (big_plus u (bnth (i * 10 + draw_col u) draws1))); [|apply nth_error_nth'; exact Hkd|unfold big_add; rewrite add_ok by lia; reflexivity].
      eexists. split; [reflexivity|]. split; [apply set_nth_length|]. intros q. rewrite nth_set_nth by exact Hkd.
      destruct (Nat.eqb_spec q (i * 10 + draw_col u)) as [->|]; reflexivity. }
    destruct G as (draws2 & E3 & L3 & N3). cbv zeta in E3 |- *. rewrite E3. cbn [bind]. exists ranks1, draws2. split; [reflexivity|]. split; [congruence|]. split; [congruence|].
    assert (Hdraw : forall q, bnth q draws2 = if (i * 10 <=? q)%nat && (q <? i * 10 + 10)%nat &&
       (if (q - i * 10 <? 7)%nat then N.testbit (u_draw u) (N.of_nat (q - i * 10))
        else N.testbit (u_draw u) 7 && (if N.testbit (u_draw u) 5 then (q - i * 10 =? 8)%nat else if N.testbit (u_draw u) 6 then (q - i * 10 =? 7)%nat else (q - i * 10 =? 9)%nat))
       then big_plus u (bnth q draws) else bnth q draws).
    { intros q. rewrite N3. destruct (Nat.ltb_spec q (i * 10 + 7)) as [Hq|Hq].
      - replace (q =? i * 10 + draw_col u)%nat with false by (symmetry; apply Nat.eqb_neq; unfold draw_col; destruct (N.testbit (u_draw u) 5), (N.testbit (u_draw u) 6); lia).
        rewrite andb_false_r, N2. rewrite (proj2 (Nat.ltb_lt q (i * 10 + 7))) by lia. rewrite (proj2 (Nat.ltb_lt q (i * 10 + 10))) by lia.
        rewrite (proj2 (Nat.ltb_lt (q - i * 10) 7)) by lia. reflexivity.
      - rewrite H7 by lia. rewrite (proj2 (Nat.leb_le (i * 10) q)) by lia. rewrite (proj2 (Nat.ltb_ge (q - i * 10) 7)) by lia. cbn [andb].
        replace (q =? i * 10 + draw_col u)%nat with (q - i * 10 =? draw_col u)%nat.
        2:{ destruct (Nat.eqb_spec (q - i * 10) (draw_col u)), (Nat.eqb_spec q (i * 10 + draw_col u)); try reflexivity; lia. }
        unfold draw_col. destruct (Nat.ltb_spec q (i * 10 + 10)) as [Hq'|Hq']; cbn [andb].
        + destruct (N.testbit (u_draw u) 7), (N.testbit (u_draw u) 5), (N.testbit (u_draw u) 6); reflexivity.
        + destruct (N.testbit (u_draw u) 7), (N.testbit (u_draw u) 5), (N.testbit (u_draw u) 6); cbn [andb]; try reflexivity;
            match goal with |- context[(?a =? ?b)%nat] => destruct (Nat.eqb_spec a b); [lia|reflexivity] end. }
    split; [|split; [|split; [exact N1|exact Hdraw]]].
    - intros k. rewrite N1. specialize (Hcr k). destruct (k =? i * 9 + N.to_nat (u_rank u))%nat; cbn [big_plus bg_weight]; lia.
    - intros k. rewrite Hdraw. specialize (Hcd k). match goal with |- context[if ?b then _ else _] => destruct b end; cbn [big_plus bg_weight]; lia.
  Qed.

  Lemma board_player_ok i : (i < n)%nat -> forall c a ranks draws W, (a + c <= NUM_HANDS)%nat -> length ranks = (9 * n)%nat -> length draws = (10 * n)%nat ->
    capped W ranks -> capped W draws -> W + 255 * N.of_nat c < 2 ^ 32 ->
    exists ranks' draws', foldM (board_hand p hr i) (seq a c) (ranks, draws) = Ret (ranks', draws') /\ length ranks' = (9 * n)%nat /\ length draws' = (10 * n)%nat /\
      capped (W + 255 * N.of_nat c) ranks' /\ capped (W + 255 * N.of_nat c) draws' /\
      (forall q, bnth q ranks' = fold_left (rank_eff i q) (map (fun j => unth (i * NUM_HANDS + j) hr) (seq a c)) (bnth q ranks)) /\
      (forall q, bnth q draws' = fold_left (draw_eff i q) (map (fun j => unth (i * NUM_HANDS + j) hr) (seq a c)) (bnth q draws)).
  Proof.
    intros Hi. induction c as [|c IH]; intros a ranks draws W Ha Hlr Hld Hcr Hcd HW; cbn [seq foldM map fold_left].
    - exists ranks, draws. rewrite N.mul_0_r, N.add_0_r. auto 10.
    - rewrite Nat2N.inj_succ in *.
      destruct (board_hand_ok i a ranks draws W Hi ltac:(lia) Hlr Hld Hcr Hcd ltac:(lia)) as (r1 & d1 & E1 & Lr & Ld & Cr & Cd & Nr & Nd).
      rewrite E1. cbn [bind].
      destruct (IH (S a) r1 d1 (W + 255) ltac:(lia) Lr Ld Cr Cd ltac:(lia)) as (r2 & d2 & E2 & Lr2 & Ld2 & Cr2 & Cd2 & Nr2 & Nd2).
      exists r2, d2. split; [exact E2|]. do 2 (split; [assumption|]). replace (W + 255 * N.succ (N.of_nat c)) with (W + 255 + 255 * N.of_nat c) by lia.
      do 2 (split; [assumption|]). split; intros q; [rewrite Nr2, Nr|rewrite Nd2, Nd]; reflexivity.
  Qed.

  Definition entries (i : nat) : list unit_results := map (fun j => unth (i * NUM_HANDS + j) hr) (seq 0 NUM_HANDS).

  Lemma entry_in i u : (i < n)%nat -> In u (entries i) -> exists k, (k < NUM_HANDS * n)%nat /\ u = unth k hr.
  Proof.
    intros Hi H. apply in_map_iff in H as (j & <- & Hj). apply in_seq in Hj. assert (HN : NUM_HANDS = 1326%nat) by reflexivity.
    exists (i * NUM_HANDS + j)%nat. split; [rewrite HN in *; nia|reflexivity].
  Qed.

  Lemma rank_other i i0 c us b : (c < 9)%nat -> (forall u, In u us -> u_valid u = true -> u_rank u <= 8) ->
    fold_left (rank_eff i (i0 * 9 + c)) us b = if (i =? i0)%nat then fold_left (fun b u => if in_rank c u then big_plus u b else b) us b else b.
  Proof.
    intros Hc. revert b. induction us as [|u us IH]; intros b Hus; cbn [fold_left]; [destruct (i =? i0)%nat; reflexivity|].
    rewrite IH by (intros; apply Hus; [right; assumption|assumption]). unfold rank_eff at 2, in_rank at 2. specialize (Hus u (or_introl eq_refl)).
    unfold rank_eff, in_rank. destruct (u_valid u); cbn [andb]; [|destruct (i =? i0)%nat; reflexivity]. specialize (Hus eq_refl).
    destruct (Nat.eqb_spec i i0) as [->|Hne].
    - replace (i0 * 9 + c =? i0 * 9 + N.to_nat (u_rank u))%nat with (N.to_nat (u_rank u) =? c)%nat; [reflexivity|].
      destruct (Nat.eqb_spec (N.to_nat (u_rank u)) c), (Nat.eqb_spec (i0 * 9 + c) (i0 * 9 + N.to_nat (u_rank u))); try reflexivity; lia.
    - destruct (Nat.eqb_spec (i0 * 9 + c) (i * 9 + N.to_nat (u_rank u))); [lia|reflexivity].
  Qed.
  Lemma draw_other i i0 c us b : (c < 10)%nat ->
    fold_left (draw_eff i (i0 * 10 + c)) us b = if (i =? i0)%nat then fold_left (fun b u => if in_draw c u then big_plus u b else b) us b else b.
  Proof.
    intros Hc. assert (E : forall b u, draw_eff i (i0 * 10 + c) b u = if (i =? i0)%nat then (if in_draw c u then big_plus u b else b) else b).
    { intros b' u. unfold draw_eff. destruct (Nat.eqb_spec i i0) as [->|Hne].
      - rewrite (proj2 (Nat.leb_le _ _)), (proj2 (Nat.ltb_lt _ _)) by lia. cbn [andb]. replace (i0 * 10 + c - i0 * 10)%nat with c by lia. reflexivity.
      - destruct (Nat.leb_spec (i * 10) (i0 * 10 + c)), (Nat.ltb_spec (i0 * 10 + c) (i * 10 + 10)); cbn [andb]; try reflexivity; lia. }
    revert b. induction us as [|u us IH]; intros b; cbn [fold_left]; [destruct (i =? i0)%nat; reflexivity|]. rewrite IH, E. destruct (i =? i0)%nat; reflexivity.
  Qed.

  Lemma board_sums_ok : exists ranks draws,
    foldM (fun s i => foldM (board_hand p hr i) (seq 0 NUM_HANDS) s) (seq 0 n) (repeat big_default (9 * n), repeat big_default (10 * n)) = Ret (ranks, draws) /\
    length ranks = (9 * n)%nat /\ length draws = (10 * n)%nat /\
    (forall i c, (i < n)%nat -> (c < 9)%nat -> bnth (i * 9 + c) ranks = tally (in_rank c) (entries i)) /\
    (forall i c, (i < n)%nat -> (c < 10)%nat -> bnth (i * 10 + c) draws = tally (in_draw c) (entries i)).
  Proof.
    assert (HN : NUM_HANDS = 1326%nat) by reflexivity.
    assert (G : forall d a ranks draws W, (a + d <= n)%nat -> length ranks = (9 * n)%nat -> length draws = (10 * n)%nat ->
      capped W ranks -> capped W draws -> W + 255 * 1326 * N.of_nat d < 2 ^ 32 ->
      exists ranks' draws', foldM (fun s i => foldM (board_hand p hr i) (seq 0 NUM_HANDS) s) (seq a d) (ranks, draws) = Ret (ranks', draws') /\
        length ranks' = (9 * n)%nat /\ length draws' = (10 * n)%nat /\
        (forall i c, (i < n)%nat -> (c < 9)%nat -> bnth (i * 9 + c) ranks' =
           if (a <=? i)%nat && (i <? a + d)%nat then fold_left (fun b u => if in_rank c u then big_plus u b else b) (entries i) (bnth (i * 9 + c) ranks) else bnth (i * 9 + c) ranks) /\
        (forall i c, (i < n)%nat -> (c < 10)%nat -> bnth (i * 10 + c) draws' =
           if (a <=? i)%nat && (i <? a + d)%nat then fold_left (fun b u => if in_draw c u then big_plus u b else b) (entries i) (bnth (i * 10 + c) draws) else bnth (i * 10 + c) draws)).
    { induction d as [|d IH]; intros a ranks draws W Ha Lr Ld Cr Cd HW; cbn [seq foldM].
      - exists ranks, draws. split; [reflexivity|]. do 2 (split; [assumption|]).
        split; intros i c Hi Hc; (destruct (Nat.leb_spec a i), (Nat.ltb_spec i (a + 0)); cbn [andb]; try reflexivity; lia).
      - rewrite Nat2N.inj_succ in HW.
        destruct (board_player_ok a ltac:(lia) NUM_HANDS 0 ranks draws W ltac:(lia) Lr Ld Cr Cd) as (r1 & d1 & E1 & Lr1 & Ld1 & Cr1 & Cd1 & Nr & Nd).
        { rewrite HN. change (N.of_nat 1326) with 1326. lia. }
        rewrite E1. cbn [bind]. rewrite HN in Cr1, Cd1. change (N.of_nat 1326) with 1326 in Cr1, Cd1.
        destruct (IH (S a) r1 d1 (W + 255 * 1326) ltac:(lia) Lr1 Ld1 Cr1 Cd1 ltac:(lia)) as (r2 & d2 & E2 & Lr2 & Ld2 & Nr2 & Nd2).
        exists r2, d2. split; [exact E2|]. do 2 (split; [assumption|]). fold (entries a) in Nr, Nd. split; intros i c Hi Hc.
        + rewrite Nr2, Nr by assumption. rewrite rank_other.
          2: exact Hc. 2:{ intros u Hu Hv. destruct (entry_in a u ltac:(lia) Hu) as (k & Hk & ->). apply Hrank; assumption. }
          destruct (Nat.leb_spec (S a) i), (Nat.ltb_spec i (S a + d)), (Nat.leb_spec a i), (Nat.ltb_spec i (a + S d)), (Nat.eqb_spec a i); cbn [andb]; subst; try reflexivity; lia.
        + rewrite Nd2, Nd by assumption. rewrite draw_other by exact Hc.
          destruct (Nat.leb_spec (S a) i), (Nat.ltb_spec i (S a + d)), (Nat.leb_spec a i), (Nat.ltb_spec i (a + S d)), (Nat.eqb_spec a i); cbn [andb]; subst; try reflexivity; lia. }
    destruct (G n 0%nat (repeat big_default (9 * n)) (repeat big_default (10 * n)) 0) as (ranks & draws & E & Lr & Ld & Nr & Nd);
      [lia|apply repeat_length|apply repeat_length|intros k; rewrite nth_repeat_any; cbn; lia|intros k; rewrite nth_repeat_any; cbn; lia|change (2 ^ 32) with 4294967296; lia|].
    exists ranks, draws. split; [exact E|]. do 2 (split; [assumption|]).
    split; intros i c Hi Hc; [rewrite Nr|rewrite Nd]; try assumption; rewrite (proj2 (Nat.ltb_lt i (0 + n))) by lia; cbn [Nat.leb andb]; rewrite nth_repeat_any; reflexivity.
  Qed.

  Lemma zip_nth {A C} (f : A -> C -> C) l d dc k : (k < length l)%nat -> nth k (zip_with f l (repeat dc (length l))) dc = f (nth k l d) dc.
  Proof. unfold zip_with. revert k. induction l as [|x l IH]; intros [|k] H; cbn [length repeat combine map nth] in *; try lia; [reflexivity|]. apply IH. lia. Qed.
  Lemma zip_length {A C} (f : A -> C -> C) l dc : length (zip_with f l (repeat dc (length l))) = length l.
  Proof. unfold zip_with. rewrite map_length, combine_length, repeat_length. apply Nat.min_id. Qed.

  Lemma generate_board_data_ok : exists br bd,
    generate_board_data p n hr (repeat unit_default (9 * n)) (repeat unit_default (10 * n)) = Ret (br, bd) /\
    length br = (9 * n)%nat /\ length bd = (10 * n)%nat /\
    (forall i c, (i < n)%nat -> (c < 9)%nat -> unth (i * 9 + c) br = big_to_unit (tally (in_rank c) (entries i)) unit_default) /\
    (forall i c, (i < n)%nat -> (c < 10)%nat -> unth (i * 10 + c) bd = big_to_unit (tally (in_draw c) (entries i)) unit_default).
  Proof.
    unfold generate_board_data. destruct board_sums_ok as (ranks & draws & E & Lr & Ld & Nr & Nd). rewrite E. cbn [bind].
    do 2 eexists. split; [reflexivity|]. rewrite <- Lr, <- Ld, !zip_length. do 2 (split; [reflexivity|]). split; intros i c Hi Hc.
    - rewrite (zip_nth big_to_unit ranks big_default) by lia. rewrite Nr by assumption. reflexivity.
    - rewrite (zip_nth big_to_unit draws big_default) by lia. rewrite Nd by assumption. reflexivity.
  Qed.
End BoardData.

(* ------------------------------------------------------------------------- *)
(** * After the threads have joined *)

Section Finish.
  Variable p : profile.
  Variable ranges : list (list combo).
  Variable board : N.
  Variable m : simulator.
  Hypothesis Hm2 : m_hand_ranges m = ranges.
  Hypothesis Hm3 : m_board_mask m = board.
  Hypothesis Hok : Forall (Forall (off_board board)) ranges.
  Hypothesis Hw : Forall (Forall (fun h => c_w h <= 255)) ranges.
  Hypothesis Hn9 : (length ranges <= 9)%nat.
  Variable r0 r : results.
  Variable flag : N.
  Variable V : obs -> N.
  Hypothesis Hr0 : r0 = with_hand_results (results_init (length ranges)) (r_hand_results r0).
  Hypothesis Hready : entries_ready p board ranges (r_hand_results r0).
  Hypothesis Hflag : forall i, (i < length ranges)%nat -> N.testbit flag (N.of_nat i) = plain (nth i ranges []).
  Hypothesis Hres : results_ok p (length ranges) r0 r V.
  Notation n := (length ranges).

  Lemma static_nth k : static (unth k (r_hand_results r)) (unth k (r_hand_results r0)).
  Proof.
    destruct Hres as (_ & _ & _ & _ & _ & _ & HF & _). revert k. clear - HF.
    induction HF as [|u u0 l l0 H _ IH]; intros [|k]; cbn [nth]; [apply static_refl|apply static_refl|exact H|apply IH].
  Qed.
  Lemma range_in i h : (i < n)%nat -> In h (nth i ranges []) -> off_board board h /\ c_w h <= 255.
  Proof.
    intros Hi Hh. rewrite Forall_forall in Hok, Hw. assert (Hin : In (nth i ranges []) ranges) by (apply nth_In; exact Hi).
    specialize (Hok _ Hin). specialize (Hw _ Hin). rewrite Forall_forall in Hok, Hw. auto.
  Qed.
  Lemma plain_weight hands h : plain hands = true -> In h hands -> c_w h = 100.
  Proof. unfold plain. rewrite forallb_forall. intros H Hh. apply N.eqb_eq, H, Hh. Qed.

  (* an entry at the end: the counters of the run, the hand's own weight, the rates *)
  Definition hand_at (i j : nat) : option combo := last_at p i (nth i ranges []) (NUM_HANDS * i + j)%nat.
  Definition final_entry (i j : nat) (u u' : unit_results) : Prop :=
    u_wins u' = u_wins u /\ u_ties u' = u_ties u /\ u_total u' = u_total u /\ u_corrected_ties u' = u_corrected_ties u /\
    u_valid u' = match hand_at i j with Some _ => true | None => false end /\
    u_weight u' = match hand_at i j with Some h => c_w h | None => 0 end /\
    u_rank u' = match hand_at i j with Some h => if 2 <? count_ones board then category_of (now board h) else U8MAX | None => U8MAX end /\
    u_draw u' = match hand_at i j with Some h => if 2 <? count_ones board then draw_of p board h else 0 | None => 0 end /\
    (u_valid u' = true -> 0 < u_total u -> u_equity u' = u_equity u /\ u_winrate u' = f_div (f_of_N (u_wins u)) (f_of_N (u_total u)) /\
       u_tierate u' = f_div (f_of_N (u_ties u)) (f_of_N (u_total u))) /\
    (u_valid u' = true -> u_total u = 0 -> u_equity u' = f_zero).

  Lemma finish_ok : exists r', finish p m flag r = Ret r' /\ r_wins r' = r_wins r /\ r_ties r' = r_ties r /\
    r_wins_by_mask r' = r_wins_by_mask r /\ r_eval_count r' = r_eval_count r /\ r_equities r' = get_equity (r_wins r) (r_ties r) /\
    length (r_hand_results r') = (n * NUM_HANDS)%nat /\
    (forall i j, (i < n)%nat -> (j < NUM_HANDS)%nat -> final_entry i j (unth (NUM_HANDS * i + j)%nat (r_hand_results r)) (unth (NUM_HANDS * i + j)%nat (r_hand_results r'))) /\
    r_combo_results r' = flat_map (fun i => map (combo_of (r_hand_results r') i) (seq 0 NUM_COMBOS)) (seq 0 n) /\
    length (r_board_results r') = (9 * n)%nat /\ length (r_board_draws r') = (10 * n)%nat /\
    (forall i c, (i < n)%nat -> (c < 9)%nat -> unth (i * 9 + c)%nat (r_board_results r') =
       if 2 <? count_ones board then big_to_unit (tally (in_rank c) (entries (r_hand_results r') i)) unit_default else unit_default) /\
    (forall i c, (i < n)%nat -> (c < 10)%nat -> unth (i * 10 + c)%nat (r_board_draws r') =
       if 2 <? count_ones board then big_to_unit (tally (in_draw c) (entries (r_hand_results r') i)) unit_default else unit_default).
  Proof.
    pose proof static_nth as Hst. destruct Hres as (H1 & H2 & H3 & H4 & _ & _ & _ & _ & H8 & H9). destruct Hready as [HL0 HE0].
    assert (Hhole : Forall (Forall hole_hand) ranges) by (apply (ranges_hole ranges board); exact Hok).
    unfold finish. rewrite Hm2, Hm3.
    destruct (fix_hand_weights_ok p flag ranges (r_hand_results r) Hhole) as (hr1 & E1 & L1 & N1); [rewrite H4; apply Nat.mul_comm|]. rewrite E1. cbn [bind].
    assert (Hlen : length (get_equity (r_wins r) (r_ties r)) = n) by (unfold get_equity; rewrite !map_length, combine_length; lia).
    rewrite Hlen.
    (* the entries after fix_hand_weights *)
    assert (Hfix : forall i j, (i < n)%nat -> (j < NUM_HANDS)%nat -> let u := unth (NUM_HANDS * i + j)%nat (r_hand_results r) in let u1 := unth (NUM_HANDS * i + j)%nat hr1 in
       (u_wins u1 = u_wins u /\ u_ties u1 = u_ties u /\ u_total u1 = u_total u /\ u_corrected_ties u1 = u_corrected_ties u /\ u_equity u1 = u_equity u) /\
       (u_valid u1 = match hand_at i j with Some _ => true | None => false end /\
        u_weight u1 = match hand_at i j with Some h => c_w h | None => 0 end /\
        u_rank u1 = match hand_at i j with Some h => if 2 <? count_ones board then category_of (now board h) else U8MAX | None => U8MAX end /\
        u_draw u1 = match hand_at i j with Some h => if 2 <? count_ones board then draw_of p board h else 0 | None => 0 end)).
    { intros i j Hi Hj. cbv zeta. rewrite N1 by assumption. destruct (Hst (NUM_HANDS * i + j)%nat) as (S1 & S2 & S3 & S4).
      rewrite HE0 in S1, S2, S3, S4 by assumption. unfold ready, fixed in *. fold (hand_at i j) in *. change (last_at p i (nth i ranges []) (NUM_HANDS * i + j)%nat) with (hand_at i j). rewrite (Hflag i Hi).
      revert S1 S2 S3 S4. generalize (unth (NUM_HANDS * i + j)%nat (r_hand_results r)). intros u S1 S2 S3 S4.
      destruct (hand_at i j) as [h|] eqn:Eh.
      - assert (Hin : In h (nth i ranges [])) by (apply last_at_some in Eh; apply Eh).
        assert (Hwt : u_weight u = if plain (nth i ranges []) then 1 else c_w h) by (rewrite S1; destruct (2 <? count_ones board); reflexivity).
        assert (Hv : u_valid u = true) by (rewrite S4; destruct (2 <? count_ones board); reflexivity).
        assert (Hrk : u_rank u = if 2 <? count_ones board then category_of (now board h) else U8MAX) by (rewrite S2; destruct (2 <? count_ones board); reflexivity).
        assert (Hdr : u_draw u = if 2 <? count_ones board then draw_of p board h else 0) by (rewrite S3; destruct (2 <? count_ones board); reflexivity).
        destruct (plain (nth i ranges [])) eqn:Ep.
        + rewrite Hv. cbn [with_weight u_wins u_ties u_total u_corrected_ties u_equity u_valid u_weight u_rank u_draw].
          rewrite (plain_weight _ _ Ep Hin). auto 10.
        + auto 10.
      - cbn [unit_default u_weight u_rank u_draw u_valid] in S1, S2, S3, S4. destruct (plain (nth i ranges [])); auto 10. }
    assert (HL1 : length hr1 = (NUM_HANDS * n)%nat) by lia.
    assert (Hlight : light hr1).
    { intros k. destruct (Nat.ltb_spec k (NUM_HANDS * n)) as [Hk|Hk].
      - destruct (slot_split k n Hk) as (i & j & -> & Hi & Hj). destruct (Hfix i j Hi Hj) as (_ & _ & -> & _).
        destruct (hand_at i j) as [h|] eqn:Eh; [|lia]. apply last_at_some in Eh as [Hin _]. apply (range_in i h Hi Hin).
      - rewrite nth_overflow by lia. cbn. lia. }
    destruct (generate_final_data_ok p n hr1 HL1 Hlight) as (hr2 & E2 & L2 & N2). rewrite E2. cbn [bind].
    assert (Hlight2 : light hr2).
    { intros k. destruct (Nat.ltb_spec k (NUM_HANDS * n)) as [Hk|Hk]; [rewrite N2, rated_weight by exact Hk; apply Hlight|rewrite nth_overflow by lia; cbn; lia]. }
    assert (Hfinal : forall i j, (i < n)%nat -> (j < NUM_HANDS)%nat -> final_entry i j (unth (NUM_HANDS * i + j)%nat (r_hand_results r)) (unth (NUM_HANDS * i + j)%nat hr2)).
    { intros i j Hi Hj. assert (HN : NUM_HANDS = 1326%nat) by reflexivity.
      rewrite N2 by (rewrite HN in *; nia). destruct (Hfix i j Hi Hj) as ((F1 & F2 & F3 & F4 & F5) & F6 & F7 & F8 & F9). unfold final_entry, rated.
      revert F1 F2 F3 F4 F5 F6 F7 F8 F9. generalize (unth (NUM_HANDS * i + j)%nat (r_hand_results r)), (unth (NUM_HANDS * i + j)%nat hr1). intros u u1 F1 F2 F3 F4 F5 F6 F7 F8 F9.
      destruct (u_valid u1) eqn:Ev.
      - destruct (N.ltb_spec 0 (u_total u1)) as [Ht|Ht]; cbn [with_rates u_wins u_ties u_total u_corrected_ties u_equity u_winrate u_tierate u_weight u_rank u_draw u_valid].
        + rewrite <- F1, <- F2, <- F3, Ev. split; [reflexivity|]. split; [reflexivity|]. split; [reflexivity|]. split; [assumption|]. split; [assumption|]. split; [assumption|]. split; [assumption|]. split; [assumption|]. split; [auto|]. intros _ H0. lia.
        + rewrite <- F1, <- F2, <- F3, Ev. split; [reflexivity|]. split; [reflexivity|]. split; [reflexivity|]. split; [assumption|]. split; [assumption|]. split; [assumption|]. split; [assumption|]. split; [assumption|]. split; [intros _ H0; lia|]. auto.
      - rewrite Ev. split; [assumption|]. split; [assumption|]. split; [assumption|]. split; [assumption|]. split; [assumption|]. split; [assumption|]. split; [assumption|]. split; [assumption|]. split; discriminate. }
    assert (Hcombo : flat_map (fun i => map (combo_of hr1 i) (seq 0 NUM_COMBOS)) (seq 0 n) = flat_map (fun i => map (combo_of hr2 i) (seq 0 NUM_COMBOS)) (seq 0 n)).
    { rewrite !flat_map_concat_map. f_equal. apply map_ext_in. intros i Hi. apply in_seq in Hi. apply map_ext_in. intros c Hc. apply in_seq in Hc.
      change NUM_COMBOS with 169%nat in Hc. pose proof (combo_inside c ltac:(lia)) as Hins. assert (HN : NUM_HANDS = 1326%nat) by reflexivity.
      unfold combo_of, combo_fin. f_equal.
      assert (G : forall l a, (forall k, In k l -> (k < NUM_HANDS * n)%nat) -> fold_left fin_add (map (fun k => unth k hr1) l) a = fold_left fin_add (map (fun k => unth k hr2) l) a).
      { induction l as [|k l IH]; intros a Hk; [reflexivity|]. cbn [map fold_left]. rewrite N2, fin_add_rated by (apply Hk; left; reflexivity). apply IH. intros; apply Hk; right; assumption. }
      apply G. intros k Hk. apply in_seq in Hk. rewrite HN in *. nia. }
    assert (Hb1 : r_board_results r = repeat unit_default (9 * n)) by (rewrite H8, Hr0; reflexivity).
    assert (Hb2 : r_board_draws r = repeat unit_default (10 * n)) by (rewrite H9, Hr0; reflexivity).
    rewrite Hcombo, Hb1, Hb2.
    destruct (2 <? count_ones board) eqn:E2b.
    - destruct (generate_board_data_ok p n hr2) as (br & bd & E3 & Lb & Ld & Nb & Nd); [congruence|exact Hlight2|exact Hn9| |].
      { intros k Hk Hv. destruct (slot_split k n Hk) as (i & j & -> & Hi & Hj). destruct (Hfinal i j Hi Hj) as (_ & _ & _ & _ & F5 & _ & F7 & _). rewrite F7. rewrite F5 in Hv.
        destruct (hand_at i j); [rewrite E2b; apply category_le|discriminate]. }
      rewrite E3. cbn [bind]. eexists. split; [reflexivity|]. cbn [r_wins r_ties r_wins_by_mask r_eval_count r_equities r_hand_results r_combo_results r_board_results r_board_draws].
      do 5 (split; [reflexivity|]). split; [lia|]. split; [exact Hfinal|]. split; [reflexivity|]. auto.
    - cbn [bind]. eexists. split; [reflexivity|]. cbn [r_wins r_ties r_wins_by_mask r_eval_count r_equities r_hand_results r_combo_results r_board_results r_board_draws].
      do 5 (split; [reflexivity|]). split; [lia|]. split; [exact Hfinal|]. split; [reflexivity|]. rewrite !repeat_length. do 2 (split; [reflexivity|]).
      split; intros; apply nth_repeat_unit.
  Qed.
End Finish.
