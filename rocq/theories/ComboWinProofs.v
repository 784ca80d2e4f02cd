(* The wins of the preflop combinations of a player and the pots the player won alone. *)
From Verif Require Import Base BaseProofs SumFacts ListFacts Float64 Hand Range FastDivide Combined Sim Approx SpecPoker SpecHand SpecNames SpecEquity
  SpecResults SpecRun SpecApprox SpecFinal BoardProofs PositionProofs IndexProofs ExactProofs ResultProofs ConsistProofs RunProofs FinalProofs FinalRunProofs ApproxResultProofs ShareProofs TableRateProofs SupportProofs KindProofs ComboSumProofs HandWinProofs.
Local Open Scope N_scope.
#[local] Opaque NUM_HANDS NUM_COMBOS.

Lemma add_wins (nh nc : nat) (hands : nat -> list nat) (hs cs : list unit_results) (sh sc : nat) (m w : N) :
  (forall f : nat -> N, sumf (fun c => sumf f (hands c)) (seq 0 nc) = sumf f (seq 0 nh)) -> (forall c j, In j (hands c) -> (j < nh)%nat) ->
  (forall j, (j < nh)%nat -> nth_error hs (sh + j) <> None /\ (u_valid (nth (sh + j) hs unit_default) = false -> u_total (nth (sh + j) hs unit_default) = 0)) ->
  (forall j, (j < nh)%nat -> u_wins (nth (sh + j) hs unit_default) <= u_total (nth (sh + j) hs unit_default)) ->
  (forall c, (c < nc)%nat -> exists u, nth_error cs (sc + c) = Some u /\
     let js := filter (fun j => dealt_hand (nth (sh + j) hs unit_default)) (hands c) in
     let total := sum_of (fun j => u_total (nth (sh + j) hs unit_default)) js in u_wins u = scaled total (sum_of (fun j => u_wins (nth (sh + j) hs unit_default)) js)) ->
  m = sum_of u_total (firstn nh (skipn sh hs)) -> m < 2 ^ 64 -> w = sum_of u_wins (firstn nh (skipn sh hs)) -> sum_of u_wins (firstn nc (skipn sc cs)) = w.
Proof.
  intros HA HI HH HW HC Hm H64 Hw.
  remember (fun j => u_total (nth (sh + j) hs unit_default)) as f eqn:Ef. assert (Ef' : forall j, f j = u_total (nth (sh + j) hs unit_default)) by (intros j; rewrite Ef; reflexivity).
  remember (fun j => u_wins (nth (sh + j) hs unit_default)) as g eqn:Eg. assert (Eg' : forall j, g j = u_wins (nth (sh + j) hs unit_default)) by (intros j; rewrite Eg; reflexivity).
  assert (EM : m = sumf f (seq 0 nh)).
  { rewrite Hm, (slice _ unit_default) by (intros j Hj; apply HH; exact Hj). rewrite <- sumf_sum_of, sumf_map. apply sumf_ext. intros j _. symmetry. apply Ef'. }
  assert (EW : w = sumf g (seq 0 nh)).
  { rewrite Hw, (slice _ unit_default) by (intros j Hj; apply HH; exact Hj). rewrite <- sumf_sum_of, sumf_map. apply sumf_ext. intros j _. symmetry. apply Eg'. }
  assert (EC : forall c, sumf f (filter (fun j => dealt_hand (nth (sh + j) hs unit_default)) (hands c)) = sumf f (hands c) /\
    sumf g (filter (fun j => dealt_hand (nth (sh + j) hs unit_default)) (hands c)) = sumf g (hands c)).
  { intros c. rewrite !sumf_filter. split; apply sumf_ext; intros j Hj; unfold dealt_hand; destruct (HH j (HI c j Hj)) as [_ HV]; pose proof (HW j (HI c j Hj)) as HWj; rewrite ?Ef', ?Eg'.
    - destruct (u_valid (nth (sh + j) hs unit_default)); [cbn [andb]; apply part_zero|]. cbn [andb]. symmetry. apply HV. reflexivity.
    - destruct (u_valid (nth (sh + j) hs unit_default)); cbn [andb].
      + destruct (N.ltb_spec 0 (u_total (nth (sh + j) hs unit_default))); lia.
      + specialize (HV eq_refl). lia. }
  rewrite (slice _ unit_default) by (intros c Hc; destruct (HC c Hc) as (u & E & _); congruence). rewrite <- sumf_sum_of, sumf_map, EW, <- HA.
  apply sumf_ext. intros c Hc. pose proof Hc as Hc'. apply in_seq in Hc. destruct (HC c (proj2 Hc)) as (u & E & S). rewrite (nth_error_nth _ _ unit_default E). cbv zeta in S.
  destruct (EC c) as [EC1 EC2]. rewrite S, <- (sumf_sum_of f), <- (sumf_sum_of g), EC1, EC2.
  assert (HB : sumf f (hands c) < 2 ^ 64).
  { eapply N.le_lt_trans; [|exact H64]. rewrite EM, <- HA. apply (in_sum_le (fun c => sumf f (hands c))). exact Hc'. }
  unfold scaled. apply N.ltb_lt in HB. rewrite HB. reflexivity.
Qed.
Lemma combos_wins (r : results) (i : nat) (m w : N) :
  (forall j, (j < 1326)%nat -> nth_error (r_hand_results r) (1326 * i + j) <> None /\ (u_valid (hand_entry r i j) = false -> u_total (hand_entry r i j) = 0)) ->
  (forall u, In u (r_hand_results r) -> u_wins u + u_ties u <= u_total u) ->
  (forall c, (c < 169)%nat -> exists u, nth_error (r_combo_results r) (169 * i + c) = Some u /\ sums_up r i (filter (fun j => dealt_hand (hand_entry r i j)) (hands_in c)) u) ->
  m = sum_of u_total (firstn 1326 (skipn (1326 * i) (r_hand_results r))) -> m < 2 ^ 64 ->
  w = sum_of u_wins (firstn 1326 (skipn (1326 * i) (r_hand_results r))) -> sum_of u_wins (firstn 169 (skipn (169 * i) (r_combo_results r))) = w.
Proof.
  intros HH HU HC. unfold sums_up, hand_entry in HC. unfold hand_entry in HH. refine (add_wins 1326 169 hands_in (r_hand_results r) (r_combo_results r) (1326 * i) (169 * i) m w all_blocks _ HH _ _).
  - exact hands_below.
  - intros j Hj. destruct (HH j Hj) as [HN _]. destruct (nth_error (r_hand_results r) (1326 * i + j)) as [u|] eqn:E; [|congruence]. rewrite (nth_error_nth _ _ unit_default E).
    specialize (HU u (nth_error_In _ _ E)). lia.
  - intros c Hc. destruct (HC c Hc) as (u & E & HS). exists u. split; [exact E|]. cbv zeta in HS |- *. exact (proj1 HS).
Qed.

Lemma exact_combos_wins p ranges board dead threads cancelled sched o : usable ranges -> exact_equity p ranges board dead threads cancelled sched = Ret (ROk o) -> p = Debug \/ weights_fit ranges board ->
  (length ranges <= 8)%nat -> sum_of (fun x => x) (r_wins_by_mask (o_results o)) < 2 ^ 64 ->
  forall i, (i < length ranges)%nat -> sum_of u_wins (firstn 169 (skipn (169 * i) (r_combo_results (o_results o)))) = nth i (r_wins (o_results o)) 0.
Proof.
  intros Hu H Hp H8 H64 i Hi. destruct (consistent p ranges board dead threads cancelled sched o Hu H Hp) as (HM & HU & _).
  destruct (exact_alone p ranges board dead threads cancelled sched o Hu H Hp H8 i Hi) as [_ HW].
  refine (combos_wins _ i _ _ _ HU _ (HM i Hi) H64 (eq_sym HW)).
  - exact (exact_never p ranges board dead threads cancelled sched o Hu H i Hi).
  - intros c Hc. destruct (run_combos p ranges board dead threads cancelled sched o Hu H Hp i c Hi Hc) as (u & Hn & HS & _). exists u. split; [exact Hn|exact HS].
Qed.
Lemma approx_combos_wins p ranges board dead threads target cancelled shuf rngs fuel sched o : Forall range_ok ranges -> permutes shuf ->
  approx_equity p ranges board dead threads target cancelled shuf rngs fuel sched = Ret (ROk o) -> p = Debug \/ N.of_nat (length sched) * heaviest ranges < 2 ^ 64 ->
  (length ranges <= 8)%nat -> sum_of (fun x => x) (r_wins_by_mask (o_results o)) < 2 ^ 64 ->
  forall i, (i < length ranges)%nat -> sum_of u_wins (firstn 169 (skipn (169 * i) (r_combo_results (o_results o)))) = nth i (r_wins (o_results o)) 0.
Proof.
  intros Hr Hs H Hp H8 H64 i Hi. destruct (approx_consistent p ranges board dead threads target cancelled shuf rngs fuel sched o Hr Hs H Hp) as (HM & HU & _).
  destruct (approx_alone p ranges board dead threads target cancelled shuf rngs fuel sched o Hr Hs H Hp H8 i Hi) as [_ HW].
  refine (combos_wins _ i _ _ _ HU _ (HM i Hi) H64 (eq_sym HW)).
  - exact (approx_never p ranges board dead threads target cancelled shuf rngs fuel sched o Hr Hs H i Hi).
  - intros c Hc. destruct (sampled_combos p ranges board dead threads target cancelled shuf rngs fuel sched o Hr Hs H Hp i c Hi Hc) as (u & Hn & HS & _). exists u. split; [exact Hn|exact HS].
Qed.
