(* The wins of the hands of a player and the pots the player won alone. *)
From Verif Require Import Base Float64 Hand Range FastDivide Combined Sim Approx SpecPoker SpecHand SpecNames SpecEquity SpecResults SpecRun SpecApprox HandWinProofs PropExact.
Local Open Scope N_scope.

(* C167: with up to eight players the wins of a player's 1326 hands add up to the entry of wins_by_mask for this player
   alone and to the player's entry in wins, in complete and cancelled exact runs ... *)
Theorem C167_exact : forall p ranges board dead threads cancelled sched o, usable ranges -> exact_equity p ranges board dead threads cancelled sched = Ret (ROk o) -> p = Debug \/ weights_fit ranges board ->
  (length ranges <= 8)%nat -> forall i, (i < length ranges)%nat ->
  let won := sum_of u_wins (firstn 1326 (skipn (1326 * i) (r_hand_results (o_results o)))) in won = nth (2 ^ i) (r_wins_by_mask (o_results o)) 0 /\ won = nth i (r_wins (o_results o)) 0.
Proof. exact exact_alone. Qed.
(* ... and in approximate runs *)
Theorem C167_approx : forall p ranges board dead threads target cancelled shuf rngs fuel sched o, Forall range_ok ranges -> permutes shuf ->
  approx_equity p ranges board dead threads target cancelled shuf rngs fuel sched = Ret (ROk o) -> p = Debug \/ N.of_nat (length sched) * heaviest ranges < 2 ^ 64 ->
  (length ranges <= 8)%nat -> forall i, (i < length ranges)%nat ->
  let won := sum_of u_wins (firstn 1326 (skipn (1326 * i) (r_hand_results (o_results o)))) in won = nth (2 ^ i) (r_wins_by_mask (o_results o)) 0 /\ won = nth i (r_wins (o_results o)) 0.
Proof. exact approx_alone. Qed.
(* 21 of 36 pots for the first player and 15 for the second in the run of PropExact.ex_run *)
Example C167_example : exists o, exact_equity Debug ex_ranges ex_board ex_dead 2 false ex_schedule = Ret (ROk o) /\
  sum_of u_wins (firstn 1326 (skipn (1326 * 0) (r_hand_results (o_results o)))) = 21 /\ sum_of u_wins (firstn 1326 (skipn (1326 * 1) (r_hand_results (o_results o)))) = 15.
Proof.
  pose proof ex_run as HR.
  assert (HE : exists o, exact_equity Debug ex_ranges ex_board ex_dead 2 false ex_schedule = Ret (ROk o) /\ r_wins (o_results o) = [21; 15]).
  { destruct (exact_equity Debug ex_ranges ex_board ex_dead 2 false ex_schedule) as [[o|e]|f]; try discriminate HR. exists o. split; [reflexivity|]. injection HR as _ HR _ _. exact HR. }
  destruct HE as (o & E & HW). exists o. split; [exact E|].
  pose proof (C167_exact Debug ex_ranges ex_board ex_dead 2 false ex_schedule o (proj1 ex_usable) E (or_introl eq_refl) ltac:(cbn; lia)) as HA. rewrite HW in HA.
  split; [exact (proj2 (HA 0%nat ltac:(cbn; lia)))|exact (proj2 (HA 1%nat ltac:(cbn; lia)))].
Qed.

Print Assumptions C167_exact.
Print Assumptions C167_approx.
