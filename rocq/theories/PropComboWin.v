(* The wins of the preflop combinations of a player and the pots the player won alone. *)
From Verif Require Import Base Float64 Hand Range FastDivide Combined Sim Approx SpecPoker SpecHand SpecNames SpecEquity SpecResults SpecRun SpecApprox SpecFinal ComboWinProofs PropExact.
Local Open Scope N_scope.

(* C168: with up to eight players, and unless there are too many pots for 64 bits, the wins of a player's 169 combinations
   add up to the player's entry in wins, in complete and cancelled exact runs ... *)
Theorem C168_exact : forall p ranges board dead threads cancelled sched o, usable ranges -> exact_equity p ranges board dead threads cancelled sched = Ret (ROk o) -> p = Debug \/ weights_fit ranges board ->
  (length ranges <= 8)%nat -> sum_of (fun x => x) (r_wins_by_mask (o_results o)) < 2 ^ 64 ->
  forall i, (i < length ranges)%nat -> sum_of u_wins (firstn 169 (skipn (169 * i) (r_combo_results (o_results o)))) = nth i (r_wins (o_results o)) 0.
Proof. exact exact_combos_wins. Qed.
(* ... and in approximate runs *)
Theorem C168_approx : forall p ranges board dead threads target cancelled shuf rngs fuel sched o, Forall range_ok ranges -> permutes shuf ->
  approx_equity p ranges board dead threads target cancelled shuf rngs fuel sched = Ret (ROk o) -> p = Debug \/ N.of_nat (length sched) * heaviest ranges < 2 ^ 64 ->
  (length ranges <= 8)%nat -> sum_of (fun x => x) (r_wins_by_mask (o_results o)) < 2 ^ 64 ->
  forall i, (i < length ranges)%nat -> sum_of u_wins (firstn 169 (skipn (169 * i) (r_combo_results (o_results o)))) = nth i (r_wins (o_results o)) 0.
Proof. exact approx_combos_wins. Qed.
(* 21 pots for the first player and 15 for the second in the run of PropExact.ex_run *)
Example C168_example : exists o, exact_equity Debug ex_ranges ex_board ex_dead 2 false ex_schedule = Ret (ROk o) /\
  sum_of u_wins (firstn 169 (skipn (169 * 0) (r_combo_results (o_results o)))) = 21 /\ sum_of u_wins (firstn 169 (skipn (169 * 1) (r_combo_results (o_results o)))) = 15.
Proof.
  pose proof ex_run as HR.
  assert (HE : exists o, exact_equity Debug ex_ranges ex_board ex_dead 2 false ex_schedule = Ret (ROk o) /\ r_wins_by_mask (o_results o) = [0; 21; 15; 0] /\ r_wins (o_results o) = [21; 15]).
  { destruct (exact_equity Debug ex_ranges ex_board ex_dead 2 false ex_schedule) as [[o|e]|f]; try discriminate HR. exists o. split; [reflexivity|]. injection HR as HM HR _ _. split; [exact HM|exact HR]. }
  destruct HE as (o & E & HM & HW). exists o. split; [exact E|].
  pose proof (C168_exact Debug ex_ranges ex_board ex_dead 2 false ex_schedule o (proj1 ex_usable) E (or_introl eq_refl) ltac:(cbn; lia)) as HA. rewrite HM, HW in HA. specialize (HA eq_refl).
  split; [exact (HA 0%nat ltac:(cbn; lia))|exact (HA 1%nat ltac:(cbn; lia))].
Qed.

Print Assumptions C168_exact.
Print Assumptions C168_approx.
