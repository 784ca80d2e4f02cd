(* The totals of the preflop combinations of a player and the pots by winners. *)
From Verif Require Import Base Float64 Hand Range FastDivide Combined Sim Approx SpecPoker SpecHand SpecNames SpecEquity SpecResults SpecRun SpecApprox SpecFinal ComboSumProofs PropExact.
Local Open Scope N_scope.

(* C166: unless there are too many pots for 64 bits, the totals of the combinations of every player add up to all
   the pots of wins_by_mask, in complete and cancelled exact runs ... *)
Theorem C166_exact : forall p ranges board dead threads cancelled sched o, usable ranges -> exact_equity p ranges board dead threads cancelled sched = Ret (ROk o) -> p = Debug \/ weights_fit ranges board ->
  let pots := sum_of (fun x => x) (r_wins_by_mask (o_results o)) in pots < 2 ^ 64 ->
  forall i, (i < length ranges)%nat -> sum_of u_total (firstn 169 (skipn (169 * i) (r_combo_results (o_results o)))) = pots.
Proof. exact exact_combos_total. Qed.
(* ... and in approximate runs *)
Theorem C166_approx : forall p ranges board dead threads target cancelled shuf rngs fuel sched o, Forall range_ok ranges -> permutes shuf ->
  approx_equity p ranges board dead threads target cancelled shuf rngs fuel sched = Ret (ROk o) -> p = Debug \/ N.of_nat (length sched) * heaviest ranges < 2 ^ 64 ->
  let pots := sum_of (fun x => x) (r_wins_by_mask (o_results o)) in pots < 2 ^ 64 ->
  forall i, (i < length ranges)%nat -> sum_of u_total (firstn 169 (skipn (169 * i) (r_combo_results (o_results o)))) = pots.
Proof. exact approx_combos_total. Qed.
(* 36 pots in the run of PropExact.ex_run *)
Example C166_example : exists o, exact_equity Debug ex_ranges ex_board ex_dead 2 false ex_schedule = Ret (ROk o) /\
  forall i, (i < 2)%nat -> sum_of u_total (firstn 169 (skipn (169 * i) (r_combo_results (o_results o)))) = 36.
Proof.
  pose proof ex_run as HR.
  assert (HE : exists o, exact_equity Debug ex_ranges ex_board ex_dead 2 false ex_schedule = Ret (ROk o) /\ sum_of (fun x => x) (r_wins_by_mask (o_results o)) = 36).
  { destruct (exact_equity Debug ex_ranges ex_board ex_dead 2 false ex_schedule) as [[o|e]|f]; try discriminate HR. exists o. split; [reflexivity|]. injection HR as HR. rewrite HR. reflexivity. }
  destruct HE as (o & E & H36). exists o. split; [exact E|]. intros i Hi. rewrite <- H36.
  apply (C166_exact Debug ex_ranges ex_board ex_dead 2 false ex_schedule o (proj1 ex_usable) E (or_introl eq_refl)); [rewrite H36; reflexivity|exact Hi].
Qed.

Print Assumptions C166_exact.
Print Assumptions C166_approx.
