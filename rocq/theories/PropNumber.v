(* C141, C142: equities that are numbers. *)
From Verif Require Import Base Float64 Hand Range FastDivide Combined Sim Approx SpecPoker SpecNames SpecHand SpecEquity SpecResults SpecRun SpecApprox SpecShare SpecConflict
  WitnessProofs NumberProofs PropEquity.
Local Open Scope N_scope.

(* C141: if every hand weighs at least 2 and any pot was counted, all equities are numbers
   between 0 and 1 *)
Theorem C141_exact : forall p ranges board dead threads cancelled sched o, usable ranges -> p = Debug \/ weights_fit ranges board -> heavy ranges ->
  exact_equity p ranges board dead threads cancelled sched = Ret (ROk o) -> 0 < pots (r_wins_by_mask (o_results o)) -> Forall in_unit (r_equities (o_results o)).
Proof. exact heavy_exact. Qed.
Theorem C141_approx : forall p ranges board dead threads target cancelled shuf rngs fuel sched o, Forall range_ok ranges -> permutes shuf ->
  p = Debug \/ N.of_nat (length sched) * heaviest ranges < 2 ^ 64 -> heavy ranges ->
  approx_equity p ranges board dead threads target cancelled shuf rngs fuel sched = Ret (ROk o) -> 0 < pots (r_wins_by_mask (o_results o)) -> Forall in_unit (r_equities (o_results o)).
Proof. exact heavy_approx. Qed.
(* with weight 1 a pot can be counted and lost *)
Example C141_weight_1 : exists o, exact_equity Debug tie_ranges royal 0 1 false tie_schedule = Ret (ROk o) /\ 0 < pots (r_wins_by_mask (o_results o)) /\
  Forall (fun e => f_is_nan e = true) (r_equities (o_results o)) /\ ~ heavy tie_ranges.
Proof.
  destruct tied_run as (o & H & H1 & H2 & H3 & H4). exists o. split; [exact H|]. rewrite H1. split; [reflexivity|]. split.
  - destruct (r_equities (o_results o)) as [|a [|b [|c l]]]; try discriminate H4. injection H4 as E1 E2. repeat constructor; assumption.
  - intros Hh. inversion Hh as [|r l Hr _]; subst. inversion Hr as [|h t Hw _]; subst. cbn in Hw. lia.
Qed.

(* C142: a complete run with a possible deal reports numbers; with two or three players every
   successful complete run does *)
Theorem C142_complete : forall p ranges board dead threads sched o, usable ranges -> (length ranges <= 8)%nat -> p = Debug \/ weights_fit ranges board ->
  board < 2 ^ 64 -> dead < 2 ^ 64 -> heavy ranges -> exact_equity p ranges board dead threads false sched = Ret (ROk o) -> ~ In Cancel sched -> (0 < threads)%nat ->
  deals ranges board dead <> [] -> Forall in_unit (r_equities (o_results o)).
Proof. exact heavy_finished. Qed.
Theorem C142_three : forall p ranges board dead threads sched o, usable ranges -> (length ranges <= 3)%nat -> (length ranges = 3%nat -> Forall no_repeats ranges) ->
  p = Debug \/ weights_fit ranges board -> board < 2 ^ 64 -> dead < 2 ^ 64 -> heavy ranges ->
  exact_equity p ranges board dead threads false sched = Ret (ROk o) -> ~ In Cancel sched -> (0 < threads)%nat -> Forall in_unit (r_equities (o_results o)).
Proof. exact heavy_three. Qed.
Lemma aces_heavy : heavy aces.
Proof. repeat constructor; cbn; lia. Qed.
Example C142_example : forall p threads sched o, exact_equity p aces three_diamonds aces_dead (S threads) false sched = Ret (ROk o) -> ~ In Cancel sched -> Forall in_unit (r_equities (o_results o)).
Proof.
  intros p threads sched o H Hc. apply (C142_three p aces three_diamonds aces_dead (S threads) sched o); try exact H; try exact Hc; try reflexivity; try exact aces_heavy; try apply aces_usable.
  - cbn. lia.
  - discriminate.
  - right. apply aces_usable.
  - lia.
Qed.

Print Assumptions C141_exact.
Print Assumptions C141_approx.
Print Assumptions C142_complete.
Print Assumptions C142_three.
