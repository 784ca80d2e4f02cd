(* Properties of the number of progress messages. *)
From Verif Require Import Base Float64 Hand Range FastDivide Combined Sim Approx SpecPoker SpecEquity SpecResults SpecRun SpecApprox ConvergeRunProofs
  ConvergeResultProofs MessageProofs PropExact PropProgress.
Local Open Scope N_scope.

(* C154: an exact run sends one message for each thread, and at most one more for each 10000 evaluations *)
Theorem C154_messages : forall p ranges board dead threads cancelled sched o, usable ranges -> p = Debug \/ weights_fit ranges board ->
  exact_equity p ranges board dead threads cancelled sched = Ret (ROk o) ->
  (threads <= length (o_progress o))%nat /\ N.of_nat (length (o_progress o)) <= N.of_nat threads + r_eval_count (o_results o) / 10000.
Proof. exact messages_bounds. Qed.
(* fewer than 10000 evaluations: exactly one message for each of the two threads *)
Example C154_example : exists o, exact_equity Debug ex_ranges ex_board ex_dead 2 false ex_schedule = Ret (ROk o) /\ length (o_progress o) = 2%nat /\
  0 < r_eval_count (o_results o) < 10000.
Proof.
  pose proof ex_run as H. destruct C48_example as [HP _]. destruct (exact_equity Debug ex_ranges ex_board ex_dead 2 false ex_schedule) as [[o|e]|f]; try discriminate H. exists o.
  split; [reflexivity|]. cbn [progress_of] in HP. rewrite HP. split; [reflexivity|]. unfold counts in H. injection H as _ _ H _. rewrite H. split; reflexivity.
Qed.

(* C155: once the token is set each thread sends at most two more messages, and a run that is
   cancelled before it starts evaluates at most one batch of 4096 samples in each thread *)
Theorem C155_exact_step : forall p m dvs sched y y', foldM (xevent p m dvs) sched y = Ret y' -> xs_stopped (xy_shared y) = true ->
  (length (xs_msgs (xy_shared y')) <= length (xs_msgs (xy_shared y)) + 2 * length (xy_threads y))%nat.
Proof. exact x_stop_any. Qed.
Theorem C155_approx_step : forall p m fuel sched y y', foldM (aevent p m fuel) sched y = Ret y' -> xs_stopped (ay_shared y) = true ->
  (length (xs_msgs (ay_shared y')) <= length (xs_msgs (ay_shared y)) + 2 * length (ay_threads y))%nat.
Proof. exact a_stop_any. Qed.
Theorem C155_exact : forall p ranges board dead threads sched o, exact_equity p ranges board dead threads true sched = Ret (ROk o) ->
  (length (o_progress o) <= 2 * threads)%nat.
Proof. exact cancelled_exact. Qed.
Theorem C155_approx : forall p ranges board dead threads target shuf rngs fuel sched o, Forall range_ok ranges -> permutes shuf ->
  approx_equity p ranges board dead threads target true shuf rngs fuel sched = Ret (ROk o) ->
  (length (o_progress o) <= 2 * threads)%nat /\ (N.of_nat threads < 2 ^ 32 -> r_eval_count (o_results o) <= 4096 * N.of_nat threads).
Proof. exact cancelled_approx. Qed.
(* aces against kings, cancelled before the start: both bounds are reached *)
Example C155_example : exists o, approx_equity Debug wit_ranges wit_board 0 1 wit_target true wit_shuffle wit_rngs 0 wit_schedule = Ret (ROk o) /\
  r_eval_count (o_results o) = 4096 * 1 /\ length (o_progress o) = (2 * 1)%nat.
Proof.
  destruct (full_run Debug wit_ranges wit_board 0 wit_target true wit_shuffle wit_rngs 0 wit_ok wit_permutes) as (o & L & s & msg & E & H1 & H2 & H3 & H4 & _);
    try (vm_compute; reflexivity).
  exists o. split; [exact E|]. split; [exact H2|]. rewrite H4. reflexivity.
Qed.

Print Assumptions C154_messages.
Print Assumptions C155_exact_step.
Print Assumptions C155_approx_step.
Print Assumptions C155_exact.
Print Assumptions C155_approx.
