(* C59, C60, C77, C78, C79: how an approximate run ends and what it says about it. *)
From Coq Require Import Floats.SpecFloat.
From Verif Require Import Base Float64 Hand Range FastDivide Combined Sim Approx SpecPoker SpecNames SpecHand SpecEquity SpecResults SpecRun SpecApprox
  ConvergeRunProofs ConvergeResultProofs.
Local Open Scope N_scope.

(* The witness run (ConvergeResultProofs): Ad Ac against Kd Kc, the board 2h 4d 7s 9c Jh,
   one thread, stdev_target 0.01, no cancellation. *)
Example witness_shown : wit_ranges = [[(51, 50, 1)]; [(47, 46, 1)]] /\ wit_target = f_div (f_of_N 1) (f_of_N 100) /\
  ~ In Cancel wit_schedule /\ mask_cards wit_board = [1; 11; 20; 30; 37].
Proof.
  split; [reflexivity|]. split; [reflexivity|]. split; [|vm_compute; reflexivity]. intros H. apply repeat_spec in H. discriminate.
Qed.

(* C59: false.  A run which converges sets the caller's cancel token. *)
Theorem C59_token_refuted : ~ (forall p ranges board dead threads target cancelled shuf rngs fuel sched o, Forall range_ok ranges -> permutes shuf -> ~ In Cancel sched ->
  approx_equity p ranges board dead threads target cancelled shuf rngs fuel sched = Ret (ROk o) -> o_token o = cancelled).
Proof.
  intros H. destruct witness as (o & msg & E & Ht & _). apply H in E; [congruence|exact wit_ok|exact wit_permutes|apply witness_shown].
Qed.

(* C60: false.  The witness run reports 255 percent. *)
Theorem C60_progress_refuted : ~ (forall p ranges board dead threads target cancelled shuf rngs fuel sched o, Forall range_ok ranges -> permutes shuf -> ~ In Cancel sched ->
  approx_equity p ranges board dead threads target cancelled shuf rngs fuel sched = Ret (ROk o) -> Forall (fun x => x <= 100) (o_progress o)).
Proof.
  intros H. destruct witness as (o & msg & E & _ & _ & Hm & _). apply H in E; [|exact wit_ok|exact wit_permutes|apply witness_shown].
  rewrite Hm in E. inversion E as [|? ? H1 _]; subst. apply H1. reflexivity.
Qed.

(* C77: the first batch merged always seems to have converged.  Whatever the samples, the
   first thread to flush its counters stops the run, if the target is above 2^-14.  For the
   targets from 2^-13 to 2^60 the progress it reports is 255. *)
Definition ordinary_target (t : f64) : Prop :=
  exists m e, t = S754_finite false m e /\ (2 ^ 52 <= Z.pos m < 2 ^ 53 /\ -65 <= e <= 7)%Z.     (* t = m * 2^e *)
Theorem C77_first_flush : forall p ranges board dead threads target cancelled shuf rngs m flag y0 fuel sched y tid t y', Forall range_ok ranges -> permutes shuf ->
  alaunch p ranges board dead threads target cancelled shuf rngs m flag y0 -> foldM (aevent p m fuel) sched y0 = Ret y -> xs_msgs (ay_shared y) = [] ->
  nth_error (ay_threads y) tid = Some t -> a_phase t = AFlush -> aevent p m fuel y (Run tid) = Ret y' ->
  p = Debug \/ N.of_nat (length sched) * heaviest ranges < 2 ^ 64 ->
  (f_ltb (f_div (f_of_N 1) (f_of_N 16384)) target = true -> xs_stopped (ay_shared y') = true) /\
  (ordinary_target target -> xs_stopped (ay_shared y') = true /\ xs_msgs (ay_shared y') = [255]).
Proof. exact first_flush. Qed.
Example C77_example : ordinary_target wit_target /\ ordinary_target (f_of_N 1) /\
  exists m flag y0 y t, alaunch Debug wit_ranges wit_board 0 1 wit_target false wit_shuffle wit_rngs m flag y0 /\
    foldM (aevent Debug m 0) (repeat (Run 0) (4096 + 4096)) y0 = Ret y /\ xs_msgs (ay_shared y) = [] /\ nth_error (ay_threads y) 0 = Some t /\ a_phase t = AFlush.
Proof.
  split; [exists 5764607523034235%positive, (-59)%Z; split; [vm_compute; reflexivity|lia]|].
  split; [exists 4503599627370496%positive, (-52)%Z; split; [vm_compute; reflexivity|lia]|].
  apply (full_flush _ _ _ _ _ _ _ _ _ wit_ok wit_permutes); vm_compute; reflexivity.
Qed.

(* C78: with one thread a run evaluates at most 4096 boards, whatever the target above 2^-14 *)
Theorem C78_one_thread : forall p ranges board dead target cancelled shuf rngs fuel sched o, Forall range_ok ranges -> permutes shuf ->
  f_ltb (f_div (f_of_N 1) (f_of_N 16384)) target = true ->
  approx_equity p ranges board dead 1 target cancelled shuf rngs fuel sched = Ret (ROk o) ->
  p = Debug \/ N.of_nat (length sched) * heaviest ranges < 2 ^ 64 -> r_eval_count (o_results o) <= 4096.
Proof. exact one_thread. Qed.
Example C78_example : exists o, approx_equity Debug wit_ranges wit_board 0 1 wit_target false wit_shuffle wit_rngs 0 wit_schedule = Ret (ROk o) /\ r_eval_count (o_results o) = 4096.
Proof. destruct witness as (o & msg & E & _ & Hc & _). exists o. auto. Qed.

(* C79: false.  The witness run stops because the deviation is below the target, and reports
   a deviation above it: the empty last batch is merged as a batch with equity 0. *)
Theorem C79_deviation_refuted : ~ (forall p ranges board dead threads target shuf rngs fuel sched o, Forall range_ok ranges -> permutes shuf -> ~ In Cancel sched ->
  approx_equity p ranges board dead threads target false shuf rngs fuel sched = Ret (ROk o) -> o_token o = true -> f_ltb target (r_stdev (o_results o)) = false).
Proof.
  intros H. destruct witness as (o & msg & E & Ht & _ & _ & Hs). apply H in E; [congruence|exact wit_ok|exact wit_permutes|apply witness_shown|exact Ht].
Qed.

Print Assumptions C59_token_refuted.
Print Assumptions C60_progress_refuted.
Print Assumptions C77_first_flush.
Print Assumptions C78_one_thread.
Print Assumptions C79_deviation_refuted.
