(* C81, C82, C83: the number of boards an approximate run evaluates. *)
From Coq Require Import Floats.SpecFloat.
From Verif Require Import Base Float64 Hand Range FastDivide Combined Sim Approx SpecPoker SpecNames SpecHand SpecEquity SpecResults SpecRun SpecApprox
  CombinedProofs ConvergeRunProofs ConvergeResultProofs BatchProofs.
Local Open Scope N_scope.

(* no card is in the ranges of two players *)
Definition no_common_card (ranges : list (list whand)) : Prop := forall i j a b c, i <> j -> In a (nth i ranges []) -> In b (nth j ranges []) ->
  In c (two_cards a) -> ~ In c (two_cards b).
(* the steps of thread i in a schedule *)
Definition steps (i : nat) (sched : list event) : N := N.of_nat (length (filter (fun e => match e with Run k => (k =? i)%nat | Cancel => false end) sched)).

Lemma no_common_apart ranges : no_common_card ranges -> apart ranges.
Proof.
  intros H i j a b Hij Ha Hb. apply not_true_is_false. intros Hs. apply existsb_exists in Hs as (c & Hc & Hx). apply existsb_exists in Hx as (c' & Hc' & E). apply N.eqb_eq in E. subst c'.
  exact (H i j a b c Hij Ha Hb Hc Hc').
Qed.

(* The example: aces against kings on a complete board (the ranges and the board of
   PropConverge), with two threads which take turns in different ways. *)
Definition two_sched : list event := repeat (Run 0) (4096 + 4096) ++ repeat (Run 1) (4096 + 4096) ++ [Cancel] ++ repeat (Run 1) 3 ++ repeat (Run 0) 3.
Lemma two_steps i : (i < 2)%nat -> 8195 <= steps i two_sched.
Proof. intros Hi. destruct i as [|[|i]]; [vm_compute; discriminate|vm_compute; discriminate|lia]. Qed.
Lemma wit_apart : no_common_card wit_ranges.
Proof.
  intros i j a b c Hij Ha Hb H1 H2. unfold wit_ranges in *.
  assert (Hi : forall k x, In x (nth k [[(51, 50, 1)]; [(47, 46, 1)]] []) -> (k = 0%nat /\ x = (51, 50, 1)) \/ (k = 1%nat /\ x = (47, 46, 1))).
  { intros [|[|[|k]]] x Hx; cbn [nth In] in Hx; try tauto; [left|right]; split; try reflexivity; destruct Hx as [<-|[]]; reflexivity. }
  destruct (Hi _ _ Ha) as [[-> ->]|[-> ->]], (Hi _ _ Hb) as [[-> ->]|[-> ->]]; try congruence;
    cbn in H1, H2; destruct H1 as [<-|[<-|[]]]; destruct H2 as [H2|[H2|[]]]; discriminate.
Qed.

(* C81: boards are counted in whole batches, whatever the target, the threads, the schedule
   and the random numbers, also if a thread gives up dealing. *)
Theorem C81_whole_batches : forall p ranges board dead threads target cancelled shuf rngs fuel sched o, Forall range_ok ranges -> permutes shuf ->
  approx_equity p ranges board dead threads target cancelled shuf rngs fuel sched = Ret (ROk o) -> exists k, r_eval_count (o_results o) = k * 4096.
Proof. exact whole_batches. Qed.

(* C82: if the ranges have no card in common, every thread evaluates one batch: neither the
   target (above 2^-14) nor a cancellation changes the size of the sample. *)
Theorem C82_one_batch_each : forall p ranges board dead threads target cancelled shuf rngs fuel sched o, Forall range_ok ranges -> permutes shuf ->
  f_ltb (f_div (f_of_N 1) (f_of_N 16384)) target = true -> no_common_card ranges ->
  4096 * N.of_nat threads < 2 ^ 64 -> p = Debug \/ N.of_nat (length sched) * heaviest ranges < 2 ^ 64 ->
  approx_equity p ranges board dead threads target cancelled shuf rngs fuel sched = Ret (ROk o) -> r_eval_count (o_results o) = 4096 * N.of_nat threads.
Proof. intros. eapply many_threads; try eassumption. apply no_common_apart. assumption. Qed.

(* C83: such a run ends: with a complete board, 8195 steps of every thread are enough. *)
Theorem C83_ends : forall p ranges board dead threads target cancelled shuf rngs fuel sched, Forall range_ok ranges -> permutes shuf ->
  f_ltb (f_div (f_of_N 1) (f_of_N 16384)) target = true -> no_common_card ranges ->
  4096 * N.of_nat threads < 2 ^ 64 -> N.of_nat (length sched) * heaviest ranges < 2 ^ 64 ->
  validate (length ranges) board dead = None -> deals ranges board dead <> [] -> length (mask_cards board) = 5%nat ->
  (forall i, (i < threads)%nat -> 8195 <= steps i sched) ->
  exists o, approx_equity p ranges board dead threads target cancelled shuf rngs fuel sched = Ret (ROk o) /\ r_eval_count (o_results o) = 4096 * N.of_nat threads.
Proof. intros. apply many_end; try assumption. apply no_common_apart. assumption. Qed.

Example C83_example : exists o, approx_equity Release wit_ranges wit_board 0 2 wit_target false wit_shuffle wit_rngs 0 two_sched = Ret (ROk o) /\ r_eval_count (o_results o) = 8192.
Proof.
  apply C83_ends; [exact wit_ok|exact wit_permutes|vm_compute; reflexivity|exact wit_apart|reflexivity|vm_compute; reflexivity|vm_compute; reflexivity|vm_compute; discriminate|vm_compute; reflexivity|exact two_steps].
Qed.
Example C81_example : exists o k, approx_equity Release wit_ranges wit_board 0 2 wit_target false wit_shuffle wit_rngs 0 two_sched = Ret (ROk o) /\ r_eval_count (o_results o) = k * 4096 /\ k = 2.
Proof. destruct C83_example as (o & E & Ho). exists o, 2. auto. Qed.
Example C82_example : no_common_card wit_ranges /\ ~ no_common_card [[(51, 50, 1)]; [(50, 49, 1)]].
Proof.
  split; [exact wit_apart|]. intros H. refine (H 0%nat 1%nat (51, 50, 1) (50, 49, 1) 50 _ _ _ _ _); cbn; auto.
Qed.

Print Assumptions C81_whole_batches.
Print Assumptions C82_one_batch_each.
Print Assumptions C83_ends.
