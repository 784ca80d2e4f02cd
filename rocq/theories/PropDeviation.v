(* C108-C111: which batches the standard deviation of a run counts, and what it says. *)
From Coq Require Import Floats.SpecFloat QArith.
From Verif Require Import Base Float64 Hand Range FastDivide Combined Sim Approx SpecPoker SpecNames SpecHand SpecEquity SpecResults SpecRun SpecApprox SpecShare SpecDeviation
  CombinedProofs ConvergeResultProofs PropEquity PropBatch PropRates DeviationProofs OneBatchProofs.
Local Open Scope N_scope.

(* C108: exact runs report no deviation and no batches, whatever the ranges, the threads, the
   schedule and the cancellation *)
Theorem C108_exact_no_deviation : forall p ranges board dead threads cancelled sched o, exact_equity p ranges board dead threads cancelled sched = Ret (ROk o) ->
  r_stdev (o_results o) = f_zero /\ r_batch_count (o_results o) = f_zero /\ r_batch_sum (o_results o) = f_zero /\ r_batch_sum2 (o_results o) = f_zero.
Proof. intros p ranges board dead threads cancelled sched o H. destruct (exact_no_deviation p ranges board dead threads cancelled sched o H) as (H1 & H2 & H3 & H4). auto. Qed.
(* Kd Qd Jd 2s, Ad Ac against Ah As (see PropRates): the run evaluates boards *)
Example C108_example : exists o, exact_equity Debug aces three_diamonds aces_dead 2 false aces_sched = Ret (ROk o) /\ (exists u, In u (r_hand_results (o_results o)) /\ u_total u = 18) /\
  r_stdev (o_results o) = f_zero.
Proof.
  destruct aces_run as (o & H & _ & (u & Hin & E) & _). exists o. apply rates_inv in E as (_ & _ & _ & E & _).
  split; [exact H|]. split; [exists u; split; [exact Hin|exact E]|]. apply (C108_exact_no_deviation _ _ _ _ _ _ _ _ H).
Qed.

(* C109: approximate runs count one batch for every progress message: the batches of 4096
   boards, and one batch without boards for every thread *)
Theorem C109_batches_counted : forall p ranges board dead threads target cancelled shuf rngs fuel sched o, Forall range_ok ranges -> permutes shuf ->
  approx_equity p ranges board dead threads target cancelled shuf rngs fuel sched = Ret (ROk o) -> N.of_nat (length (o_progress o)) < 2 ^ 52 ->
  r_batch_count (o_results o) = f_of_N (N.of_nat (length (o_progress o))) /\
  exists k, r_eval_count (o_results o) = 4096 * k /\ N.of_nat (length (o_progress o)) = k + N.of_nat threads.
Proof.
  intros p ranges board dead threads target cancelled shuf rngs fuel sched o Hr Hs H Hl.
  destruct (batches_counted p ranges board dead threads target cancelled shuf rngs fuel sched o Hr Hs H Hl) as [H1 H2]. split; [exact H1|].
  exists (N.of_nat (length (o_progress o)) - N.of_nat threads). lia.
Qed.
Example C109_example : exists o, approx_equity Debug wit_ranges wit_board 0 1 wit_target false wit_shuffle wit_rngs 0 wit_schedule = Ret (ROk o) /\
  r_eval_count (o_results o) = 4096 /\ length (o_progress o) = 2%nat /\ r_batch_count (o_results o) = f_of_N 2.
Proof.
  destruct witness as (o & msg & H & _ & He & Hp & _). exists o. assert (Hl : length (o_progress o) = 2%nat) by (rewrite Hp; reflexivity).
  split; [exact H|]. split; [exact He|]. split; [exact Hl|].
  destruct (C109_batches_counted Debug wit_ranges wit_board 0 1 wit_target false wit_shuffle wit_rngs 0 wit_schedule o wit_ok wit_permutes H) as [E _]; rewrite Hl in *; [reflexivity|exact E].
Qed.

(* C110: false.  The counted batches are not the evaluated batches. *)
Theorem C110_refuted : ~ (forall p ranges board dead threads target cancelled shuf rngs fuel sched o k, Forall range_ok ranges -> permutes shuf ->
  approx_equity p ranges board dead threads target cancelled shuf rngs fuel sched = Ret (ROk o) -> r_eval_count (o_results o) = 4096 * k -> k < 2 ^ 52 ->
  r_batch_count (o_results o) = f_of_N k).
Proof.
  intros H. destruct C109_example as (o & E & He & _ & Hb).
  specialize (H Debug wit_ranges wit_board 0 1%nat wit_target false wit_shuffle wit_rngs 0%nat wit_schedule o 1 wit_ok wit_permutes E He eq_refl).
  rewrite Hb in H. discriminate H.
Qed.

(* C111: one thread, one batch.  The reported deviation is 0.353 to 0.354 times the share of
   the first player: it does not measure any spread. *)
Theorem C111_deviation_is_equity : forall p ranges board dead target cancelled shuf rngs fuel sched o, Forall range_ok ranges -> permutes shuf ->
  p = Debug \/ N.of_nat (length sched) * heaviest ranges < 2 ^ 64 ->
  approx_equity p ranges board dead 1 target cancelled shuf rngs fuel sched = Ret (ROk o) -> r_eval_count (o_results o) = 4096 -> N.of_nat (length (o_progress o)) < 2 ^ 52 ->
  let w := sum_of (fun x => x) (r_wins_by_mask (o_results o)) in let a := credit (length ranges) (r_wins_by_mask (o_results o)) in
  w <= 2 ^ 53 -> 0 < a -> w <= 1000 * a ->
  number (r_stdev (o_results o)) /\ ((353 # 1000) * ratio a w <= value (r_stdev (o_results o)))%Q /\ (value (r_stdev (o_results o)) <= (354 # 1000) * ratio a w)%Q.
Proof. exact one_batch_deviation. Qed.
(* aces win all 4096 pots against kings: there is no spread, the deviation is above 0.353 *)
Example C111_example : exists o, approx_equity Debug wit_ranges wit_board 0 1 wit_target false wit_shuffle wit_rngs 0 wit_schedule = Ret (ROk o) /\
  r_wins_by_mask (o_results o) = [0; 4096; 0; 0] /\ ((353 # 1000) <= value (r_stdev (o_results o)))%Q.
Proof.
  destruct wit_masks as (o & H & He & Hl & HW). exists o. split; [exact H|]. split; [exact HW|].
  destruct (C111_deviation_is_equity Debug wit_ranges wit_board 0 wit_target false wit_shuffle wit_rngs 0 wit_schedule o wit_ok wit_permutes (or_introl eq_refl) H He) as (_ & L & _);
    try (rewrite ?Hl, ?HW; vm_compute; congruence).
  eapply Qle_trans; [|exact L]. rewrite HW. vm_compute. discriminate.
Qed.

Print Assumptions C108_exact_no_deviation.
Print Assumptions C109_batches_counted.
Print Assumptions C110_refuted.
Print Assumptions C111_deviation_is_equity.
