(* Which batches a run counts for its standard deviation. *)
From Coq Require Import Floats.SpecFloat.
From Verif Require Import Base BaseProofs SumFacts Float64 FloatProofs FloatSumProofs Hand Range FastDivide Combined Sim Approx SpecPoker SpecNames SpecHand SpecRange SpecEquity
  SpecResults SpecRun SpecApprox ListFacts CombinedProofs ConvergeProofs ConvergeRunProofs ConvergeResultProofs EquityFloatProofs BatchProofs.
Local Open Scope N_scope.

#[local] Opaque NUM_HANDS.

(* ------------------------------------------------------------------------- *)
(** * Exact runs *)

Definition no_deviation (r : results) : Prop := r_batch_sum r = f_zero /\ r_batch_sum2 r = f_zero /\ r_batch_count r = f_zero /\ r_stdev r = f_zero.

Lemma update_no_deviation p m ep stop r st fin r' stop' msg : m_calc_exact m = true -> update_results p m ep stop r st fin = Ret (r', stop', msg) -> no_deviation r -> no_deviation r'.
Proof.
  intros Hex H Hr. unfold update_results in H. binv H. binv H. binv H. rewrite Hex in H. cbn [negb] in H. binv H. inversion H; subst r'. exact Hr.
Qed.
Lemma xstep_no_deviation p m dvs sh t sh' t' : m_calc_exact m = true -> xstep p m dvs sh t = Ret (sh', t') -> no_deviation (xs_results sh) -> no_deviation (xs_results sh').
Proof.
  intros Hex H Hr. unfold xstep in H. destruct (x_phase t).
  - destruct (_ <=? _); [|inversion H; subst; exact Hr]. binv H. destruct (_ =? _); [discriminate|]. binv H. binv H. destruct v1. inversion H; subst. exact Hr.
  - binv H. destruct (_ <=? _); [inversion H; subst; exact Hr|]. binv H. inversion H; subst. exact Hr.
  - binv H. destruct v as [[r stop] msg]. binv H. inversion H; subst. cbn [xs_results]. eapply update_no_deviation; eassumption.
  - destruct (xs_stopped sh); [inversion H; subst; exact Hr|]. binv H. inversion H; subst. exact Hr.
  - binv H. destruct v as [[r stop] msg]. inversion H; subst. cbn [xs_results]. eapply update_no_deviation; eassumption.
  - inversion H; subst. exact Hr.
Qed.
Lemma xrun_no_deviation p m dvs : m_calc_exact m = true -> forall sched y y', foldM (xevent p m dvs) sched y = Ret y' -> no_deviation (xs_results (xy_shared y)) ->
  no_deviation (xs_results (xy_shared y')).
Proof.
  intros Hex. induction sched as [|e sched IH]; intros y y' H Hr; cbn [foldM] in H; [inversion H; subst; exact Hr|]. binv H. apply (IH v y' H). clear H IH.
  destruct e as [tid|]; cbn [xevent] in E; [|inversion E; subst; exact Hr]. destruct (nth_error (xy_threads y) tid) as [t|]; [|inversion E; subst; exact Hr].
  binv E. destruct v0 as [sh t']. inversion E; subst. cbn [xy_shared]. eapply xstep_no_deviation; eassumption.
Qed.
Lemma finish_deviation p m flag r r' : finish p m flag r = Ret r' -> r_batch_sum r' = r_batch_sum r /\ r_batch_sum2 r' = r_batch_sum2 r /\ r_batch_count r' = r_batch_count r /\ r_stdev r' = r_stdev r.
Proof. intros H. unfold finish in H. binv H. binv H. destruct v0. binv H. destruct v0. inversion H; subst. cbn. auto. Qed.

Lemma exact_no_deviation p ranges board dead threads cancelled sched o : exact_equity p ranges board dead threads cancelled sched = Ret (ROk o) -> no_deviation (o_results o).
Proof.
  intros H. unfold exact_equity in H. destruct (validate _ _ _); [discriminate|]. binv H. destruct v as [[hrs crs]|]; [|discriminate].
  binv H. binv H. destruct v0 as [r0 flag]. binv H. binv H. binv H. destruct (forallb xdone (xy_threads v2)); [|discriminate]. binv H. inversion H; subst o. cbn [o_results].
  destruct (finish_deviation _ _ _ _ _ E5) as (F1 & F2 & F3 & F4). unfold no_deviation. rewrite F1, F2, F3, F4.
  assert (Hex : m_calc_exact v = true) by (unfold sim_new in E0; binv E0; inversion E0; subst v; reflexivity).
  apply (xrun_no_deviation p v v0 Hex sched v1 v2 E4). unfold xinit in E3. binv E3. inversion E3; subst v1. cbn [xy_shared xs_results].
  clear - E1. unfold prepare in E1. binv E1. destruct v0 as [hr fl]. binv E1. inversion E1; subst r0. repeat split.
Qed.

(* ------------------------------------------------------------------------- *)
(** * Approximate runs: one batch for every message *)

Lemma update_batch p m ep stop r st fin r' stop' msg : m_calc_exact m = false -> update_results p m ep stop r st fin = Ret (r', stop', msg) -> r_batch_count r' = f_add (r_batch_count r) f_1.
Proof. intros Hex H. unfold update_results in H. binv H. binv H. binv H. rewrite Hex in H. cbn [negb] in H. inversion H; subst r'. reflexivity. Qed.

Definition is_done (t : athread) : N := if adone t then 1 else 0.
Record batches_ok (y : asys) : Prop := mkBO {
  bo_whole : forall i t, nth_error (ay_threads y) i = Some t -> whole t;
  bo_count : N.of_nat (length (xs_msgs (ay_shared y))) <= 2 ^ 53 -> r_batch_count (xs_results (ay_shared y)) = f_of_N (N.of_nat (length (xs_msgs (ay_shared y))));
  bo_evals : 4096 * N.of_nat (length (xs_msgs (ay_shared y))) < 2 ^ 64 ->
    r_eval_count (xs_results (ay_shared y)) + 4096 * sumf is_done (ay_threads y) = 4096 * N.of_nat (length (xs_msgs (ay_shared y))) }.

Lemma one_of : f_1 = f_of_N 1. Proof. reflexivity. Qed.
Lemma add_one k : N.of_nat k + 1 <= 2 ^ 53 -> f_add (f_of_N (N.of_nat k)) f_1 = f_of_N (N.of_nat k + 1).
Proof. intros H. rewrite one_of. apply add_int. exact H. Qed.

Lemma batches_step p m fuel y tid t sh' t' st0 : m_calc_exact m = false -> stats_init (m_n_players m) = Ret st0 -> b_eval_count (s_batch st0) = 0 -> batches_ok y ->
  nth_error (ay_threads y) tid = Some t -> astep p m fuel (ay_shared y) t = Ret (sh', t') -> batches_ok {| ay_shared := sh'; ay_threads := set_nth (ay_threads y) tid t' |}.
Proof.
  intros Hex Hinit Hst0 [B1 B2 B3] Hn Hstep.
  pose proof (B1 tid t Hn) as Hok.
  pose proof (sumf_set_nth is_done t' _ _ _ Hn) as Hsum.
  assert (Quiet : sh' = ay_shared y -> whole t' -> is_done t' = is_done t -> batches_ok {| ay_shared := sh'; ay_threads := set_nth (ay_threads y) tid t' |}).
  { intros -> Hw Hd. constructor; cbn [ay_threads ay_shared].
    - intros i t1 H. apply nth_set_nth in H as [[_ ->]|[_ H]]; [exact Hw|exact (B1 i t1 H)].
    - exact B2.
    - intros H. rewrite <- (B3 H). f_equal. f_equal. rewrite Hd in Hsum. lia. }
  assert (Merge : forall fin st r stop msg, update_results p m (xs_enum_pos (ay_shared y)) (xs_stopped (ay_shared y)) (xs_results (ay_shared y)) st fin = Ret (r, stop, msg) ->
    xs_results sh' = r -> xs_msgs sh' = xs_msgs (ay_shared y) ++ [msg] -> whole t' -> is_done t = 0 -> b_eval_count (s_batch st) + 4096 * is_done t' = 4096 ->
    batches_ok {| ay_shared := sh'; ay_threads := set_nth (ay_threads y) tid t' |}).
  { intros fin st r stop msg Hu Er Em Hw Hd Hb. constructor; cbn [ay_threads ay_shared].
    - intros i t1 H. apply nth_set_nth in H as [[_ ->]|[_ H]]; [exact Hw|exact (B1 i t1 H)].
    - rewrite Er, Em, app_length. cbn [length]. intros H. rewrite (update_batch _ _ _ _ _ _ _ _ _ _ Hex Hu), B2 by lia. rewrite add_one by lia. f_equal. lia.
    - rewrite Er, Em, app_length. cbn [length]. intros H. apply merge_counts in Hu. rewrite Hd, N.add_0_r in Hsum. rewrite Hsum.
      assert (H' : 4096 * N.of_nat (length (xs_msgs (ay_shared y))) < 2 ^ 64) by lia. specialize (B3 H').
      rewrite add_ok in Hu by lia. injection Hu as Hu. lia. }
  pose proof Hok as Hw. unfold whole in Hw. unfold astep in Hstep. destruct (a_phase t) eqn:Eph; assert (Hd : is_done t = match a_phase t with ADone => 1 | _ => 0 end)
    by (unfold is_done, adone; destruct (a_phase t); reflexivity); rewrite Eph in Hd.
  - destruct (_ || _); [discriminate|]. binv Hstep. destruct v as [[ok r] w]. inversion Hstep; subst sh' t'.
    apply Quiet; [reflexivity|unfold whole; cbn [a_phase a_stats]; destruct ok; lia|rewrite Hd; unfold is_done, adone; cbn [a_phase]; destruct ok; reflexivity].
  - binv Hstep. destruct v as [r st]. inversion Hstep; subst sh' t'. apply eval_counts in E. rewrite add_ok in E by lia. injection E as E.
    apply Quiet; [reflexivity|unfold whole; cbn [a_phase a_stats]; rewrite low_bits by lia; destruct (N.eqb_spec (b_eval_count (s_batch st)) 4096); lia|].
    rewrite Hd. unfold is_done, adone. cbn [a_phase]. destruct (_ =? _); reflexivity.
  - binv Hstep. destruct v as [[r stop] msg]. rewrite Hinit in Hstep. cbn [bind] in Hstep. inversion Hstep; subst sh' t'.
    apply (Merge _ _ _ _ _ E); [reflexivity|reflexivity|exact Hst0|exact Hd|]. rewrite Hw. reflexivity.
  - destruct (xs_stopped (ay_shared y)).
    + inversion Hstep; subst sh' t'. apply Quiet; [reflexivity|exact Hw|rewrite Hd; reflexivity].
    + binv Hstep. destruct v as [[ok r] w]. inversion Hstep; subst sh' t'.
      apply Quiet; [reflexivity|unfold whole; cbn [a_phase a_stats]; destruct ok; lia|rewrite Hd; unfold is_done, adone; cbn [a_phase]; destruct ok; reflexivity].
  - binv Hstep. destruct v as [r w]. inversion Hstep; subst sh' t'. apply Quiet; [reflexivity|exact Hw|rewrite Hd; reflexivity].
  - binv Hstep. destruct v as [[r stop] msg]. inversion Hstep; subst sh' t'.
    apply (Merge _ _ _ _ _ E); [reflexivity|reflexivity|exact I|exact Hd|]. rewrite Hw. reflexivity.
  - inversion Hstep; subst sh' t'. apply Quiet; [reflexivity|exact Hok|reflexivity].
Qed.

Lemma batches_run p m fuel st0 : m_calc_exact m = false -> stats_init (m_n_players m) = Ret st0 -> b_eval_count (s_batch st0) = 0 -> forall sched y y',
  foldM (aevent p m fuel) sched y = Ret y' -> batches_ok y -> batches_ok y' /\ length (ay_threads y') = length (ay_threads y).
Proof.
  intros Hex Hinit Hst0. induction sched as [|e sched IH]; intros y y' H Hy; cbn [foldM] in H; [inversion H; subst; auto|]. binv H.
  assert (Hv : batches_ok v /\ length (ay_threads v) = length (ay_threads y)).
  { clear H IH. destruct e as [tid|]; cbn [aevent] in E.
    - destruct (nth_error (ay_threads y) tid) as [t|] eqn:Et; [|inversion E; subst; auto]. binv E. destruct v0 as [sh t']. inversion E; subst v.
      split; [|cbn [ay_threads]; apply set_nth_length]. eapply batches_step; eassumption.
    - inversion E; subst v. split; [|reflexivity]. destruct Hy as [B1 B2 B3]. constructor; assumption. }
  destruct Hv as [Hv Hl]. destruct (IH v y' H Hv) as [H1 H2]. split; [exact H1|]. rewrite H2. exact Hl.
Qed.

Lemma all_done ts : forallb adone ts = true -> sumf is_done ts = N.of_nat (length ts).
Proof.
  induction ts as [|t ts IH]; intros H; [reflexivity|]. cbn [forallb] in H. apply andb_prop in H as [H1 H2]. rewrite sumf_cons, (IH H2). unfold is_done. rewrite H1. cbn [length]. lia.
Qed.

Lemma batches_counted p ranges board dead threads target cancelled shuf rngs fuel sched o : Forall range_ok ranges -> permutes shuf ->
  approx_equity p ranges board dead threads target cancelled shuf rngs fuel sched = Ret (ROk o) -> N.of_nat (length (o_progress o)) < 2 ^ 52 ->
  r_batch_count (o_results o) = f_of_N (N.of_nat (length (o_progress o))) /\
  4096 * N.of_nat (length (o_progress o)) = r_eval_count (o_results o) + 4096 * N.of_nat threads.
Proof.
  intros Hr Hs H Hlen. destruct (launch_of _ _ _ _ _ _ _ _ _ _ _ _ H) as (m & flag & y0 & y & HL & Hf & Hd & Hfin & Hp & _).
  destruct (launch_facts p ranges board dead threads target cancelled shuf rngs m flag y0 Hr Hs HL) as (_ & Hex & _ & U & F1 & F2 & _ & st0 & Hinit & Hst0 & Hts).
  assert (H0 : batches_ok y0).
  { constructor.
    - intros i t Ht. rewrite Hts in Ht. apply nth_error_In, in_map_iff in Ht as (k & <- & _). exact Hst0.
    - rewrite F2. intros _. apply U.
    - rewrite F1, F2. intros _. rewrite sumf_zero_in; [reflexivity|]. intros i t Ht. rewrite Hts in Ht. apply nth_error_In, in_map_iff in Ht as (k & <- & _). reflexivity. }
  destruct (batches_run p m fuel st0 Hex Hinit Hst0 sched y0 y Hf H0) as [[_ B2 B3] Hl]. rewrite Hts, map_length, seq_length in Hl.
  destruct (finish_deviation _ _ _ _ _ Hfin) as (_ & _ & G3 & _). rewrite Hp in *. rewrite G3, (finish_counts _ _ _ _ _ Hfin).
  split; [apply B2; change (2 ^ 53) with (2 * 2 ^ 52); lia|]. rewrite (all_done _ Hd), Hl in B3. symmetry. apply B3. change (2 ^ 64) with (4096 * 2 ^ 52). lia.
Qed.
