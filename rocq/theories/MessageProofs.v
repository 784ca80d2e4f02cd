(* How many progress messages a run sends, and how soon it stops after a cancellation. *)
From Verif Require Import Base BaseProofs SumFacts Float64 Hand Range FastDivide Combined Sim Approx SpecPoker SpecHand SpecEquity
  SpecResults SpecRun SpecApprox ConvergeRunProofs ConvergeResultProofs BatchProofs DeviationProofs ShareProofs.
Local Open Scope N_scope.

#[local] Opaque NUM_HANDS.

Definition messages (sh : xshared) : N := N.of_nat (length (xs_msgs sh)).

(* ------------------------------------------------------------------------- *)
(** * Exact runs: messages and evaluations *)

Definition finished (t : xthread) : N := if xdone t then 1 else 0.
Record sent_ok (p : profile) (y : xsys) : Prop := mkSent {
  so_full : forall i t, nth_error (xy_threads y) i = Some t -> x_phase t = XFlush -> 10000 <= b_eval_count (s_batch (x_stats t));
  so_least : sumf finished (xy_threads y) <= messages (xy_shared y);
  so_most : p = Debug -> 10000 * messages (xy_shared y) <= r_eval_count (xs_results (xy_shared y)) + 10000 * sumf finished (xy_threads y) }.

Lemma sent_step p m dvs y tid t sh' t' : sent_ok p y -> nth_error (xy_threads y) tid = Some t -> xstep p m dvs (xy_shared y) t = Ret (sh', t') ->
  sent_ok p {| xy_shared := sh'; xy_threads := set_nth (xy_threads y) tid t' |}.
Proof.
  intros [B1 B2 B3] Hn Hstep. pose proof (B1 tid t Hn) as Hfull. pose proof (sumf_set_nth finished t' _ _ _ Hn) as Hsum.
  assert (Quiet : xs_msgs sh' = xs_msgs (xy_shared y) -> xs_results sh' = xs_results (xy_shared y) -> (x_phase t' = XFlush -> 10000 <= b_eval_count (s_batch (x_stats t'))) ->
    finished t' = finished t -> sent_ok p {| xy_shared := sh'; xy_threads := set_nth (xy_threads y) tid t' |}).
  { intros Em Er Hf Hd. constructor; cbn [xy_threads xy_shared]; unfold messages in *; rewrite ?Em, ?Er.
    - intros i t1 H. apply BatchProofs.nth_set_nth in H as [[_ ->]|[_ H]]; [exact Hf|exact (B1 i t1 H)].
    - lia.
    - intros Hp. specialize (B3 Hp). lia. }
  assert (Merge : forall fin r stop msg, update_results p m (xs_enum_pos (xy_shared y)) (xs_stopped (xy_shared y)) (xs_results (xy_shared y)) (x_stats t) fin = Ret (r, stop, msg) ->
    xs_results sh' = r -> xs_msgs sh' = xs_msgs (xy_shared y) ++ [msg] -> x_phase t' <> XFlush -> finished t = 0 -> finished t' <= 1 -> 10000 <= b_eval_count (s_batch (x_stats t)) + 10000 * finished t' ->
    sent_ok p {| xy_shared := sh'; xy_threads := set_nth (xy_threads y) tid t' |}).
  { intros fin r stop msg Hu Er Em Hf Hd Hd' Hb. apply merge_counts in Hu. constructor; cbn [xy_threads xy_shared]; unfold messages in *; rewrite ?Em, ?Er, ?app_length; cbn [length].
    - intros i t1 H. apply BatchProofs.nth_set_nth in H as [[_ ->]|[_ H]]; [intros E; destruct (Hf E)|exact (B1 i t1 H)].
    - lia.
    - intros ->. specialize (B3 eq_refl). unfold add_ in Hu. destruct (_ <? _); [injection Hu as Hu; lia|discriminate]. }
  assert (Hd : finished t = match x_phase t with XDone => 1 | _ => 0 end) by (unfold finished, xdone; destruct (x_phase t); reflexivity).
  unfold xstep in Hstep. destruct (x_phase t) eqn:Eph.
  - destruct (_ <=? _).
    + binv Hstep. destruct (_ =? _); [discriminate|]. binv Hstep. binv Hstep. destruct v1 as [s e]. inversion Hstep; subst sh' t'.
      apply Quiet; [reflexivity|reflexivity|cbn [x_phase]; destruct (_ <=? _); discriminate|rewrite Hd; unfold finished, xdone; cbn [x_phase]; destruct (_ <=? _); reflexivity].
    + inversion Hstep; subst sh' t'. apply Quiet; [reflexivity|reflexivity|discriminate|rewrite Hd; reflexivity].
  - binv Hstep. destruct (N.leb_spec 10000 (b_eval_count (s_batch v))) as [H10|_].
    + inversion Hstep; subst sh' t'. apply Quiet; [reflexivity|reflexivity|intros _; exact H10|rewrite Hd; reflexivity].
    + binv Hstep. inversion Hstep; subst sh' t'. apply Quiet; [reflexivity|reflexivity|discriminate|rewrite Hd; reflexivity].
  - binv Hstep. destruct v as [[r stop] msg]. binv Hstep. inversion Hstep; subst sh' t'.
    apply (Merge _ _ _ _ E); [reflexivity|reflexivity|discriminate|exact Hd|unfold finished; cbn; lia|specialize (Hfull eq_refl); lia].
  - destruct (xs_stopped (xy_shared y)).
    + inversion Hstep; subst sh' t'. apply Quiet; [reflexivity|reflexivity|discriminate|rewrite Hd; reflexivity].
    + binv Hstep. inversion Hstep; subst sh' t'. apply Quiet; [reflexivity|reflexivity|discriminate|rewrite Hd; reflexivity].
  - binv Hstep. destruct v as [[r stop] msg]. inversion Hstep; subst sh' t'.
    apply (Merge _ _ _ _ E); [reflexivity|reflexivity|discriminate|exact Hd|unfold finished; cbn; lia|unfold finished; cbn [xdone x_phase]; lia].
  - inversion Hstep; subst sh' t'. apply Quiet; [reflexivity|reflexivity|congruence|reflexivity].
Qed.

Lemma sent_run p m dvs sched : forall y y', foldM (xevent p m dvs) sched y = Ret y' -> sent_ok p y -> sent_ok p y' /\ length (xy_threads y') = length (xy_threads y).
Proof.
  induction sched as [|e sched IH]; intros y y' H Hy; cbn [foldM] in H; [inversion H; subst; split; [exact Hy|reflexivity]|]. binv H.
  assert (G : sent_ok p v /\ length (xy_threads v) = length (xy_threads y)).
  { destruct e as [tid|]; cbn [xevent] in E.
    - destruct (nth_error (xy_threads y) tid) as [t|] eqn:Hn; [|inversion E; subst; split; [exact Hy|reflexivity]]. binv E. destruct v0 as [sh t']. inversion E; subst.
      split; [eapply sent_step; eassumption|cbn [xy_threads]; apply set_nth_length].
    - inversion E; subst. split; [|reflexivity]. destruct Hy as [B1 B2 B3]. constructor; [exact B1|exact B2|exact B3]. }
  destruct G as [Gv Gl]. destruct (IH v y' H Gv) as [Gy GL]. split; [exact Gy|congruence].
Qed.

Lemma sumf_finished l : forallb xdone l = true -> sumf finished l = N.of_nat (length l).
Proof.
  induction l as [|t l IH]; intros H; [reflexivity|]. cbn [forallb] in H. apply andb_true_iff in H as [Ht Hl]. cbn [length].
  change (sumf finished (t :: l)) with (finished t + sumf finished l). rewrite (IH Hl). unfold finished. rewrite Ht. lia.
Qed.
Lemma sumf_repeat {A} (f : A -> N) x n : sumf f (repeat x n) = N.of_nat n * f x.
Proof. induction n as [|n IH]; [reflexivity|]. cbn [repeat]. change (sumf f (x :: ?l)) with (f x + sumf f l). rewrite IH. lia. Qed.

(* C154 *)
Lemma messages_sent p ranges board dead threads cancelled sched o :
  exact_equity p ranges board dead threads cancelled sched = Ret (ROk o) ->
  (threads <= length (o_progress o))%nat /\ (p = Debug -> 10000 * N.of_nat (length (o_progress o) - threads) <= r_eval_count (o_results o)).
Proof.
  intros H. unfold exact_equity in H. destruct (validate _ _ _); [discriminate|]. binv H. destruct v as [[hrs crs]|]; [|discriminate].
  binv H. binv H. destruct v0 as [r0 flag]. binv H. binv H. binv H. destruct (forallb xdone (xy_threads v2)) eqn:Hd; [|discriminate]. binv H. inversion H; subst o. cbn [o_results o_progress].
  unfold xinit in E3. binv E3. inversion E3; subst v1. assert (H0 : sent_ok p {| xy_shared := {| xs_enum_pos := 0; xs_stopped := cancelled; xs_results := r0; xs_msgs := [] |};
    xy_threads := repeat {| x_phase := XTop; x_pos := 0; x_end := 0; x_stats := v4 |} threads |}).
  { constructor; cbn [xy_threads xy_shared].
    - intros i t Ht. apply nth_error_In, repeat_spec in Ht. subst t. discriminate.
    - rewrite sumf_repeat. unfold messages, finished. cbn. lia.
    - intros _. unfold messages. cbn [xs_msgs length N.of_nat]. lia. }
  destruct (sent_run p v v0 sched _ _ E4 H0) as [[_ B2 B3] HL]. cbn [xy_threads] in HL. rewrite repeat_length in HL. rewrite (sumf_finished _ Hd), HL in B2, B3. unfold messages in *.
  rewrite (finish_counts _ _ _ _ _ E5). split; [lia|]. intros Hp. specialize (B3 Hp). lia.
Qed.
Lemma messages_bounds p ranges board dead threads cancelled sched o : usable ranges -> p = Debug \/ weights_fit ranges board ->
  exact_equity p ranges board dead threads cancelled sched = Ret (ROk o) ->
  (threads <= length (o_progress o))%nat /\ N.of_nat (length (o_progress o)) <= N.of_nat threads + r_eval_count (o_results o) / 10000.
Proof.
  intros Hu Hw H. apply (exact_debug p ranges board dead threads cancelled sched o Hu Hw) in H. destruct (messages_sent _ _ _ _ _ _ _ _ H) as [H1 H2]. split; [exact H1|].
  specialize (H2 eq_refl). assert (G : N.of_nat (length (o_progress o) - threads) <= r_eval_count (o_results o) / 10000) by (apply N.div_le_lower_bound; lia). lia.
Qed.

(* ------------------------------------------------------------------------- *)
(** * Cancelled runs *)

(* how many messages a thread can still send once the token is set *)
Definition x_left (t : xthread) : N := match x_phase t with XTop | XWork | XFlush => 2 | XCheck | XFinal => 1 | XDone => 0 end.

Lemma update_stopped p m ep r st fin r' stop' msg : update_results p m ep true r st fin = Ret (r', stop', msg) -> stop' = true.
Proof.
  intros H. unfold update_results in H. binv H. binv H. binv H. destruct (negb (m_calc_exact m)); [|binv H]; inversion H; [|reflexivity]. destruct (_ && _); reflexivity.
Qed.

Lemma x_stop_step p m dvs sh t sh' t' : xs_stopped sh = true -> xstep p m dvs sh t = Ret (sh', t') ->
  xs_stopped sh' = true /\ messages sh' + x_left t' <= messages sh + x_left t.
Proof.
  intros Hs H. unfold xstep in H. unfold messages. assert (Hl : x_left t = match x_phase t with XTop | XWork | XFlush => 2 | XCheck | XFinal => 1 | XDone => 0 end) by reflexivity.
  destruct (x_phase t) eqn:Eph.
  - destruct (_ <=? _).
    + binv H. destruct (_ =? _); [discriminate|]. binv H. binv H. destruct v1 as [s e]. inversion H; subst sh' t'. cbn [xs_stopped xs_msgs]. split; [exact Hs|]. unfold x_left at 1. cbn [x_phase]. destruct (_ <=? _); lia.
    + inversion H; subst sh' t'. split; [exact Hs|]. unfold x_left at 1. cbn [x_phase]. lia.
  - binv H. destruct (_ <=? _); [|binv H]; inversion H; subst sh' t'; (split; [exact Hs|]); unfold x_left at 1; cbn [x_phase]; lia.
  - binv H. destruct v as [[r stop] msg]. binv H. inversion H; subst sh' t'. cbn [xs_stopped xs_msgs]. rewrite Hs in E. split; [exact (update_stopped _ _ _ _ _ _ _ _ _ E)|].
    rewrite app_length. unfold x_left at 1. cbn [x_phase length]. lia.
  - rewrite Hs in H. inversion H; subst sh' t'. split; [exact Hs|]. unfold x_left at 1. cbn [x_phase]. lia.
  - binv H. destruct v as [[r stop] msg]. inversion H; subst sh' t'. cbn [xs_stopped xs_msgs]. rewrite Hs in E. split; [exact (update_stopped _ _ _ _ _ _ _ _ _ E)|].
    rewrite app_length. unfold x_left at 1. cbn [x_phase length]. lia.
  - inversion H; subst sh' t'. split; [exact Hs|lia].
Qed.

Lemma x_stop_run p m dvs sched : forall y y', foldM (xevent p m dvs) sched y = Ret y' -> xs_stopped (xy_shared y) = true ->
  messages (xy_shared y') + sumf x_left (xy_threads y') <= messages (xy_shared y) + sumf x_left (xy_threads y).
Proof.
  induction sched as [|e sched IH]; intros y y' H Hy; cbn [foldM] in H; [inversion H; subst; lia|]. binv H.
  assert (G : xs_stopped (xy_shared v) = true /\ messages (xy_shared v) + sumf x_left (xy_threads v) <= messages (xy_shared y) + sumf x_left (xy_threads y)).
  { destruct e as [tid|]; cbn [xevent] in E.
    - destruct (nth_error (xy_threads y) tid) as [t|] eqn:Hn; [|inversion E; subst; split; [exact Hy|lia]]. binv E. destruct v0 as [sh t']. inversion E; subst. cbn [xy_shared xy_threads].
      destruct (x_stop_step _ _ _ _ _ _ _ Hy E0) as [Gs Gm]. split; [exact Gs|]. pose proof (sumf_set_nth x_left t' _ _ _ Hn). lia.
    - inversion E; subst. split; [reflexivity|]. unfold messages. cbn [xy_shared xs_msgs xy_threads]. lia. }
  destruct G as [Gs Gm]. specialize (IH v y' H Gs). lia.
Qed.
Lemma sumf_le_mul {A} (f : A -> N) b l : (forall x, f x <= b) -> sumf f l <= b * N.of_nat (length l).
Proof. intros H. induction l as [|x l IH]; [cbn; lia|]. cbn [length]. change (sumf f (x :: l)) with (f x + sumf f l). specialize (H x). lia. Qed.
Lemma x_stop_any p m dvs sched y y' : foldM (xevent p m dvs) sched y = Ret y' -> xs_stopped (xy_shared y) = true ->
  (length (xs_msgs (xy_shared y')) <= length (xs_msgs (xy_shared y)) + 2 * length (xy_threads y))%nat.
Proof.
  intros H Hs. pose proof (x_stop_run p m dvs sched y y' H Hs) as G. unfold messages in G.
  pose proof (sumf_le_mul x_left 2 (xy_threads y)) as G2. cbv beta in G2. assert (HB : forall t, x_left t <= 2) by (intros t; unfold x_left; destruct (x_phase t); lia). specialize (G2 HB). lia.
Qed.

Lemma cancelled_exact p ranges board dead threads sched o : exact_equity p ranges board dead threads true sched = Ret (ROk o) -> (length (o_progress o) <= 2 * threads)%nat.
Proof.
  intros H. unfold exact_equity in H. destruct (validate _ _ _); [discriminate|]. binv H. destruct v as [[hrs crs]|]; [|discriminate].
  binv H. binv H. destruct v0 as [r0 flag]. binv H. binv H. binv H. destruct (forallb xdone (xy_threads v2)) eqn:Hd; [|discriminate]. binv H. inversion H; subst o. cbn [o_progress].
  unfold xinit in E3. binv E3. inversion E3; subst v1. pose proof (x_stop_any _ _ _ _ _ _ E4 eq_refl) as G. cbn [xy_shared xs_msgs xy_threads length] in G. rewrite repeat_length in G. exact G.
Qed.

Definition a_left (t : athread) : N := match a_phase t with AStart | AEval | AFlush | AWalk => 2 | ACheck | AFinal => 1 | ADone => 0 end.

Lemma a_stop_step p m fuel sh t sh' t' : xs_stopped sh = true -> astep p m fuel sh t = Ret (sh', t') ->
  xs_stopped sh' = true /\ messages sh' + a_left t' <= messages sh + a_left t.
Proof.
  intros Hs H. unfold astep in H. unfold messages. assert (Hl : a_left t = match a_phase t with AStart | AEval | AFlush | AWalk => 2 | ACheck | AFinal => 1 | ADone => 0 end) by reflexivity.
  destruct (a_phase t) eqn:Eph.
  - destruct (_ || _); [discriminate|]. binv H. destruct v as [[ok r] w]. inversion H; subst sh' t'. split; [exact Hs|]. unfold a_left at 1. cbn [a_phase]. destruct ok; lia.
  - binv H. destruct v as [r st]. inversion H; subst sh' t'. split; [exact Hs|]. unfold a_left at 1. cbn [a_phase]. destruct (_ =? _); lia.
  - binv H. destruct v as [[r stop] msg]. binv H. inversion H; subst sh' t'. cbn [xs_stopped xs_msgs]. rewrite Hs in E. split; [exact (update_stopped _ _ _ _ _ _ _ _ _ E)|].
    rewrite app_length. unfold a_left at 1. cbn [a_phase length]. lia.
  - rewrite Hs in H. inversion H; subst sh' t'. split; [exact Hs|]. unfold a_left at 1. cbn [a_phase]. lia.
  - binv H. destruct v as [r w]. inversion H; subst sh' t'. split; [exact Hs|]. unfold a_left at 1. cbn [a_phase]. lia.
  - binv H. destruct v as [[r stop] msg]. inversion H; subst sh' t'. cbn [xs_stopped xs_msgs]. rewrite Hs in E. split; [exact (update_stopped _ _ _ _ _ _ _ _ _ E)|].
    rewrite app_length. unfold a_left at 1. cbn [a_phase length]. lia.
  - inversion H; subst sh' t'. split; [exact Hs|lia].
Qed.
Lemma a_stop_run p m fuel sched : forall y y', foldM (aevent p m fuel) sched y = Ret y' -> xs_stopped (ay_shared y) = true ->
  messages (ay_shared y') + sumf a_left (ay_threads y') <= messages (ay_shared y) + sumf a_left (ay_threads y).
Proof.
  induction sched as [|e sched IH]; intros y y' H Hy; cbn [foldM] in H; [inversion H; subst; lia|]. binv H.
  assert (G : xs_stopped (ay_shared v) = true /\ messages (ay_shared v) + sumf a_left (ay_threads v) <= messages (ay_shared y) + sumf a_left (ay_threads y)).
  { destruct e as [tid|]; cbn [aevent] in E.
    - destruct (nth_error (ay_threads y) tid) as [t|] eqn:Hn; [|inversion E; subst; split; [exact Hy|lia]]. binv E. destruct v0 as [sh t']. inversion E; subst. cbn [ay_shared ay_threads].
      destruct (a_stop_step _ _ _ _ _ _ _ Hy E0) as [Gs Gm]. split; [exact Gs|]. pose proof (sumf_set_nth a_left t' _ _ _ Hn). lia.
    - inversion E; subst. split; [reflexivity|]. unfold messages. cbn [ay_shared xs_msgs ay_threads]. lia. }
  destruct G as [Gs Gm]. specialize (IH v y' H Gs). lia.
Qed.
Lemma a_stop_any p m fuel sched y y' : foldM (aevent p m fuel) sched y = Ret y' -> xs_stopped (ay_shared y) = true ->
  (length (xs_msgs (ay_shared y')) <= length (xs_msgs (ay_shared y)) + 2 * length (ay_threads y))%nat.
Proof.
  intros H Hs. pose proof (a_stop_run p m fuel sched y y' H Hs) as G. unfold messages in G.
  assert (HB : forall t, a_left t <= 2) by (intros t; unfold a_left; destruct (a_phase t); lia). pose proof (sumf_le_mul a_left 2 (ay_threads y) HB) as G2. lia.
Qed.

Lemma cancelled_approx p ranges board dead threads target shuf rngs fuel sched o : Forall range_ok ranges -> permutes shuf ->
  approx_equity p ranges board dead threads target true shuf rngs fuel sched = Ret (ROk o) ->
  (length (o_progress o) <= 2 * threads)%nat /\ (N.of_nat threads < 2 ^ 32 -> r_eval_count (o_results o) <= 4096 * N.of_nat threads).
Proof.
  intros Hr Hs H. assert (HM : (length (o_progress o) <= 2 * threads)%nat).
  { pose proof H as H'. unfold approx_equity in H'. destruct (validate _ _ _); [discriminate|]. binv H'. destruct v as [[hrs crs]|]; [|discriminate].
    binv H'. binv H'. destruct v0 as [r0 flag]. binv H'. binv H'. destruct (forallb adone (ay_threads v1)) eqn:Hd; [|discriminate]. binv H'. inversion H'; subst o. cbn [o_progress].
    unfold ainit in E2. binv E2. inversion E2; subst v0. pose proof (a_stop_any _ _ _ _ _ _ E3 eq_refl) as G. cbn [ay_shared xs_msgs ay_threads length] in G. rewrite map_length, seq_length in G. exact G. }
  split; [exact HM|]. intros Ht. destruct (batches_counted _ _ _ _ _ _ _ _ _ _ _ _ Hr Hs H) as [_ E]; [change (2 ^ 52) with (2 ^ 20 * 2 ^ 32); lia|]. lia.
Qed.
