(* Which positions the worker threads process. *)
From Verif Require Import Base BaseProofs SumFacts Ghost Float64 Hand FastDivide Range Combined Sim SpecPoker SpecEquity SpecRun EnumProofs ShowdownProofs
  CombinedProofs MergeProofs MachineProofs.
From Coq Require Import Permutation Sorted.
Local Open Scope N_scope.

Lemma update_results_stop p m e stopped r st fin r' stop msg : m_calc_exact m = true ->
  update_results p m e stopped r st fin = Ret (r', stop, msg) -> stop = stopped.
Proof.
  intros Hex H. unfold update_results in H. rewrite Hex in H. cbn [negb] in H.
  apply bind_ret in H as (hs & _ & H). apply bind_ret in H as (g & _ & H). apply bind_ret in H as (ec & _ & H).
  apply bind_ret in H as (tot & _ & H). injection H as _ <- _. reflexivity.
Qed.

Section Trace.
  Variable p : profile.
  Variable m : simulator.
  Variable dvs : list divider.
  Variable total post : N.
  Hypothesis Hex : m_calc_exact m = true.
  Hypothesis Hpre : get_preflop_combo_count p m = Ret total.
  Hypothesis Hpost : get_postflop_combo_count p m = Ret post.
  Hypothesis Hpost0 : 0 < post.
  Hypothesis Htotal : total + 2000000 < 2 ^ 64.

  Definition tok (t : xthread) : Prop :=
    x_end t <= total /\ match x_phase t with XTop => x_pos t <= x_end t | XWork | XFlush | XCheck => x_pos t < x_end t | _ => True end.
  Record track (y : xsys) (P lost : list N) : Prop := mkTrack {
    k_threads : Forall tok (xy_threads y);
    k_enum : xs_enum_pos (xy_shared y) <= total;
    k_perm : Permutation (P ++ concat (map rem (xy_threads y)) ++ interval (xs_enum_pos (xy_shared y)) total ++ lost) (upto total);
    k_lost : xs_stopped (xy_shared y) = false -> lost = [];
    k_over : xs_stopped (xy_shared y) = false -> Forall (fun t => over t = true -> xs_enum_pos (xy_shared y) = total) (xy_threads y) }.

  Definition wpos (t : xthread) : list N := match x_phase t with XWork => [x_pos t] | _ => [] end.
  Lemma xstep_track sh t sh' t' : xstep p m dvs sh t = Ret (sh', t') -> tok t -> xs_enum_pos sh <= total ->
    xs_stopped sh' = xs_stopped sh /\ xs_enum_pos sh <= xs_enum_pos sh' <= total /\ tok t' /\
    exists lost, (xs_stopped sh = false -> lost = []) /\
      Permutation (rem t ++ interval (xs_enum_pos sh) total) (wpos t ++ rem t' ++ interval (xs_enum_pos sh') total ++ lost) /\
      (xs_stopped sh = false -> over t' = true -> over t = true \/ xs_enum_pos sh' = total).
  Proof.
    intros E [Hend Hph] Hle. unfold xstep, tok, rem, over, wpos in *.
    destruct sh as [ep stop res msgs]. destruct t as [ph pos end_ st]. cbn [xs_enum_pos xs_stopped xs_results xs_msgs x_phase x_pos x_end x_stats] in *.
    destruct ph.
    - destruct (N.leb_spec end_ pos) as [He|He].
      + rewrite Hpost in E. cbn [bind] in E. rewrite (proj2 (N.eqb_neq post 0)), Hpre in E by lia. cbn [bind] in E.
        set (bs := N.max (2000000 / post) 1) in E.
        assert (Hbs : 1 <= bs <= 2000000).
        { unfold bs. assert (2000000 / post <= 2000000) by (apply N.div_le_upper_bound; nia). lia. }
        unfold reserve_batch in E. rewrite add_ok in E by lia. cbn [bind] in E. set (e := N.min total (ep + bs)) in E. injection E as <- <-.
        cbn [xs_enum_pos xs_stopped x_phase x_pos x_end]. split; [reflexivity|]. split; [lia|].
        rewrite (interval_empty pos end_) by lia. destruct (N.leb_spec e ep) as [Hee|Hee].
        * split; [split; [lia|exact I]|]. exists []. split; [reflexivity|]. split; [replace e with total by lia; replace ep with total by lia; perm|]. intros _ _. right. lia.
        * split; [split; lia|]. exists []. split; [reflexivity|]. split; [rewrite (interval_split ep e total) by lia; perm|]. discriminate.
      + injection E as <- <-. cbn [xs_enum_pos xs_stopped x_phase x_pos x_end]. split; [reflexivity|]. split; [lia|]. split; [split; lia|].
        exists []. split; [reflexivity|]. split; [perm|discriminate].
    - apply bind_ret in E as (st' & _ & E). destruct (10000 <=? b_eval_count (s_batch st')).
      + injection E as <- <-. cbn [xs_enum_pos xs_stopped x_phase x_pos x_end]. split; [reflexivity|]. split; [lia|]. split; [split; lia|].
        exists []. split; [reflexivity|]. split; [rewrite (interval_first pos end_) by lia; change (pos :: interval (pos + 1) end_) with ([pos] ++ interval (pos + 1) end_); perm|discriminate].
      + rewrite add_ok in E by lia. cbn [bind] in E. injection E as <- <-. cbn [xs_enum_pos xs_stopped x_phase x_pos x_end]. split; [reflexivity|]. split; [lia|]. split; [split; lia|].
        exists []. split; [reflexivity|]. split; [rewrite (interval_first pos end_) by lia; change (pos :: interval (pos + 1) end_) with ([pos] ++ interval (pos + 1) end_); perm|discriminate].
    - apply bind_ret in E as ([[r' stop'] msg] & Eu & E). apply update_results_stop in Eu; [|exact Hex]. apply bind_ret in E as (fresh & _ & E). injection E as <- <-.
      cbn [xs_enum_pos xs_stopped x_phase x_pos x_end]. split; [exact Eu|]. split; [lia|]. split; [split; lia|].
      exists []. split; [reflexivity|]. split; [perm|discriminate].
    - destruct stop.
      + injection E as <- <-. cbn [xs_enum_pos xs_stopped x_phase x_pos x_end]. split; [reflexivity|]. split; [lia|]. split; [split; [lia|exact I]|].
        exists (interval (pos + 1) end_). split; [discriminate|]. split; [perm|discriminate].
      + rewrite add_ok in E by lia. cbn [bind] in E. injection E as <- <-. cbn [xs_enum_pos xs_stopped x_phase x_pos x_end]. split; [reflexivity|]. split; [lia|]. split; [split; lia|].
        exists []. split; [reflexivity|]. split; [perm|discriminate].
    - apply bind_ret in E as ([[r' stop'] msg] & Eu & E). apply update_results_stop in Eu; [|exact Hex]. injection E as <- <-.
      cbn [xs_enum_pos xs_stopped x_phase x_pos x_end]. split; [exact Eu|]. split; [lia|]. split; [split; [lia|exact I]|].
      exists []. split; [reflexivity|]. split; [perm|]. intros _ _. left. reflexivity.
    - injection E as <- <-. cbn [xs_enum_pos xs_stopped x_phase x_pos x_end]. split; [reflexivity|]. split; [lia|]. split; [split; [lia|exact I]|].
      exists []. split; [reflexivity|]. split; [perm|]. intros _ _. left. reflexivity.
  Qed.

  Lemma xevent_track y e y' P lost : xevent p m dvs y e = Ret y' -> track y P lost -> exists lost', track y' (P ++ works_on y e) lost'.
  Proof.
    intros E [K1 K2 K3 K4 K5]. destruct e as [tid|]; cbn [xevent works_on] in *.
    2:{ injection E as <-. exists lost. constructor; cbn [xy_shared xy_threads xs_enum_pos xs_stopped]; try assumption; try discriminate. rewrite app_nil_r. exact K3. }
    destruct (nth_error (xy_threads y) tid) as [t|] eqn:Et.
    2:{ injection E as <-. exists lost. rewrite app_nil_r. constructor; assumption. }
    apply bind_ret in E as ([sh' t'] & Es & E). injection E as <-. destruct y as [sh ts]. cbn [xy_shared xy_threads] in *.
    destruct (nth_error_split ts tid Et) as (T1 & T2 & -> & Hlen). subst tid. rewrite set_nth_app.
    apply Forall_app in K1 as [K1a K1b]. inversion K1b as [|? ? Kt K1c]; subst.
    destruct (xstep_track sh t sh' t' Es Kt K2) as (S1 & S2 & S3 & lost' & S4 & S5 & S6).
    exists (lost' ++ lost). constructor; cbn [xy_shared xy_threads].
    - apply Forall_app. split; [exact K1a|]. constructor; assumption.
    - lia.
    - fold (wpos t). rewrite map_app, concat_app in K3 |- *. cbn [map concat] in K3 |- *. perm.
    - intros Hs. rewrite S1 in Hs. rewrite (S4 Hs), (K4 Hs). reflexivity.
    - intros Hs. rewrite S1 in Hs. specialize (K5 Hs). apply Forall_app in K5 as [Ka Kb]. inversion Kb as [|? ? Kc Kd]; subst.
      assert (Hmono : forall u, (over u = true -> xs_enum_pos sh = total) -> over u = true -> xs_enum_pos sh' = total) by (intros u Hu Ho; specialize (Hu Ho); lia).
      apply Forall_app. split; [eapply Forall_impl; [|exact Ka]; intros u; apply Hmono|]. constructor; [|eapply Forall_impl; [|exact Kd]; intros u; apply Hmono].
      intros Ho. destruct (S6 Hs Ho) as [Ho'|H]; [|exact H]. specialize (Kc Ho'). lia.
  Qed.

  Lemma run_track sched : forall y y' P lost, foldM (xevent p m dvs) sched y = Ret y' -> track y P lost ->
    exists lost', track y' (P ++ processed p m dvs sched y) lost'.
  Proof.
    induction sched as [|e sched IH]; intros y y' P lost E K; cbn [foldM processed] in *.
    - injection E as <-. exists lost. rewrite app_nil_r. exact K.
    - apply bind_ret in E as (y1 & E1 & E2). rewrite E1. destruct (xevent_track y e y1 P lost E1 K) as (lost1 & K1).
      destruct (IH y1 y' _ lost1 E2 K1) as (lost2 & K2). exists lost2. rewrite app_assoc. exact K2.
  Qed.

  Lemma stop_track sched : forall y y' P lost, foldM (xevent p m dvs) sched y = Ret y' -> track y P lost ->
    xs_stopped (xy_shared y') = xs_stopped (xy_shared y) || existsb is_cancel sched /\ length (xy_threads y') = length (xy_threads y).
  Proof.
    induction sched as [|e sched IH]; intros y y' P lost E K; cbn [foldM existsb] in *.
    - injection E as <-. rewrite orb_false_r. auto.
    - apply bind_ret in E as (y1 & E1 & E2). destruct (xevent_track y e y1 P lost E1 K) as (lost1 & K1).
      destruct (IH y1 y' _ lost1 E2 K1) as [H1 H2]. rewrite H1, H2. clear H1 H2. destruct e as [tid|]; cbn [xevent is_cancel orb] in *.
      + destruct (nth_error (xy_threads y) tid) as [t|] eqn:Et; [|injection E1 as <-; auto].
        apply bind_ret in E1 as ([sh' t'] & Es & E1). injection E1 as <-. cbn [xy_shared xy_threads]. split; [|apply set_nth_length].
        destruct (xstep_track _ _ _ _ Es) as [S1 _]; [|apply K|rewrite S1; reflexivity].
        pose proof (k_threads _ _ _ K) as Kt. rewrite Forall_forall in Kt. apply Kt. eapply nth_error_In; exact Et.
      + injection E1 as <-. cbn [xy_shared xy_threads xs_stopped orb]. rewrite orb_true_r. auto.
  Qed.

  (* when all threads have finished: every position once, unless the run was cancelled *)
  Lemma positions_once n threads cancelled r0 sched y0 y : xinit n threads cancelled r0 = Ret y0 -> foldM (xevent p m dvs) sched y0 = Ret y ->
    forallb xdone (xy_threads y) = true ->
    (exists skipped, Permutation (processed p m dvs sched y0 ++ skipped) (upto total)) /\
    (cancelled = false -> existsb is_cancel sched = false -> (0 < threads)%nat -> Permutation (processed p m dvs sched y0) (upto total)).
  Proof.
    intros Ei Er Hd. unfold xinit in Ei. apply bind_ret in Ei as (st & _ & Ei). injection Ei as <-.
    assert (K0 : track {| xy_shared := {| xs_enum_pos := 0; xs_stopped := cancelled; xs_results := r0; xs_msgs := [] |};
         xy_threads := repeat {| x_phase := XTop; x_pos := 0; x_end := 0; x_stats := st |} threads |} [] []).
    { constructor; cbn [xy_shared xy_threads xs_enum_pos xs_stopped].
      - apply Forall_forall. intros t Ht. apply repeat_spec in Ht. subst t. split; cbn; lia.
      - lia.
      - rewrite interval_upto, app_nil_r. replace (concat (map rem (repeat {| x_phase := XTop; x_pos := 0; x_end := 0; x_stats := st |} threads))) with (@nil N); [reflexivity|].
        clear. induction threads as [|k IH]; [reflexivity|]. cbn [repeat map concat]. rewrite <- IH. reflexivity.
      - reflexivity.
      - intros _. apply Forall_forall. intros t Ht. apply repeat_spec in Ht. subst t. discriminate. }
    destruct (run_track sched _ _ _ _ Er K0) as (lost & [K1 K2 K3 K4 K5]). destruct (stop_track sched _ _ _ _ Er K0) as [Hs Hl].
    cbn [xy_shared xy_threads xs_stopped] in Hs, Hl. rewrite repeat_length in Hl. rewrite app_nil_l in K3.
    assert (Hrem : concat (map rem (xy_threads y)) = []).
    { clear - Hd. induction (xy_threads y) as [|t ts IH]; [reflexivity|]. cbn [forallb map concat] in *. apply andb_true_iff in Hd as [H1 H2]. rewrite (IH H2), app_nil_r.
      unfold xdone, rem in *. destruct (x_phase t); try discriminate. reflexivity. }
    rewrite Hrem in K3. cbn [app] in K3. split; [eexists; exact K3|]. intros Hc Hn Ht. rewrite Hc, Hn in Hs. cbn [orb] in Hs.
    specialize (K4 Hs). specialize (K5 Hs). subst lost. rewrite app_nil_r in K3.
    destruct (xy_threads y) as [|t ts]; [cbn in Hl; lia|]. inversion K5 as [|? ? Ko _]; subst. cbn [forallb] in Hd. apply andb_true_iff in Hd as [Hd _].
    rewrite Ko, interval_empty, app_nil_r in K3; [exact K3|lia|]. unfold xdone, over in *. destruct (x_phase t); try discriminate. reflexivity.
  Qed.
End Trace.
