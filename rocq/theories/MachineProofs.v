(* The worker threads of exact mode, under every interleaving. *)
From Verif Require Import Base BaseProofs SumFacts Ghost Float64 Hand FastDivide Range Combined Sim SpecPoker SpecEquity EnumProofs ShowdownProofs
  CombinedProofs MergeProofs.
From Coq Require Import Permutation Sorted.
Local Open Scope N_scope.

Lemma perm_count (l l' : list N) : Permutation l l' <-> forall x, count_occ N.eq_dec l x = count_occ N.eq_dec l' x.
Proof. apply Permutation_count_occ. Qed.
Lemma set_nth_app {A} (l1 l2 : list A) x y : set_nth (l1 ++ x :: l2) (length l1) y = l1 ++ y :: l2.
Proof. induction l1 as [|a l1 IH]; [reflexivity|]. cbn [app length set_nth]. f_equal. exact IH. Qed.
Lemma set_nth_id {A} (l : list A) i x : nth_error l i = Some x -> set_nth l i x = l.
Proof. revert i. induction l as [|y l IH]; intros [|i] H; cbn in *; try discriminate; [congruence|]. f_equal. apply IH. exact H. Qed.

Ltac perm := rewrite perm_count in *; intros ?c;
  repeat match goal with H : forall x, count_occ N.eq_dec _ x = _ |- _ => specialize (H c) end;
  rewrite ?count_occ_app, ?count_occ_nil in *; lia.

Lemma may_returns {A} p B (m : outcome A) P : B \/ p = Release -> may p B m P -> exists a, m = Ret a /\ P a.
Proof. intros [b|Hp] H; [exact (may_total p B _ _ b H)|]. destruct H as [H|(H & _)]; [exact H|congruence]. Qed.

Section Machine.
  Variable p : profile.
  Variable B : Prop.
  Variable n : nat.
  Variable m : simulator.
  Variable dvs : list divider.
  Variable total post : N.
  Variable C : N -> obs -> N.            (* what a position adds to a counter *)
  Variable ids : list nat.
  Variable st0 : stats.
  Variable r0 : results.
  Hypothesis Hn : (n <= 9)%nat.
  Hypothesis Hmn : m_n_players m = n.
  Hypothesis Hex : m_calc_exact m = true.
  Hypothesis Hpre : get_preflop_combo_count p m = Ret total.
  Hypothesis Hpost : get_postflop_combo_count p m = Ret post.
  Hypothesis Hpost0 : 0 < post.
  Hypothesis Htotal : total + 2000000 < 2 ^ 64.
  Hypothesis Hinit : stats_init n = Ret st0.
  Hypothesis Hshape0 : shape (n * NUM_HANDS) ids st0.
  Hypothesis Hids : forall i, (i < n)%nat -> get ids i = Ret i.
  Hypothesis Hzero : forall o, rd o st0 = 0.
  Hypothesis Hproc : forall x, x < total -> forall st v, shape (n * NUM_HANDS) ids st -> (forall o, agr p (rd o st) (v o)) ->
    (B -> forall o, v o + C x o < 2 ^ 64) ->
    may p B (process_position p m dvs x st)
      (fun st' => shape (n * NUM_HANDS) ids st' /\ forall o, agr p (rd o st') (v o + C x o)).
  Hypothesis HB1 : B -> forall o, sumf (fun x => C x o) (upto total) < 2 ^ 64.
  Hypothesis HB2 : B -> sumf (fun i => sumf (fun x => C x (OMask i)) (upto total)) (seq 0 (2 ^ n)) < 2 ^ 64.

  Definition val (L : list N) (o : obs) : N := sumf (fun x => C x o) L.
  Lemma val_app L L' o : val (L ++ L') o = val L o + val L' o.
  Proof. apply sumf_app. Qed.
  Lemma val_sub L R o : Permutation (L ++ R) (upto total) -> val L o <= sumf (fun x => C x o) (upto total).
  Proof. intros H. rewrite <- (sumf_perm _ _ _ H), sumf_app. unfold val. lia. Qed.

  Definition good (L : list N) (st : stats) : Prop := shape (n * NUM_HANDS) ids st /\ forall o, agr p (rd o st) (val L o).
  (* the positions a thread has still to process *)
  Definition rem (t : xthread) : list N :=
    match x_phase t with
    | XTop | XWork => interval (x_pos t) (x_end t)
    | XFlush | XCheck => interval (x_pos t + 1) (x_end t)
    | XFinal | XDone => []
    end.
  Definition thread_ok (L : list N) (t : xthread) : Prop :=
    x_end t <= total /\
    match x_phase t with
    | XTop => x_pos t <= x_end t /\ good L (x_stats t)
    | XWork | XFlush => x_pos t < x_end t /\ good L (x_stats t)
    | XCheck => x_pos t < x_end t /\ good L (x_stats t)
    | XFinal => good L (x_stats t)
    | XDone => L = []
    end.

  (* steps left: four per position, and the way to the end *)
  Definition wphase (t : xthread) : nat :=
    match x_phase t with XDone => 0 | XFinal => 1 | XWork => 2 | XTop => 3 | XCheck => 4 | XFlush => 5 end.
  Definition left (t : xthread) : nat := 4 * length (rem t) + wphase t.
  Definition over (t : xthread) : bool := match x_phase t with XFinal | XDone => true | _ => false end.

  Lemma interval_length a b : length (interval a b) = N.to_nat (b - a).
  Proof. unfold interval. apply nseq_length. Qed.

  Lemma good_init : good [] st0.
  Proof. split; [exact Hshape0|]. intros o. rewrite Hzero. apply agr_0. Qed.
  Lemma results_ok_ext r V V' : results_ok p n r0 r V -> (forall o, V o = V' o) -> results_ok p n r0 r V'.
  Proof.
    intros (H1 & H2 & H3 & H4 & H5 & H6 & H7) E. unfold results_ok. do 4 (split; [assumption|]). split; [|split; [|exact H7]].
    - intros o Ho. rewrite <- E. apply H5. exact Ho.
    - intros j Hj. rewrite <- E. apply H6. exact Hj.
  Qed.
  Lemma perm_front (LR L R : list N) : Permutation (LR ++ L ++ R) (upto total) -> Permutation (L ++ LR ++ R) (upto total).
  Proof. intros H. perm. Qed.
  Lemma bound_pair LR L R : Permutation (LR ++ L ++ R) (upto total) -> B -> forall o, inr n o -> val LR o + val L o < 2 ^ 64.
  Proof. intros H b o _. rewrite <- val_app. eapply N.le_lt_trans; [apply (val_sub _ R); rewrite <- app_assoc; exact H|]. apply HB1. exact b. Qed.
  Lemma bound_masks L R : Permutation (L ++ R) (upto total) -> B -> sumf (fun i => val L (OMask i)) (seq 0 (2 ^ n)) < 2 ^ 64.
  Proof. intros H b. eapply N.le_lt_trans; [apply sumf_le; intros i _; apply (val_sub L R); exact H|]. apply HB2. exact b. Qed.

  Definition step_post (sh : xshared) (t : xthread) (rest : list N) (sh' : xshared) (t' : xthread) : Prop :=
    exists LR L lost, thread_ok L t' /\ results_ok p n r0 (xs_results sh') (val LR) /\
      xs_enum_pos sh <= xs_enum_pos sh' /\ xs_enum_pos sh' <= total /\
      Permutation (LR ++ L ++ rem t' ++ interval (xs_enum_pos sh') total ++ lost ++ rest) (upto total) /\
      xs_stopped sh' = xs_stopped sh /\ (xs_stopped sh = false -> lost = []) /\
      (xdone t = true -> sh' = sh /\ t' = t) /\
      (xdone t = false -> (left t' + 4 * N.to_nat (total - xs_enum_pos sh') < left t + 4 * N.to_nat (total - xs_enum_pos sh))%nat) /\
      ((xs_msgs sh' = xs_msgs sh /\ (xdone t' = true -> xdone t = true)) \/ xs_msgs sh' = xs_msgs sh ++ [exact_progress (xs_enum_pos sh) total]) /\
      (xs_stopped sh = false -> over t' = true -> over t = true \/ (xs_enum_pos sh' = total /\ xdone t' = false)).

  Lemma xstep_ok sh t L LR rest : thread_ok L t -> results_ok p n r0 (xs_results sh) (val LR) -> xs_enum_pos sh <= total ->
    Permutation (LR ++ L ++ rem t ++ interval (xs_enum_pos sh) total ++ rest) (upto total) ->
    may p B (xstep p m dvs sh t) (fun '(sh', t') => step_post sh t rest sh' t').
  Proof.
    intros [Hend Hph] HR Hle HP. unfold xstep, step_post, thread_ok, left, wphase, xdone, over, rem in *.
    destruct sh as [ep stop res msgs]. destruct t as [ph pos end_ st]. cbn [xs_enum_pos xs_stopped xs_results xs_msgs x_phase x_pos x_end x_stats] in *.
    destruct ph.
    - (* XTop *)
      destruct Hph as [Hpe Hgood]. destruct (N.leb_spec end_ pos) as [He|He].
      + rewrite Hpost. cbn [bind]. rewrite (proj2 (N.eqb_neq post 0)) by lia. rewrite Hpre. cbn [bind].
        set (bs := N.max (2000000 / post) 1).
        assert (Hbs : 1 <= bs <= 2000000).
        { unfold bs. assert (2000000 / post <= 2000000) by (apply N.div_le_upper_bound; nia). lia. }
        unfold reserve_batch. rewrite add_ok by lia. cbn [bind]. apply may_ret.
        set (e := N.min total (ep + bs)). cbn [xs_enum_pos xs_stopped xs_results xs_msgs x_phase x_pos x_end x_stats].
        assert (Hi : interval pos end_ = []) by (apply interval_empty; lia). rewrite Hi in *. rewrite app_nil_l in HP. cbn [length].
        destruct (N.leb_spec e ep) as [Hee|Hee].
        * assert (Het : ep = total) by lia. assert (e = total) by lia.
          exists LR, L, []. cbn [x_phase x_pos x_end x_stats].
          split; [split; [lia|exact Hgood]|]. split; [exact HR|]. split; [lia|]. split; [lia|].
          split; [cbn [app]; rewrite Het in HP; replace e with total; exact HP|].
          split; [reflexivity|]. split; [reflexivity|]. split; [discriminate|]. split; [cbn [length]; lia|].
          split; [left; split; [reflexivity|discriminate]|]. intros _ _. right. split; [lia|reflexivity].
        * exists LR, L, []. cbn [x_phase x_pos x_end x_stats].
          split; [split; [lia|split; [exact Hee|exact Hgood]]|]. split; [exact HR|]. split; [lia|]. split; [lia|].
          split. { rewrite (interval_split ep e total) in HP by lia. cbn [app]. perm. }
          split; [reflexivity|]. split; [reflexivity|]. split; [discriminate|]. split.
          { intros _. rewrite interval_length. lia. }
          split; [left; split; [reflexivity|discriminate]|]. discriminate.
      + apply may_ret. exists LR, L, []. cbn [xs_enum_pos xs_stopped xs_results xs_msgs x_phase x_pos x_end x_stats].
        split; [split; [exact Hend|split; [exact He|exact Hgood]]|]. split; [exact HR|]. split; [lia|]. split; [exact Hle|].
        split; [exact HP|]. split; [reflexivity|]. split; [reflexivity|]. split; [discriminate|]. split; [lia|].
        split; [left; split; [reflexivity|discriminate]|]. discriminate.
    - (* XWork *)
      destruct Hph as [Hpe [Hsh Hag]].
      rewrite (interval_first pos end_) in HP by exact Hpe. change (pos :: interval (pos + 1) end_) with ([pos] ++ interval (pos + 1) end_) in HP.
      eapply may_bind.
      { apply (Hproc pos ltac:(lia) st (val L) Hsh Hag). intros b o.
        assert (H : val (L ++ [pos]) o <= sumf (fun x => C x o) (upto total)).
        { apply (val_sub _ (LR ++ interval (pos + 1) end_ ++ interval ep total ++ rest)). perm. }
        rewrite val_app in H. unfold val in H at 2. rewrite sumf_cons, sumf_nil, N.add_0_r in H. specialize (HB1 b o). lia. }
      intros st' [Hsh' Hag'].
      assert (Hgood' : good (L ++ [pos]) st').
      { split; [exact Hsh'|]. intros o. rewrite val_app. unfold val at 2. rewrite sumf_cons, sumf_nil, N.add_0_r. apply Hag'. }
      assert (HP' : Permutation (LR ++ (L ++ [pos]) ++ interval (pos + 1) end_ ++ interval ep total ++ rest) (upto total)) by perm.
      destruct (10000 <=? b_eval_count (s_batch st')).
      + apply may_ret. exists LR, (L ++ [pos]), []. cbn [xs_enum_pos xs_stopped xs_results xs_msgs x_phase x_pos x_end x_stats].
        split; [split; [exact Hend|split; [exact Hpe|exact Hgood']]|]. split; [exact HR|]. split; [lia|]. split; [exact Hle|].
        split; [exact HP'|]. split; [reflexivity|]. split; [reflexivity|]. split; [discriminate|].
        split; [intros _; rewrite !interval_length; lia|].
        split; [left; split; [reflexivity|discriminate]|]. discriminate.
      + rewrite add_ok by lia. cbn [bind]. apply may_ret. exists LR, (L ++ [pos]), [].
        cbn [xs_enum_pos xs_stopped xs_results xs_msgs x_phase x_pos x_end x_stats].
        split; [split; [exact Hend|split; [lia|exact Hgood']]|]. split; [exact HR|]. split; [lia|]. split; [exact Hle|].
        split; [exact HP'|]. split; [reflexivity|]. split; [reflexivity|]. split; [discriminate|].
        split; [intros _; rewrite !interval_length; lia|].
        split; [left; split; [reflexivity|discriminate]|]. discriminate.
    - (* XFlush *)
      destruct Hph as [Hpe [Hsh Hag]].
      pose proof (update_results_ok p B n Hn ids Hids m ep stop r0 res st false (val LR) (val L) total Hmn (fun _ => Hpre) Hsh Hag HR
        (bound_pair LR L _ HP) (bound_masks L _ (perm_front _ _ _ HP))) as Hup.
      eapply may_bind; [exact Hup|]. intros [[r' stop'] msg] [HR' Hmsg]. destruct (Hmsg Hex) as [-> ->].
      rewrite Hmn, Hinit. cbn [bind]. apply may_ret. exists (LR ++ L), [], [].
      cbn [xs_enum_pos xs_stopped xs_results xs_msgs x_phase x_pos x_end x_stats].
      split; [split; [exact Hend|split; [exact Hpe|exact good_init]]|].
      split; [eapply results_ok_ext; [exact HR'|]; intros o; cbv beta; rewrite val_app; reflexivity|]. split; [lia|]. split; [exact Hle|].
      split; [cbn [app]; rewrite <- app_assoc; exact HP|]. split; [reflexivity|]. split; [reflexivity|]. split; [discriminate|].
      split; [intros _; lia|]. split; [right; reflexivity|]. discriminate.
    - (* XCheck *)
      destruct Hph as [Hpe Hgood]. destruct stop.
      + apply may_ret. exists LR, L, (interval (pos + 1) end_). cbn [xs_enum_pos xs_stopped xs_results xs_msgs x_phase x_pos x_end x_stats].
        split; [split; [exact Hend|exact Hgood]|]. split; [exact HR|]. split; [lia|]. split; [exact Hle|]. split; [perm|].
        split; [reflexivity|]. split; [discriminate|]. split; [discriminate|]. split; [intros _; cbn [length]; lia|].
        split; [left; split; [reflexivity|discriminate]|]. discriminate.
      + rewrite add_ok by lia. cbn [bind]. apply may_ret. exists LR, L, [].
        cbn [xs_enum_pos xs_stopped xs_results xs_msgs x_phase x_pos x_end x_stats].
        split; [split; [exact Hend|split; [lia|exact Hgood]]|]. split; [exact HR|]. split; [lia|]. split; [exact Hle|]. split; [exact HP|].
        split; [reflexivity|]. split; [reflexivity|]. split; [discriminate|]. split; [intros _; lia|].
        split; [left; split; [reflexivity|discriminate]|]. discriminate.
    - (* XFinal *)
      destruct Hph as [Hsh Hag].
      pose proof (update_results_ok p B n Hn ids Hids m ep stop r0 res st true (val LR) (val L) total Hmn (fun _ => Hpre) Hsh Hag HR
        (bound_pair LR L _ HP) (bound_masks L _ (perm_front _ _ _ HP))) as Hup.
      eapply may_bind; [exact Hup|]. intros [[r' stop'] msg] [HR' Hmsg]. destruct (Hmsg Hex) as [-> ->].
      apply may_ret. exists (LR ++ L), [], [].
      cbn [xs_enum_pos xs_stopped xs_results xs_msgs x_phase x_pos x_end x_stats].
      split; [split; [exact Hend|reflexivity]|].
      split; [eapply results_ok_ext; [exact HR'|]; intros o; cbv beta; rewrite val_app; reflexivity|]. split; [lia|]. split; [exact Hle|].
      split; [cbn [app] in *; rewrite <- app_assoc; exact HP|]. split; [reflexivity|]. split; [reflexivity|]. split; [discriminate|].
      split; [intros _; cbn [length]; lia|]. split; [right; reflexivity|]. left. reflexivity.
    - (* XDone *)
      subst L. apply may_ret. exists LR, [], [].
      cbn [xs_enum_pos xs_stopped xs_results xs_msgs x_phase x_pos x_end x_stats].
      split; [split; [exact Hend|reflexivity]|]. split; [exact HR|]. split; [lia|]. split; [exact Hle|]. split; [exact HP|].
      split; [reflexivity|]. split; [reflexivity|]. split; [auto|]. split; [discriminate|].
      split; [left; split; [reflexivity|reflexivity]|]. left. reflexivity.
  Qed.

  (* ----------------------------------------------------------------------- *)
  (** ** All threads *)

  Record inv (y : xsys) (LR : list N) (Ls : list (list N)) (lost : list N) (es : list N) : Prop := mkInv {
    i_threads : Forall2 thread_ok Ls (xy_threads y);
    i_results : results_ok p n r0 (xs_results (xy_shared y)) (val LR);
    i_enum : xs_enum_pos (xy_shared y) <= total;
    i_perm : Permutation (LR ++ concat Ls ++ concat (map rem (xy_threads y)) ++ interval (xs_enum_pos (xy_shared y)) total ++ lost) (upto total);
    i_lost : xs_stopped (xy_shared y) = false -> lost = [];
    i_msgs : xs_msgs (xy_shared y) = map (fun e => exact_progress e total) es;
    i_sorted : StronglySorted N.le es;
    i_es : Forall (fun e => e <= xs_enum_pos (xy_shared y)) es;
    i_over : xs_stopped (xy_shared y) = false -> forall t, In t (xy_threads y) -> over t = true -> xs_enum_pos (xy_shared y) = total;
    i_done : xs_stopped (xy_shared y) = false -> forall t, In t (xy_threads y) -> xdone t = true -> In total es }.

  Definition fuel (y : xsys) : nat :=
    (list_sum (map left (xy_threads y)) + 4 * N.to_nat (total - xs_enum_pos (xy_shared y)))%nat.

  Lemma sorted_snoc es e : StronglySorted N.le es -> Forall (fun x => x <= e) es -> StronglySorted N.le (es ++ [e]).
  Proof.
    induction 1 as [|x es Hs IH Hx]; intros HF; cbn [app]; [repeat constructor|]. inversion HF; subst. constructor; [apply IH; assumption|].
    apply Forall_app. split; [exact Hx|]. constructor; [assumption|constructor].
  Qed.

  Lemma xevent_ok y LR Ls lost es e : inv y LR Ls lost es ->
    may p B (xevent p m dvs y e) (fun y' => (exists LR' Ls' lost' es', inv y' LR' Ls' lost' es') /\
      length (xy_threads y') = length (xy_threads y) /\
      (xs_stopped (xy_shared y') = match e with Cancel => true | Run _ => xs_stopped (xy_shared y) end) /\
      match e with
      | Cancel => fuel y' = fuel y
      | Run tid => match nth_error (xy_threads y) tid with
                   | Some t => if xdone t then y' = y else (fuel y' < fuel y)%nat
                   | None => y' = y
                   end
      end).
  Proof.
    intros [I1 I2 I3 I4 I5 I6 I7 I8 I9 I10]. destruct e as [tid|]; cbn [xevent].
    2:{ apply may_ret. cbn [xy_shared xy_threads xs_stopped]. split; [|split; [reflexivity|split; reflexivity]].
        exists LR, Ls, lost, es. constructor; cbn [xy_shared xy_threads xs_stopped xs_enum_pos xs_results xs_msgs]; try assumption; discriminate. }
    destruct (nth_error (xy_threads y) tid) as [t|] eqn:Et.
    2:{ apply may_ret. split; [exists LR, Ls, lost, es; constructor; assumption|]. auto. }
    destruct y as [sh ts]. cbn [xy_shared xy_threads] in *.
    destruct (nth_error_split ts tid Et) as (T1 & T2 & -> & Hlen). subst tid.
    apply Forall2_app_inv_r in I1 as (A1 & A2' & HA1 & HA2 & ->). inversion HA2 as [|L ? A2 ? HL HA2']; subst.
    rewrite map_app, !concat_app in I4. cbn [map concat] in I4.
    eapply may_bind.
    { apply (xstep_ok sh t L LR (concat A1 ++ concat A2 ++ concat (map rem T1) ++ concat (map rem T2) ++ lost)); try assumption. perm. }
    intros [sh' t'] (LR' & L' & lost' & S1 & S2 & S3 & S4 & S5 & S6 & S7 & S8 & S9 & S10 & S11). apply may_ret.
    cbn [xy_shared xy_threads]. rewrite set_nth_app. split; [|split; [|split]].
    - assert (Hes : exists es', xs_msgs sh' = map (fun e => exact_progress e total) es' /\ StronglySorted N.le es' /\
        Forall (fun e => e <= xs_enum_pos sh') es' /\ (In total es -> In total es') /\
        (xdone t' = true -> xdone t = true \/ In (xs_enum_pos sh) es')).
      { destruct S10 as [[Em Hd]|Em].
        - exists es. split; [congruence|]. split; [exact I7|]. split; [|split; [auto|intros H; left; auto]].
          eapply Forall_impl; [|exact I8]. cbv beta. intros a Ha. lia.
        - exists (es ++ [xs_enum_pos sh]). split; [rewrite map_app, Em, I6; reflexivity|]. split; [apply sorted_snoc; assumption|].
          split; [|split].
          + apply Forall_app. split; [|constructor; [exact S3|constructor]]. eapply Forall_impl; [|exact I8]. cbv beta. intros a Ha. lia.
          + intros H. apply in_or_app. left. exact H.
          + intros _. right. apply in_or_app. right. left. reflexivity. }
      destruct Hes as (es' & E1 & E2 & E3 & E4 & E5).
      exists LR', (A1 ++ L' :: A2), (lost' ++ lost), es'. constructor; cbn [xy_shared xy_threads]; try assumption.
      + apply Forall2_app; [exact HA1|]. constructor; assumption.
      + rewrite map_app, !concat_app. cbn [map concat]. perm.
      + intros Hs. rewrite S6 in Hs. rewrite (S7 Hs), (I5 Hs). reflexivity.
      + intros Hs t1 Hin Ho. rewrite S6 in Hs. apply in_app_or in Hin as [Hin|[<-|Hin]].
        * assert (xs_enum_pos sh = total) by (apply (I9 Hs t1); [apply in_or_app; left; exact Hin|exact Ho]). lia.
        * destruct (S11 Hs Ho) as [Ho'|[E _]]; [|exact E]. assert (xs_enum_pos sh = total); [|lia].
          apply (I9 Hs t); [apply in_or_app; right; left; reflexivity|exact Ho'].
        * assert (xs_enum_pos sh = total) by (apply (I9 Hs t1); [apply in_or_app; right; right; exact Hin|exact Ho]). lia.
      + intros Hs t1 Hin Ho. rewrite S6 in Hs. apply in_app_or in Hin as [Hin|[<-|Hin]].
        * apply E4, (I10 Hs t1); [apply in_or_app; left; exact Hin|exact Ho].
        * destruct (E5 Ho) as [Ho'|Hin].
          -- apply E4, (I10 Hs t); [apply in_or_app; right; left; reflexivity|exact Ho'].
          -- assert (Ht : over t = true \/ (xs_enum_pos sh' = total /\ xdone t' = false)).
             { apply S11; [exact Hs|]. unfold over. unfold xdone in Ho. destruct (x_phase t'); try discriminate. reflexivity. }
             destruct Ht as [Ht|[_ Ht]]; [|congruence].
             replace (xs_enum_pos sh) with total in Hin; [exact Hin|]. symmetry.
             apply (I9 Hs t); [apply in_or_app; right; left; reflexivity|exact Ht].
        * apply E4, (I10 Hs t1); [apply in_or_app; right; right; exact Hin|exact Ho].
    - rewrite !app_length. reflexivity.
    - exact S6.
    - destruct (xdone t) eqn:Ed.
      + destruct (S8 eq_refl) as [-> ->]. reflexivity.
      + specialize (S9 eq_refl). unfold fuel. cbn [xy_shared xy_threads]. rewrite !map_app. cbn [map].
        change (list_sum (map left T1 ++ left t' :: map left T2)) with (list_sum (map left T1 ++ [left t'] ++ map left T2)).
        change (list_sum (map left T1 ++ left t :: map left T2)) with (list_sum (map left T1 ++ [left t] ++ map left T2)).
        rewrite !list_sum_app. cbn [list_sum fold_right]. lia.
  Qed.

  Definition is_cancel (e : event) : bool := match e with Cancel => true | Run _ => false end.

  Lemma run_ok sched : forall y LR Ls lost es, inv y LR Ls lost es ->
    may p B (foldM (xevent p m dvs) sched y) (fun y' => (exists LR' Ls' lost' es', inv y' LR' Ls' lost' es') /\
      length (xy_threads y') = length (xy_threads y) /\
      xs_stopped (xy_shared y') = xs_stopped (xy_shared y) || existsb is_cancel sched).
  Proof.
    induction sched as [|e sched IH]; intros y LR Ls lost es HI; cbn [foldM].
    - apply may_ret. split; [eauto|]. split; [reflexivity|]. cbn [existsb]. rewrite orb_false_r. reflexivity.
    - eapply may_bind; [eapply xevent_ok; exact HI|]. intros y1 ((LR1 & Ls1 & lost1 & es1 & HI1) & Hl & Hs & _).
      eapply may_weaken; [eapply IH; exact HI1|]. intros y2 (H1 & H2 & H3). split; [exact H1|]. split; [congruence|].
      rewrite H3, Hs. cbn [existsb]. destruct e; cbn [is_cancel orb]; [reflexivity|]. destruct (xs_stopped (xy_shared y)); reflexivity.
  Qed.

  (* how many of the events are steps of a thread that has not finished *)
  Fixpoint worked (sched : list event) (y : xsys) : nat :=
    match sched with
    | [] => 0
    | e :: sched' =>
        match xevent p m dvs y e with
        | Ret y' =>
            (match e with
             | Run tid => match nth_error (xy_threads y) tid with Some t => if xdone t then 0 else 1 | None => 0 end
             | Cancel => 0
             end + worked sched' y')%nat
        | Fail _ => 0%nat
        end
    end.

  Lemma worked_bound sched : forall y LR Ls lost es, inv y LR Ls lost es -> (worked sched y <= fuel y)%nat.
  Proof.
    induction sched as [|e sched IH]; intros y LR Ls lost es HI; cbn [worked]; [lia|].
    pose proof (xevent_ok y LR Ls lost es e HI) as Hx. destruct (xevent p m dvs y e) as [y'|f] eqn:Ee; [|lia].
    destruct Hx as [(y1 & E1 & (LR1 & Ls1 & lost1 & es1 & HI1) & _ & _ & Hf)|(_ & E1 & _)]; [|discriminate]. inversion E1; subst y1.
    specialize (IH y' LR1 Ls1 lost1 es1 HI1). destruct e as [tid|]; [|lia].
    destruct (nth_error (xy_threads y) tid) as [t|]; [|subst y'; lia]. destruct (xdone t); [subst y'; lia|lia].
  Qed.

  (* a thread that has not finished can be run until it has *)
  Lemma some_not_done ts : forallb xdone ts = false -> exists tid t, nth_error ts tid = Some t /\ xdone t = false.
  Proof.
    induction ts as [|t ts IH]; cbn [forallb]; [discriminate|]. destruct (xdone t) eqn:E; cbn [andb].
    - intros H. destruct (IH H) as (tid & t' & Ht & Hd). exists (S tid), t'. split; assumption.
    - intros _. exists 0%nat, t. split; [reflexivity|exact E].
  Qed.
  Lemma can_finish k : forall y LR Ls lost es, inv y LR Ls lost es -> (fuel y <= k)%nat -> B \/ p = Release ->
    exists sched y', foldM (xevent p m dvs) sched y = Ret y' /\ forallb xdone (xy_threads y') = true /\ existsb is_cancel sched = false.
  Proof.
    induction k as [|k IH]; intros y LR Ls lost es HI Hk b; destruct (forallb xdone (xy_threads y)) eqn:Ed;
      try (exists [], y; split; [reflexivity|]; split; [exact Ed|reflexivity]).
    - destruct (some_not_done _ Ed) as (tid & t & Ht & Hd). pose proof (xevent_ok y LR Ls lost es (Run tid) HI) as Hx.
      apply (may_returns p B _ _ b) in Hx as (y1 & E1 & _ & _ & _ & Hf). rewrite Ht, Hd in Hf. lia.
    - destruct (some_not_done _ Ed) as (tid & t & Ht & Hd). pose proof (xevent_ok y LR Ls lost es (Run tid) HI) as Hx.
      apply (may_returns p B _ _ b) in Hx as (y1 & E1 & (LR1 & Ls1 & lost1 & es1 & HI1) & _ & _ & Hf). rewrite Ht, Hd in Hf.
      destruct (IH y1 LR1 Ls1 lost1 es1 HI1 ltac:(lia) b) as (sched & y' & Er & Hdone & Hc).
      exists (Run tid :: sched), y'. cbn [foldM]. rewrite E1. cbn [bind]. auto.
  Qed.

  (* the threads when they are spawned *)
  Lemma xinit_ok k cancelled : results_ok p n r0 r0 (fun _ => 0) -> exists y, xinit n k cancelled r0 = Ret y /\ inv y [] (repeat [] k) [] [] /\
    length (xy_threads y) = k /\ xs_stopped (xy_shared y) = cancelled /\ fuel y = (3 * k + 4 * N.to_nat total)%nat.
  Proof.
    intros HR. unfold xinit. rewrite Hinit. cbn [bind]. eexists. split; [reflexivity|]. cbn [xy_shared xy_threads xs_stopped].
    set (t0 := {| x_phase := XTop; x_pos := 0; x_end := 0; x_stats := st0 |}).
    assert (Hr : rem t0 = []) by reflexivity.
    assert (Hc : forall k, concat (map rem (repeat t0 k)) = []) by (induction k0 as [|k0 IH]; [reflexivity|]; cbn [repeat map concat]; rewrite Hr, IH; reflexivity).
    assert (Hc' : forall k, concat (repeat (@nil N) k) = []) by (induction k0 as [|k0 IH]; [reflexivity|]; exact IH).
    split; [|split; [apply repeat_length|split; [reflexivity|]]].
    - constructor; cbn [xy_shared xy_threads xs_stopped xs_enum_pos xs_results xs_msgs].
      + clear Hc Hc'. induction k as [|k IH]; cbn [repeat]; constructor; [|exact IH]. split; [cbn; lia|]. cbn [t0 x_phase x_pos x_end x_stats]. split; [lia|exact good_init].
      + exact HR.
      + lia.
      + rewrite Hc, Hc', interval_upto. cbn [app]. rewrite app_nil_r. reflexivity.
      + reflexivity.
      + reflexivity.
      + constructor.
      + constructor.
      + intros _ t Hin Ho. apply repeat_spec in Hin. subst t. discriminate.
      + intros _ t Hin Ho. apply repeat_spec in Hin. subst t. discriminate.
    - unfold fuel. cbn [xy_shared xy_threads xs_enum_pos]. rewrite N.sub_0_r. f_equal. clear Hc Hc'.
      induction k as [|k IH]; [reflexivity|]. cbn [repeat map]. change (left t0 :: map left (repeat t0 k)) with ([left t0] ++ map left (repeat t0 k)).
      rewrite list_sum_app, IH. unfold left. rewrite Hr. cbn. lia.
  Qed.

  (* when all threads have finished *)
  Lemma all_done_lists Ls ts : Forall2 thread_ok Ls ts -> forallb xdone ts = true -> concat Ls = [] /\ concat (map rem ts) = [].
  Proof.
    induction 1 as [|L t Ls ts [_ H] _ IH]; intros Hd; [split; reflexivity|]. cbn [forallb] in Hd. apply andb_true_iff in Hd as [Hd Hds].
    destruct (IH Hds) as [E1 E2]. cbn [map concat]. rewrite E1, E2. unfold rem. unfold xdone in Hd. destruct (x_phase t); try discriminate.
    subst L. split; reflexivity.
  Qed.
  Lemma inv_done y LR Ls lost es : inv y LR Ls lost es -> forallb xdone (xy_threads y) = true ->
    (exists skipped, Permutation (LR ++ skipped) (upto total)) /\
    (xs_stopped (xy_shared y) = false -> (0 < length (xy_threads y))%nat -> Permutation LR (upto total) /\ xs_enum_pos (xy_shared y) = total /\ last es 0 = total).
  Proof.
    intros [I1 I2 I3 I4 I5 I6 I7 I8 I9 I10] Hd. destruct (all_done_lists _ _ I1 Hd) as [E1 E2]. rewrite E1, E2 in I4. cbn [app] in I4. split.
    - exists (interval (xs_enum_pos (xy_shared y)) total ++ lost). exact I4.
    - intros Hs Hk. destruct (xy_threads y) as [|t ts]; [cbn in Hk; lia|]. cbn [forallb] in Hd. apply andb_true_iff in Hd as [Hd _].
      assert (Het : xs_enum_pos (xy_shared y) = total).
      { apply (I9 Hs t (or_introl eq_refl)). unfold over. unfold xdone in Hd. destruct (x_phase t); try discriminate. reflexivity. }
      split; [|split; [exact Het|]].
      + rewrite Het, (I5 Hs), interval_empty, !app_nil_r in I4 by lia. exact I4.
      + pose proof (I10 Hs t (or_introl eq_refl) Hd) as Hin. rewrite Het in I8. clear - I7 I8 Hin.
        induction I7 as [|e es Hs IH He]; [contradiction|]. inversion I8 as [|? ? He2 Hes]; subst. destruct es as [|e' es].
        * destruct Hin as [->|[]]. reflexivity.
        * change (last (e :: e' :: es) 0) with (last (e' :: es) 0). destruct Hin as [->|Hin]; [|apply IH; assumption].
          apply IH; [exact Hes|]. inversion He as [|? ? H1 _]; subst. inversion Hes; subst. left. lia.
  Qed.
End Machine.
