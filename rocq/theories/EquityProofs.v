(* The equities of a run: what update_results has added up when get_equity is called. *)
From Coq Require Import Floats.SpecFloat.
From Verif Require Import Base BaseProofs SumFacts Ghost Float64 FloatProofs FloatSumProofs EquityFloatProofs Hand FastDivide Range Combined Sim Approx SpecPoker ListFacts
  SpecNames SpecHand SpecRange SpecEquity SpecResults SpecRun SpecApprox EnumProofs ShowdownProofs BoardProofs CombinedProofs PositionProofs MergeProofs
  MachineProofs SetupProofs WeightProofs FinalProofs ExactProofs ResultProofs RunProofs LaunchProofs WalkProofs ApproxProofs ApproxRunProofs ApproxResultProofs ConvergeProofs ConvergeRunProofs ConvergeResultProofs.
Local Open Scope N_scope.

#[local] Opaque NUM_HANDS.

(* ------------------------------------------------------------------------- *)
(** * What the merged batches add to the ties of player k *)

Definition tie_step (b : list N) (k : nat) (t : f64) (i : nat) : f64 :=
  if N.testbit (N.of_nat i) (N.of_nat k) && negb (count_ones (N.of_nat i) =? 1) then f_add t (f_of_N (nth i b 0 / count_ones (N.of_nat i))) else t.
Definition tie_total (n k : nat) (bs : list (list N)) : f64 := fold_left (fun t b => fold_left (tie_step b k) (seq 0 (2 ^ n)) t) bs f_zero.
(* the weight of the mask i in the merged batches *)
Definition msum (bs : list (list N)) (i : nat) : N := sumf (fun b => nth i b 0) bs.

Section Ties.
  Variable p : profile.
  Variable b : batch.
  Variable n : nat.
  Hypothesis Hids : forall j, (j < n)%nat -> get (b_player_ids b) j = Ret j.

  Lemma players_ties wi i wc k : forall js s s', NoDup js -> Forall (fun j => j < n)%nat js -> foldM (merge_player p b wi i wc) js s = Ret s' ->
    nth k (snd (fst (fst s'))) f_zero =
      if existsb (Nat.eqb k) js && N.testbit (N.of_nat i) (N.of_nat k) && negb (wc =? 1) then f_add (nth k (snd (fst (fst s))) f_zero) (f_of_N (wi / wc)) else nth k (snd (fst (fst s))) f_zero.
  Proof.
    induction js as [|j js IH]; intros s s' Hnd HF H; cbn [foldM] in H; [inversion H; reflexivity|]. inversion HF as [|? ? Hj HF']; subst. inversion Hnd as [|? ? Hni Hnd']; subst.
    binv H. apply IH in H; [|exact Hnd'|exact HF']. rewrite H. clear H IH. destruct s as [[[w t] e] a].
    assert (Hv : nth k (snd (fst (fst v))) f_zero = if (k =? j)%nat && N.testbit (N.of_nat i) (N.of_nat k) && negb (wc =? 1) then f_add (nth k t f_zero) (f_of_N (wi / wc)) else nth k t f_zero).
    { unfold merge_player in E. destruct (N.testbit (N.of_nat i) (N.of_nat j)) eqn:Eb.
      - rewrite (Hids j Hj) in E. cbn [bind] in E. binv E. destruct v0 as [[w' t'] e']. inversion E; subst v. cbn [fst snd]. destruct (wc =? 1); binv E0; inversion E0; subst.
        + rewrite andb_false_r. reflexivity.
        + apply updf_ret in E1 as (x & y & H1 & H2 & -> & Hlt). inversion H2; subst y. rewrite andb_true_r. rewrite nth_set_nth by exact Hlt.
          destruct (Nat.eqb_spec k j) as [->|]; [|reflexivity]. rewrite Eb. cbn [andb]. rewrite (nth_error_nth _ _ _ H1). reflexivity.
      - inversion E; subst v. cbn [fst snd]. destruct (Nat.eqb_spec k j) as [->|]; [|reflexivity]. rewrite Eb. reflexivity. }
    rewrite Hv. cbn [existsb fst snd]. destruct (Nat.eqb_spec k j) as [->|Hkj]; cbn [orb andb]; [|reflexivity].
    assert (Hx : existsb (Nat.eqb j) js = false).
    { apply not_true_is_false. intros Hx. apply existsb_exists in Hx as (z & Hz & Ez). apply Nat.eqb_eq in Ez. subst z. contradiction. }
    rewrite Hx. reflexivity.
  Qed.

  Lemma masks_ties k : (k < n)%nat -> forall l g g', foldM (merge_mask p n b) l g = Ret g' -> 
    nth k (g_ties g') f_zero = fold_left (tie_step (b_wins_by_mask b) k) l (nth k (g_ties g) f_zero).
  Proof.
    intros Hk. induction l as [|i l IH]; intros g g' H; cbn [foldM fold_left] in *; [congruence|]. binv H. rewrite (IH _ _ H). clear H IH. f_equal.
    unfold merge_mask in E. binv E. binv E. binv E. destruct v2 as [[[w t] e] a]. binv E. inversion E; subst v. cbn [g_ties].
    apply (players_ties _ _ _ k) in E2; [|apply seq_NoDup|apply Forall_forall; intros j Hj; apply in_seq in Hj; lia]. cbn [fst snd] in E2. rewrite E2.
    assert (Hx : existsb (Nat.eqb k) (seq 0 n) = true) by (apply existsb_exists; exists k; split; [apply in_seq; lia|apply Nat.eqb_refl]).
    rewrite Hx. cbn [andb]. unfold tie_step. apply get_ret in E0. rewrite (nth_error_nth _ _ 0 E0). reflexivity.
  Qed.
  Lemma add_bound x y z : add_ 64 p x y = Ret z -> z < 2 ^ 64.
  Proof.
    unfold add_. destruct (N.ltb_spec (x + y) (2 ^ 64)) as [H|H]; [intros E; inversion E; subst; exact H|]. unfold on_overflow. destruct p; [discriminate|]. intros E.
    assert (E1 : z = (x + y) mod 2 ^ 64) by congruence. rewrite E1. apply N.mod_lt. discriminate.
  Qed.
  Lemma masks_bounded : forall l g g', foldM (merge_mask p n b) l g = Ret g' -> Forall (fun x => x < 2 ^ 64) (g_wins_by_mask g) -> Forall (fun x => x < 2 ^ 64) (g_wins_by_mask g').
  Proof.
    induction l as [|i l IH]; intros g g' H HF; cbn [foldM] in *; [congruence|]. binv H. apply (IH _ _ H). clear H IH.
    unfold merge_mask in E. binv E. binv E. binv E. destruct v2 as [[[w t] e] a]. binv E. inversion E; subst v. cbn [g_wins_by_mask].
    apply updf_ret in E3 as (x & y & H1 & H2 & -> & _). apply add_bound in H2. apply Forall_forall. intros z Hz. apply In_nth_error in Hz as (c & Hc).
    rewrite nth_set_same in Hc. rewrite Forall_forall in HF. destruct (_ =? c)%nat; [|apply HF; eapply nth_error_In; exact Hc].
    destruct (nth_error _ c); [|discriminate]. inversion Hc; subst z. exact H2.
  Qed.
End Ties.

(* ------------------------------------------------------------------------- *)
(** * The results after the batches bs *)

Section Hist.
  Variable p : profile.
  Variable n : nat.
  Hypothesis Hn : (n <= 9)%nat.

  Record hist (bs : list (list N)) (r : results) : Prop := mkHist {
    h_ties : length (r_ties r) = n;
    h_wins : length (r_wins r) = n;
    h_wbm : length (r_wins_by_mask r) = (2 ^ n)%nat;
    h_small : Forall (fun x => x < 2 ^ 64) (r_wins_by_mask r);
    h_masks : forall i, (i < 2 ^ n)%nat -> agr p (nth i (r_wins_by_mask r) 0) (msum bs i);
    h_single : forall j, (j < n)%nat -> agr p (nth j (r_wins r) 0) (msum bs (2 ^ j));
    h_tie : forall j, (j < n)%nat -> nth j (r_ties r) f_zero = tie_total n j bs;
    h_batches : Forall (fun b => forall i, (i < 2 ^ n)%nat -> nth i b 0 < 2 ^ 64) bs }.

  Lemma hist_init hs : hist [] (with_hand_results (results_init n) hs).
  Proof.
    assert (H0 : forall (A : Type) (x : A) k i, nth i (repeat x k) x = x) by (intros A x k i; destruct (nth_in_or_default i (repeat x k) x) as [H|H]; [apply repeat_spec in H|]; exact H).
    constructor; cbn [with_hand_results results_init r_ties r_wins r_wins_by_mask]; try apply repeat_length.
    - apply Forall_forall. intros x Hx. apply repeat_spec in Hx. subst x. reflexivity.
    - intros i _. rewrite H0. apply agr_0.
    - intros i _. rewrite H0. apply agr_0.
    - intros i _. apply H0.
    - constructor.
  Qed.

  (* the batch of a thread *)
  Definition batch_ok (st : stats) : Prop :=
    (forall j, (j < n)%nat -> get (b_player_ids (s_batch st)) j = Ret j) /\ (2 ^ n <= length (b_wins_by_mask (s_batch st)))%nat /\
    (p = Release -> forall i, nth i (b_wins_by_mask (s_batch st)) 0 < 2 ^ 64).
  Lemma stats_batch_ok k ids st (V : obs -> N) : (forall j, (j < n)%nat -> get ids j = Ret j) -> shape k ids st -> (forall o, agr p (rd o st) (V o)) -> batch_ok st.
  Proof.
    intros Hids (S1 & S2 & S3) HV. split; [intros j Hj; rewrite S3; apply Hids; exact Hj|]. split; [rewrite S1; apply pow2_le9; exact Hn|].
    intros -> i. specialize (HV (OMask i)). cbn [rd agr] in HV. rewrite HV. apply N.mod_lt. discriminate.
  Qed.

  Lemma hist_step m ep stop r st fin r' stop' msg bs : m_n_players m = n -> batch_ok st -> update_results p m ep stop r st fin = Ret (r', stop', msg) ->
    hist bs r -> hist (bs ++ [b_wins_by_mask (s_batch st)]) r'.
  Proof.
    intros Hm (B1 & B2 & B3) H [H1 H2 H3 H4 H5 H6 H7 H8]. unfold update_results in H. binv H. binv H. binv H. rewrite Hm in E0.
    set (b := s_batch st) in *. set (W := fun i => nth i (b_wins_by_mask b) 0).
    assert (Hag : forall i, agr p (nth i (b_wins_by_mask b) 0) (W i)).
    { intros i. unfold W. destruct p; [reflexivity|]. apply agr_small. apply B3. reflexivity. }
    pose proof (merge_masks_ok p False n b Hn B1 (msum bs) W (r_wins r) (r_ties r) (r_wins_by_mask r) H2 H1 H3 H5 H6 B2 (fun i _ => Hag i)
      (fun f => match f with end) (fun f => match f with end)) as HM. rewrite E0 in HM. destruct HM as [(g & Eg & G1 & G2 & G3 & G4 & G5)|(_ & Eg & _)]; [|discriminate].
    inversion Eg; subst g. clear Eg. pose proof (masks_bounded p b n _ _ _ E0 H4) as HB. cbn [g_wins_by_mask] in HB.
    assert (HT : forall k, (k < n)%nat -> nth k (g_ties v0) f_zero = fold_left (tie_step (b_wins_by_mask b) k) (seq 0 (2 ^ n)) (nth k (r_ties r) f_zero)).
    { intros k Hk. exact (masks_ties p b n B1 k Hk _ _ _ E0). }
    assert (Hsum : forall i, msum (bs ++ [b_wins_by_mask b]) i = msum bs i + W i).
    { intros i. unfold msum. rewrite sumf_app, sumf_cons, sumf_nil, N.add_0_r. reflexivity. }
    assert (HR : r_wins r' = g_wins v0 /\ r_ties r' = g_ties v0 /\ r_wins_by_mask r' = g_wins_by_mask v0).
    { destruct (negb (m_calc_exact m)); [inversion H; auto|]. binv H. inversion H; auto. }
    destruct HR as (R1 & R2 & R3). constructor; rewrite ?R1, ?R2, ?R3; try assumption.
    - intros i Hi. rewrite Hsum. apply G4. exact Hi.
    - intros j Hj. rewrite Hsum. apply G5. exact Hj.
    - intros j Hj. rewrite (HT j Hj), (H7 j Hj). unfold tie_total. rewrite fold_left_app. reflexivity.
    - apply Forall_app. split; [exact H8|]. constructor; [|constructor]. intros i Hi. destruct p eqn:Ep; [|apply B3; reflexivity].
      specialize (G4 i Hi). cbn [agr] in G4. assert (Hx : nth i (g_wins_by_mask v0) 0 < 2 ^ 64) by (apply (proj1 (Forall_nth _ _) HB); lia). unfold W in G4. lia.
  Qed.

  Lemma finish_fields m flag r r' : finish p m flag r = Ret r' ->
    r_wins r' = r_wins r /\ r_ties r' = r_ties r /\ r_wins_by_mask r' = r_wins_by_mask r /\ r_equities r' = get_equity (r_wins r) (r_ties r).
  Proof. intros H. unfold finish in H. binv H. binv H. destruct v0. binv H. destruct v0. inversion H; auto. Qed.
  Lemma hist_finish m flag r r' bs : finish p m flag r = Ret r' -> hist bs r -> hist bs r' /\ r_equities r' = get_equity (r_wins r') (r_ties r').
  Proof.
    intros H [H1 H2 H3 H4 H5 H6 H7 H8]. destruct (finish_fields _ _ _ _ H) as (R1 & R2 & R3 & R4). split; [|rewrite R4, R1, R2; reflexivity].
    constructor; rewrite ?R1, ?R2, ?R3; assumption.
  Qed.
End Hist.

(* ------------------------------------------------------------------------- *)
(** * Exact runs *)

Lemma exact_hist p ranges board dead threads cancelled sched o : usable ranges -> exact_equity p ranges board dead threads cancelled sched = Ret (ROk o) ->
  exists bs, hist p (length ranges) bs (o_results o) /\ length bs = length (o_progress o) /\
    r_equities (o_results o) = get_equity (r_wins (o_results o)) (r_ties (o_results o)) /\ validate (length ranges) board dead = None.
Proof.
  intros Hu H. destruct (launched _ _ _ _ _ _ _ _ H) as (m & flag & dvs & y0 & y & r & HL & Hf & Hd & Hfin & ->). cbn [o_results o_progress].
  destruct (launch_started p ranges board dead threads cancelled m flag dvs y0 Hu HL) as (pss & crs & r0 & HS & Hv & Hsize & Hr & Ey0).
  destruct (run_n ranges board dead Hv Hsize) as [Hfn [Hn2 Hn9]]. pose proof (st_m5 _ _ _ _ _ _ _ _ _ _ HS) as Hm.
  destruct (threads_ok p ranges board dead Hr Hv Hsize pss crs m r0 flag dvs HS) as (E & _ & Hrun).
  assert (HI : forall sched y, foldM (xevent p m dvs) sched y0 = Ret y -> exists bs, hist p (length ranges) bs (xs_results (xy_shared y)) /\ length bs = length (xs_msgs (xy_shared y))).
  { clear Hf Hd Hfin H sched y. intros sched. induction sched as [|e sched IH] using rev_ind; intros y Hf.
    - cbn [foldM] in Hf. injection Hf as <-. unfold xinit in Ey0. binv Ey0. injection Ey0 as <-. cbn [xy_shared xs_results xs_msgs]. exists []. split; [|reflexivity].
      rewrite (st_r0 _ _ _ _ _ _ _ _ _ _ HS). change (@length (list combo) (filtered board dead ranges)) with (@length (list whand) (filtered board dead ranges)). rewrite Hfn. apply hist_init.
    - rewrite foldM_app in Hf. binv Hf. destruct (IH v E0) as (bs & HB & Hl). cbn [foldM] in Hf. binv Hf. injection Hf as <-.
      destruct (Hrun threads cancelled sched) as (y0' & Ey0' & _ & _ & _ & _ & Hst). rewrite Ey0 in Ey0'. injection Ey0' as <-. specialize (Hst v E0).
      destruct e as [tid|]; cbn [xevent] in E1; [|injection E1 as <-; exists bs; split; assumption].
      destruct (nth_error (xy_threads v) tid) as [t|] eqn:Et; [|injection E1 as <-; exists bs; split; assumption].
      apply bind_ret in E1 as ([sh' t'] & E2 & E1). injection E1 as <-. cbn [xy_shared].
      assert (Hok : xdone t = false -> batch_ok p (length ranges) (x_stats t)).
      { intros Hnd. destruct (Hst t (nth_error_In _ _ Et) Hnd) as (ids & L & Hids & Hsh & Hag). eapply stats_batch_ok; [exact Hn9|exact Hids|exact Hsh|exact Hag]. }
      unfold xdone in Hok. unfold xstep in E2. destruct (x_phase t) eqn:Ep.
      + destruct (_ <=? _); [|injection E2 as <- <-; exists bs; split; assumption]. apply bind_ret in E2 as (x1 & Ex1 & E2). destruct (_ =? _); [discriminate|]. apply bind_ret in E2 as (x2 & Ex2 & E2). apply bind_ret in E2 as ([x3 x4] & Ex3 & E2). injection E2 as <- <-. exists bs; split; assumption.
      + apply bind_ret in E2 as (x1 & Ex1 & E2). destruct (_ <=? _); [injection E2 as <- <-; exists bs; split; assumption|]. apply bind_ret in E2 as (x2 & Ex2 & E2). injection E2 as <- <-. exists bs; split; assumption.
      + apply bind_ret in E2 as ([[r1 stop1] msg1] & E3 & E2). apply bind_ret in E2 as (x2 & Ex2 & E2). injection E2 as <- <-. cbn [xs_results xs_msgs]. eexists. split; [eapply hist_step; [exact Hn9|exact Hm|apply Hok; reflexivity|exact E3|exact HB]|].
        rewrite !app_length, Hl. reflexivity.
      + destruct (xs_stopped _); [injection E2 as <- <-; exists bs; split; assumption|]. apply bind_ret in E2 as (x2 & Ex2 & E2). injection E2 as <- <-. exists bs; split; assumption.
      + apply bind_ret in E2 as ([[r1 stop1] msg1] & E3 & E2). injection E2 as <- <-. cbn [xs_results xs_msgs]. eexists. split; [eapply hist_step; [exact Hn9|exact Hm|apply Hok; reflexivity|exact E3|exact HB]|].
        rewrite !app_length, Hl. reflexivity.
      + injection E2 as <- <-. exists bs; split; assumption. }
  destruct (HI sched y Hf) as (bs & HB & Hl). exists bs. destruct (hist_finish p (length ranges) m flag _ _ bs Hfin HB) as [H1 H2]. auto.
Qed.

(* ------------------------------------------------------------------------- *)
(** * Approximate runs *)

Lemma approx_hist p ranges board dead threads target cancelled shuf rngs fuel sched o : Forall range_ok ranges -> permutes shuf ->
  approx_equity p ranges board dead threads target cancelled shuf rngs fuel sched = Ret (ROk o) ->
  exists bs, hist p (length ranges) bs (o_results o) /\ length bs = length (o_progress o) /\
    r_equities (o_results o) = get_equity (r_wins (o_results o)) (r_ties (o_results o)) /\ validate (length ranges) board dead = None.
Proof.
  intros Hr Hs H. destruct (launch_of _ _ _ _ _ _ _ _ _ _ _ _ H) as (m & flag & y0 & y & HL & Hf & Hd & Hfin & -> & _).
  pose proof (proj1 HL) as Hval. destruct (alaunched _ _ _ _ _ _ _ _ _ _ _ _ Hr Hs HL) as (pss & crs & r0 & HS & Ey0).
  destruct (arun_n ranges board dead Hval) as [Hfn [Hn2 Hn9]]. pose proof (as_m5 _ _ _ _ _ _ _ _ _ _ _ HS) as Hm.
  assert (HI : forall sched y, foldM (aevent p m fuel) sched y0 = Ret y -> exists bs, hist p (length ranges) bs (xs_results (ay_shared y)) /\ length bs = length (xs_msgs (ay_shared y))).
  { clear Hf Hd Hfin H sched y. intros sched. induction sched as [|e sched IH] using rev_ind; intros y Hf.
    - cbn [foldM] in Hf. injection Hf as <-. unfold ainit in Ey0. binv Ey0. injection Ey0 as <-. cbn [ay_shared xs_results xs_msgs]. exists []. split; [|reflexivity].
      destruct HS as [_ S1 S2 S3 S4 S5 S6 S7 S8 S9 S10 S11 S12 S13 S14 S15 S16 S17].
      match goal with H : r0 = with_hand_results _ _ |- _ => rewrite H end.
      change (@length (list combo) (filtered board dead ranges)) with (@length (list whand) (filtered board dead ranges)). rewrite Hfn. apply hist_init.
    - rewrite foldM_app in Hf. binv Hf. destruct (IH v E) as (bs & HB & Hl). cbn [foldM] in Hf. binv Hf. injection Hf as <-.
      destruct (athreads_ok p ranges board dead Hr Hval shuf target pss crs m r0 flag HS threads cancelled rngs fuel sched) as (y0' & Ey0' & Hrun).
      rewrite Ey0 in Ey0'. injection Ey0' as <-. destruct (runs_holds _ _ _ _ _ _ Hrun E) as (Hst & _).
      destruct e as [tid|]; cbn [aevent] in E0; [|injection E0 as <-; exists bs; split; assumption].
      destruct (nth_error (ay_threads v) tid) as [t|] eqn:Et; [|injection E0 as <-; exists bs; split; assumption].
      apply bind_ret in E0 as ([sh' t'] & E1 & E0). injection E0 as <-. cbn [ay_shared].
      assert (Hok : a_phase t <> ADone -> batch_ok p (length ranges) (a_stats t)).
      { intros Hnd. destruct (Hst tid t Et Hnd) as (ids & L & Hids & Hsh & Hag & _). eapply stats_batch_ok; [exact Hn9|exact Hids|exact Hsh|exact Hag]. }
      unfold astep in E1. destruct (a_phase t) eqn:Ep.
      + destruct (_ || _); [discriminate|]. apply bind_ret in E1 as ([[ok r1] w1] & Ex1 & E1). injection E1 as <- <-. exists bs; split; assumption.
      + apply bind_ret in E1 as ([r1 st1] & Ex1 & E1). injection E1 as <- <-. exists bs; split; assumption.
      + apply bind_ret in E1 as ([[r1 stop1] msg1] & E3 & E1). apply bind_ret in E1 as (x2 & Ex2 & E1). injection E1 as <- <-. cbn [xs_results xs_msgs]. eexists. split; [eapply hist_step; [exact Hn9|exact Hm|apply Hok; discriminate|exact E3|exact HB]|].
        rewrite !app_length, Hl. reflexivity.
      + destruct (xs_stopped _); [injection E1 as <- <-; exists bs; split; assumption|]. apply bind_ret in E1 as ([[ok r1] w1] & Ex1 & E1). injection E1 as <- <-. exists bs; split; assumption.
      + apply bind_ret in E1 as ([r1 w1] & Ex1 & E1). injection E1 as <- <-. exists bs; split; assumption.
      + apply bind_ret in E1 as ([[r1 stop1] msg1] & E3 & E1). injection E1 as <- <-. cbn [xs_results xs_msgs]. eexists. split; [eapply hist_step; [exact Hn9|exact Hm|apply Hok; discriminate|exact E3|exact HB]|].
        rewrite !app_length, Hl. reflexivity.
      + injection E1 as <- <-. exists bs; split; assumption. }
  destruct (HI sched y Hf) as (bs & HB & Hl). exists bs. destruct (hist_finish p (length ranges) m flag _ _ bs Hfin HB) as [H1 H2]. auto.
Qed.

(* ------------------------------------------------------------------------- *)
(** * Equities are numbers from 0 to 1, or all NaN *)

Lemma tie_total_ok n k bs : Forall (fun b => forall i, (i < 2 ^ n)%nat -> nth i b 0 < 2 ^ 64) bs -> tie_ok (tie_total n k bs).
Proof.
  intros HF. unfold tie_total. assert (H0 : tie_ok f_zero) by (eexists; apply upto_zero). revert H0. generalize f_zero.
  induction HF as [|b bs Hb _ IH]; intros t Ht; cbn [fold_left]; [exact Ht|]. apply IH. clear IH.
  assert (G : forall l t, (forall i, In i l -> nth i b 0 < 2 ^ 64) -> tie_ok t -> tie_ok (fold_left (tie_step b k) l t)).
  { induction l as [|i l IH]; intros t0 Hl H0; cbn [fold_left]; [exact H0|]. apply IH; [intros; apply Hl; right; assumption|].
    unfold tie_step. destruct (_ && _); [|exact H0]. destruct H0 as (v & Hv).
    destruct (of_N_upto (nth i b 0 / count_ones (N.of_nat i))) as (w & Hw & _).
    - eapply N.le_lt_trans; [|apply (Hl i); left; reflexivity]. destruct (N.eq_dec (count_ones (N.of_nat i)) 0) as [E|E]; [rewrite E; destruct (nth i b 0); cbn; lia|].
      apply N.div_le_upper_bound; [exact E|]. nia.
    - exact (add_small _ _ _ _ Hv Hw). }
  apply G; [|exact Ht]. intros i Hi. apply in_seq in Hi. apply Hb. lia.
Qed.
Lemma hist_range p n bs r : (n <= 9)%nat -> hist p n bs r -> 
  (Forall (fun w => w = 0) (r_wins r) /\ Forall (fun t => t = f_zero) (r_ties r) /\ Forall (fun e => f_is_nan e = true) (get_equity (r_wins r) (r_ties r))) \/ Forall within_one (get_equity (r_wins r) (r_ties r)).
Proof.
  intros Hn [H1 H2 H3 H4 H5 H6 H7 H8]. apply equities_ok; [congruence|lia| |].
  - apply Forall_nth. intros j d Hj. rewrite (nth_indep _ d 0 Hj). rewrite H2 in Hj.
    assert (Hp : (2 ^ j < 2 ^ n)%nat) by (apply Nat.pow_lt_mono_r; lia).
    rewrite (agr_fun p _ _ _ (H6 j Hj) (H5 _ Hp)). apply (proj1 (Forall_nth _ _) H4). lia.
  - apply Forall_nth. intros j d Hj. rewrite (nth_indep _ d f_zero Hj). rewrite H1 in Hj. rewrite (H7 j Hj). apply tie_total_ok. exact H8.
Qed.
