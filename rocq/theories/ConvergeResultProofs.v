(* Approximate runs of one thread: their length and what they report. *)
From Coq Require Import Floats.SpecFloat.
From Verif Require Import Base BaseProofs SumFacts Ghost Float64 FloatProofs FloatSumProofs Hand FastDivide Range Combined Sim Approx SpecPoker ListFacts PokerFacts
  HandProofs HandExprProofs SpecNames SpecHand SpecRange SpecEquity SpecResults SpecRun SpecApprox EnumProofs ShowdownProofs BoardProofs CombinedProofs PositionProofs MergeProofs
  MachineProofs SetupProofs WeightProofs FinalProofs ExactProofs ResultProofs WalkProofs ApproxProofs ApproxRunProofs ApproxResultProofs ConvergeProofs ConvergeRunProofs.
Local Open Scope N_scope.

#[local] Opaque NUM_HANDS.

Lemma launch_of p ranges board dead threads target cancelled shuf rngs fuel sched o :
  approx_equity p ranges board dead threads target cancelled shuf rngs fuel sched = Ret (ROk o) ->
  exists m flag y0 y, alaunch p ranges board dead threads target cancelled shuf rngs m flag y0 /\ foldM (aevent p m fuel) sched y0 = Ret y /\
    forallb adone (ay_threads y) = true /\ finish p m flag (xs_results (ay_shared y)) = Ret (o_results o) /\
    o_progress o = xs_msgs (ay_shared y) /\ o_token o = xs_stopped (ay_shared y).
Proof.
  intros H. pose proof (approx_valid _ _ _ _ _ _ _ _ _ _ _ _ H) as Hval. unfold approx_equity in H.
  change (@length (list combo) ranges) with (@length (list whand) ranges) in H. rewrite Hval in H. binv H. destruct v as [[hrs crs]|]; [|discriminate].
  binv H. binv H. destruct v0 as [r0 flag]. binv H. binv H. destruct (forallb adone (ay_threads v1)) eqn:Ed; [|discriminate]. binv H. inversion H; subst o.
  exists v, flag, v0, v1. cbn [o_results o_progress o_token]. split; [|auto]. split; [exact Hval|]. exists hrs, crs, r0. auto.
Qed.
Lemma of_launch p ranges board dead threads target cancelled shuf rngs fuel sched m flag y0 y r :
  alaunch p ranges board dead threads target cancelled shuf rngs m flag y0 -> foldM (aevent p m fuel) sched y0 = Ret y -> forallb adone (ay_threads y) = true ->
  finish p m flag (xs_results (ay_shared y)) = Ret r ->
  approx_equity p ranges board dead threads target cancelled shuf rngs fuel sched =
    Ret (ROk {| o_results := r; o_progress := xs_msgs (ay_shared y); o_token := xs_stopped (ay_shared y) |}).
Proof.
  intros (Hval & hrs & crs & r0 & E1 & E2 & E3 & E4) Hf Hd Hfin. unfold approx_equity. change (@length (list combo) ranges) with (@length (list whand) ranges).
  rewrite Hval, E1. cbn [bind]. rewrite E2. cbn [bind]. rewrite E3. cbn [bind]. rewrite E4. cbn [bind]. rewrite Hf. cbn [bind]. rewrite Hd, Hfin. reflexivity.
Qed.

Lemma one_thread p ranges board dead target cancelled shuf rngs fuel sched o : Forall range_ok ranges -> permutes shuf -> f_ltb f_2_14 target = true ->
  approx_equity p ranges board dead 1 target cancelled shuf rngs fuel sched = Ret (ROk o) ->
  p = Debug \/ N.of_nat (length sched) * heaviest ranges < 2 ^ 64 -> r_eval_count (o_results o) <= 4096.
Proof.
  intros Hr Hs Ht H Hfit. destruct (launch_of _ _ _ _ _ _ _ _ _ _ _ _ H) as (m & flag & y0 & y & HL & Hf & Hd & Hfin & _).
  destruct (one_run p ranges board dead target cancelled shuf rngs m flag y0 fuel Hr Hs HL Ht sched y Hf Hfit) as (sh & t & -> & Hok).
  rewrite (finish_counts _ _ _ _ _ Hfin). cbn [ay_shared ay_threads forallb] in *. unfold one_ok in Hok. unfold adone in Hd. destruct (a_phase t); try discriminate. exact Hok.
Qed.

(* ------------------------------------------------------------------------- *)
(** * A complete run of one thread *)

(* equity and hands of a batch with the wins W *)
Definition batch_share (n : nat) (W : nat -> N) : f64 * N :=
  fold_left (fun '(e, h) i => (if N.testbit (N.of_nat i) 0 then f_add e (f_of_N (if count_ones (N.of_nat i) =? 1 then W i else W i / count_ones (N.of_nat i))) else e, h + W i))
    (seq 0 (2 ^ n)) (f_zero, 0).
Definition batch_equity (n : nat) (W : nat -> N) : f64 := let (e, h) := batch_share n W in f_div e (f_add (f_of_N h) f_1e_9).

Section Share.
  Variable p : profile.
  Variable b : batch.
  Variable n : nat.
  Hypothesis Hn : (0 < n)%nat.
  Hypothesis Hids : forall j, (j < n)%nat -> get (b_player_ids b) j = Ret j.

  Lemma merge_exact wi i wc s s' : foldM (merge_player p b wi i wc) (seq 0 n) s = Ret s' ->
    snd (fst s') = if N.testbit (N.of_nat i) 0 then f_add (snd (fst s)) (f_of_N (if wc =? 1 then wi else wi / wc)) else snd (fst s).
  Proof.
    intros H. assert (Es : seq 0 n = 0%nat :: seq 1 (n - 1)).
    { destruct n as [|k]; [lia|]. replace (S k - 1)%nat with k by lia. reflexivity. }
    rewrite Es in H. cbn [foldM] in H. binv H. apply (merge_others p b n Hids) in H.
    2:{ apply Forall_forall. intros j Hj. apply in_seq in Hj. lia. }
    rewrite H. clear H. destruct s as [[[w t] e] a]. unfold merge_player in E. change (N.of_nat 0) with 0 in E. destruct (N.testbit (N.of_nat i) 0); [|inversion E; reflexivity].
    rewrite (Hids 0) in E by lia. cbn [bind Nat.eqb] in E. binv E. destruct v0 as [[w' t'] e'].
    destruct (wc =? 1); binv E0; inversion E0; subst; inversion E; reflexivity.
  Qed.

  Variable W : nat -> N.
  Hypothesis Hlen : (2 ^ n <= length (b_wins_by_mask b))%nat.
  Hypothesis HW : forall i, (i < 2 ^ n)%nat -> nth i (b_wins_by_mask b) 0 = W i.
  Hypothesis Hfit : sumf W (seq 0 (2 ^ n)) < 2 ^ 64.

  Lemma masks_share g g' : g_batch_hands g = 0 -> g_batch_equity g = f_zero -> foldM (merge_mask p n b) (seq 0 (2 ^ n)) g = Ret g' ->
    (g_batch_equity g', g_batch_hands g') = batch_share n W.
  Proof.
    intros Hh He H. unfold batch_share.
    assert (G : forall c a g g', (a + c = 2 ^ n)%nat -> g_batch_hands g = sumf W (seq 0 a) -> foldM (merge_mask p n b) (seq a c) g = Ret g' ->
      (g_batch_equity g', g_batch_hands g') =
      fold_left (fun '(e, h) i => (if N.testbit (N.of_nat i) 0 then f_add e (f_of_N (if count_ones (N.of_nat i) =? 1 then W i else W i / count_ones (N.of_nat i))) else e, h + W i))
        (seq a c) (g_batch_equity g, g_batch_hands g)).
    { induction c as [|c IH]; intros a h h' Ha Eh Hf; cbn [seq foldM fold_left] in Hf |- *; [congruence|].
      binv Hf. unfold merge_mask in E. rewrite (get_nth _ a 0) in E by lia. cbn [bind] in E. rewrite (HW a) in E by lia.
      assert (Hs : g_batch_hands h + W a < 2 ^ 64).
      { rewrite Eh. eapply N.le_lt_trans; [|exact Hfit]. replace (2 ^ n)%nat with (a + S (2 ^ n - S a))%nat by lia. rewrite seq_app, sumf_app. cbn [seq Nat.add]. rewrite sumf_cons. lia. }
      rewrite add_ok in E by exact Hs. cbn [bind] in E. binv E. destruct v0 as [[[w t] e] act]. binv E. inversion E; subst v. clear E.
      apply merge_exact in E0. cbn [fst snd] in E0.
      etransitivity; [eapply (IH (S a)); [lia| |exact Hf]|]; cbn [g_batch_equity g_batch_hands]; [|rewrite E0; reflexivity].
      rewrite seq_S, sumf_app. cbn [Nat.add]. rewrite sumf_cons, sumf_nil, N.add_0_r, Eh. reflexivity. }
    etransitivity; [apply (G (2 ^ n)%nat 0%nat g); [reflexivity|rewrite Hh; reflexivity|exact H]|]. rewrite Hh, He. reflexivity.
  Qed.
End Share.

Lemma update_sums p m ep stopped r st finished r' stop msg W :
  (0 < m_n_players m)%nat -> m_calc_exact m = false -> (forall j, (j < m_n_players m)%nat -> get (b_player_ids (s_batch st)) j = Ret j) ->
  (2 ^ m_n_players m <= length (b_wins_by_mask (s_batch st)))%nat ->
  (forall i, (i < 2 ^ m_n_players m)%nat -> nth i (b_wins_by_mask (s_batch st)) 0 = W i) -> sumf W (seq 0 (2 ^ m_n_players m)) < 2 ^ 64 ->
  update_results p m ep stopped r st finished = Ret (r', stop, msg) ->
  let e := batch_equity (m_n_players m) W in
  r_batch_sum r' = f_add (r_batch_sum r) e /\ r_batch_sum2 r' = f_add (r_batch_sum2 r) (f_mul e e) /\ r_batch_count r' = f_add (r_batch_count r) f_1 /\
  r_stdev r' = batch_stdev (r_batch_sum r') (r_batch_sum2 r') (r_batch_count r').
Proof.
  intros Hn Hex Hids Hlen HW Hfit H. unfold update_results in H. binv H. binv H. binv H. rewrite Hex in H. cbn [negb] in H.
  apply (masks_share p (s_batch st) (m_n_players m) Hn Hids W Hlen HW Hfit) in E0; [|reflexivity|reflexivity].
  inversion H; subst. cbn [r_stdev r_batch_sum r_batch_sum2 r_batch_count]. unfold batch_equity. rewrite <- E0. auto.
Qed.

Section Full.
  Variables (p : profile) (ranges : list (list whand)) (board dead : N) (target : f64) (cancelled : bool)
    (shuf : nat -> list ccombo -> list ccombo) (rngs : nat -> N -> N) (m : simulator) (flag : N) (y0 : asys) (fuel : nat).
  Hypothesis Hr : Forall range_ok ranges.
  Hypothesis Hs : permutes shuf.
  Hypothesis HL : alaunch p ranges board dead 1 target cancelled shuf rngs m flag y0.
  Hypothesis Ht : f_ltb f_2_14 target = true.
  Hypothesis Hfull : length (mask_cards board) = 5%nat.
  Hypothesis Hdeal : exists r w, randomize_hole_cards p m {| draws := rngs 0%nat; drawn := 0 |} walk_init = Ret (true, r, w).
  Hypothesis Hfit : 8195 * heaviest ranges < 2 ^ 64.

  (* the counts of the only batch; the other merged batch is empty *)
  Definition batch_of (W : nat -> N) (r : results) : Prop :=
    let e := batch_equity (length ranges) W in let e0 := batch_equity (length ranges) (fun _ => 0) in
    r_stdev r = batch_stdev (f_add (f_add f_zero e) e0) (f_add (f_add f_zero (f_mul e e)) (f_mul e0 e0)) (f_add (f_add f_zero f_1) f_1).

  Lemma full_result : exists o L s msg, approx_equity p ranges board dead 1 target cancelled shuf rngs fuel (repeat (Run 0) (4096 + 4096 + 3)) = Ret (ROk o) /\
    o_token o = true /\ r_eval_count (o_results o) = 4096 /\ tiny s /\ o_progress o = [approx_progress s target; msg] /\
    Forall (good_sample (filtered board dead ranges) board dead) L /\ N.of_nat (length L) = 4096 /\
    batch_of (fun i => sumf (fun s => item_gain p s (OMask i)) L) (o_results o).
  Proof.
    destruct (launch_facts p ranges board dead 1 target cancelled shuf rngs m flag y0 Hr Hs HL) as (Fn & Fex & Ftg & Fun & _ & _ & _ & st0 & Hinit & Hst0 & _).
    pose proof (proj1 HL) as Hval. destruct (alaunched _ _ _ _ _ _ _ _ _ _ _ _ Hr Hs HL) as (pss & crs & r0 & HS & Ey0).
    destruct (arun_n ranges board dead Hval) as [Hfn [Hn2 Hn9]]. pose proof (as_m5 _ _ _ _ _ _ _ _ _ _ _ HS) as S5.
    set (K := (4096 + 4096)%nat). assert (HK : N.of_nat K = 8192) by reflexivity.
    assert (HfitK : forall k, (k <= K + 3)%nat -> N.of_nat k * heaviest ranges < 2 ^ 64).
    { intros k Hk. eapply N.le_lt_trans; [|exact Hfit]. apply N.mul_le_mono_r. lia. }
    rewrite repeat_app. clearbody K.
    destruct (full_place p ranges board dead target cancelled shuf rngs m flag y0 fuel Hr Hs HL Ht Hfull Hdeal Hfit K) as (sh & t & E & Hok & Hpl & _); [lia|].
    assert (Hph : a_phase t = AFlush /\ xs_msgs sh = [] /\ r_eval_count (xs_results sh) = 0 /\ b_eval_count (s_batch (a_stats t)) = 4096).
    { unfold one_ok in Hok. unfold place in Hpl. destruct (a_phase t); try lia; intuition lia. }
    destruct Hph as (Hph & Hmsg & Hre & Hbe).
    destruct (full_runs p ranges board dead target cancelled shuf rngs m flag y0 fuel Hr Hs HL Hfull Hfit (repeat (Run 0) K ++ repeat (Run 0) 3)) as (y3 & Ey3).
    { rewrite app_length, !repeat_length. lia. }
    assert (Hend := Ey3). rewrite foldM_app, E in Ey3. cbn [bind repeat foldM] in Ey3.
    binv Ey3. cbn [aevent ay_shared ay_threads nth_error] in E0. binv E0. destruct v0 as [sh1 t1]. cbn [set_nth] in E0. inversion E0; subst v. clear E0.
    assert (HfitL : p = Debug \/ N.of_nat (length (repeat (Run 0) K)) * heaviest ranges < 2 ^ 64) by (right; rewrite repeat_length; apply HfitK; lia).
    destruct (first_merge p ranges board dead 1 target cancelled shuf rngs m flag y0 fuel Hr Hs HL _ _ 0%nat t sh1 t1 E Hmsg HfitL eq_refl (or_introl Hph) E1) as (U1 & U2 & U3).
    cbn [ay_shared] in U3. rewrite Hph, (tiny_ltb _ _ U1 Ht) in U3. cbn [orb] in U3.
    (* the counts of the batch *)
    destruct (athreads_ok p ranges board dead Hr Hval shuf target pss crs m r0 flag HS 1 cancelled rngs fuel (repeat (Run 0) K)) as (y0' & Ey0' & Hrun).
    rewrite Ey0 in Ey0'. inversion Ey0'; subst y0'. destruct (runs_holds _ _ _ _ _ _ Hrun E) as (Hst & _). cbn [ay_threads] in Hst.
    destruct (Hst 0%nat t eq_refl) as (ids & L & Hids & (Sh1 & Sh2 & Sh3) & Hag & HG & HLen); [rewrite Hph; discriminate|]. clear Hst Hrun Ey0'.
    assert (Hlt : forall o, sumf (fun s => item_gain p s o) L < 2 ^ 64).
    { intros o. eapply N.le_lt_trans; [|apply (HfitK (length L)); rewrite repeat_length in HLen; lia]. apply sum_bounded.
      eapply Forall_impl; [|exact HG]. intros s Hgs. eapply N.le_trans; [apply item_gain_le|eapply good_heavy; exact Hgs]. }
    assert (HW : forall o, rd o (a_stats t) = sumf (fun s => item_gain p s o) L) by (intros o; apply (agr_exact p); [apply Hag|apply Hlt]).
    assert (HL4 : N.of_nat (length L) = 4096) by (rewrite <- Hbe, <- (item_count p L); symmetry; exact (HW OCount)).
    set (W := fun i => sumf (fun s => item_gain p s (OMask i)) L) in *.
    assert (HWs : sumf W (seq 0 (2 ^ m_n_players m)) < 2 ^ 64).
    { unfold W. rewrite sumf_swap. eapply N.le_lt_trans; [|apply (HfitK (length L)); rewrite repeat_length in HLen; lia]. apply sum_bounded.
      eapply Forall_impl; [|exact HG]. intros s Hgs. eapply N.le_trans; [apply item_gain_masks|eapply good_heavy; exact Hgs]. }
    (* AFlush *)
    unfold astep in E1. rewrite Hph in E1. binv E1. destruct v as [[r1 stop1] msg1]. rewrite Hinit in E1. cbn [bind] in E1. inversion E1; subst sh1 t1. clear E1.
    cbn [xs_results xs_msgs xs_stopped] in *. subst stop1. rewrite U2 in *.
    pose proof (run_unmerged p m fuel _ y0 _ (fun _ => Fun) E Hmsg) as (N1 & N2 & N3). cbn [ay_shared] in N1, N2, N3.
    pose proof (merge_counts _ _ _ _ _ _ _ _ _ _ E0) as Ec. rewrite add_ok in Ec by lia. injection Ec as Ec.
    apply (update_sums p m _ _ _ _ _ _ _ _ W) in E0; try assumption; [|lia|intros j Hj; rewrite Sh3; apply Hids; lia|rewrite Sh1; apply (pow2_le9 _ Fn)|intros i _; exact (HW (OMask i))].
    destruct E0 as (A1 & A2 & A3 & _). rewrite N1, N2, N3 in *.
    (* ACheck *)
    cbn [aevent ay_shared ay_threads nth_error] in Ey3. binv Ey3. binv E0. destruct v0 as [sh2 t2]. cbn [set_nth] in E0. inversion E0; subst v. clear E0.
    unfold astep in E1. cbn [a_phase xs_stopped] in E1. inversion E1; subst sh2 t2. clear E1.
    (* AFinal *)
    cbn [aevent ay_shared ay_threads nth_error] in Ey3. binv Ey3. binv E0. destruct v0 as [sh2 t2]. cbn [set_nth] in E0. inversion E0; subst v. clear E0.
    inversion Ey3; subst y3. clear Ey3.
    unfold astep in E1. cbn [a_phase xs_enum_pos xs_stopped xs_results xs_msgs a_stats] in E1. binv E1. destruct v as [[r2 stop2] msg2]. inversion E1; subst sh2 t2. clear E1.
    assert (Hstop : stop2 = true).
    { unfold update_results in E0. binv E0. binv E0. binv E0. rewrite Fex in E0. cbn [negb andb] in E0. inversion E0. reflexivity. }
    pose proof (merge_counts _ _ _ _ _ _ _ _ _ _ E0) as Ec2. rewrite Hst0, add_ok in Ec2 by lia. injection Ec2 as Ec2.
    destruct (stats_init_ok (m_n_players m) Fn) as (ids0 & st0' & Hinit' & (Q1 & _ & Q3) & Hids0 & Hzero). assert (st0' = st0) by congruence. subst st0'.
    apply (update_sums p m _ _ _ _ _ _ _ _ (fun _ => 0)) in E0; try assumption.
    2:lia.
    2:{ intros j Hj. rewrite Q3. apply Hids0. exact Hj. }
    2:{ rewrite Q1. apply (pow2_le9 _ Fn). }
    2:{ intros i _. exact (Hzero (OMask i)). }
    2:{ rewrite sumf_const, N.mul_0_l. reflexivity. }
    destruct E0 as (D1 & D2 & D3 & D4).
    (* finish *)
    destruct (athreads_ok p ranges board dead Hr Hval shuf target pss crs m r0 flag HS 1 cancelled rngs fuel (repeat (Run 0) K ++ repeat (Run 0) 3)) as (y0' & Ey0' & Hrun).
    rewrite Ey0 in Ey0'. inversion Ey0'; subst y0'. destruct (runs_holds _ _ _ _ _ _ Hrun Hend) as (_ & _ & Hdone).
    destruct (Hdone eq_refl) as (E' & HE' & _ & HR'). destruct (afinish_ok p ranges board dead Hr Hval shuf target pss crs m r0 flag HS E' _ HE' HR') as (rf & Efin & _).
    pose proof (of_launch _ _ _ _ _ _ _ _ _ _ _ _ _ _ _ _ HL Hend eq_refl Efin) as Hres.
    eexists. exists L, (r_stdev r1), msg2. split; [exact Hres|]. cbn [o_token o_results o_progress ay_shared xs_stopped xs_msgs app].
    split; [exact Hstop|]. split; [rewrite (finish_counts _ _ _ _ _ Efin); cbn [ay_shared xs_results]; lia|]. split; [exact U1|]. split; [reflexivity|]. split; [exact HG|]. split; [exact HL4|].
    unfold batch_of. rewrite <- S5. cbn [ay_shared xs_results] in Efin.
    assert (Esd : r_stdev rf = r_stdev r2) by (clear - Efin; unfold finish in Efin; binv Efin; binv Efin; destruct v0; binv Efin; destruct v0; inversion Efin; reflexivity).
    rewrite Esd, D4, D1, D2, D3, A1, A2, A3. reflexivity.
  Qed.
End Full.

(* ------------------------------------------------------------------------- *)
(** * A run *)

(* the first deal of the first thread succeeds *)
Definition first_deal (p : profile) (ranges : list (list whand)) (board dead : N) (target : f64) (shuf : nat -> list ccombo -> list ccombo) (rngs : nat -> N -> N) : outcome bool :=
  c <- combine_ranges p ranges board dead ;;
  match c with
  | ROk (hrs, crs) =>
      m <- sim_new p hrs (shuffle_ranges shuf crs) board dead false target ;;
      '(ok, _, _) <- randomize_hole_cards p m {| draws := rngs 0%nat; drawn := 0 |} walk_init ;; Ret (ok : bool)
  | RErr _ => Ret false
  end.

Lemma dealt_launch p ranges board dead target cancelled shuf rngs : Forall range_ok ranges -> permutes shuf -> validate (length ranges) board dead = None ->
  first_deal p ranges board dead target shuf rngs = Ret true ->
  exists m flag y0, alaunch p ranges board dead 1 target cancelled shuf rngs m flag y0 /\
    exists r w, randomize_hole_cards p m {| draws := rngs 0%nat; drawn := 0 |} walk_init = Ret (true, r, w).
Proof.
  intros Hr Hs Hval Hd. unfold first_deal in Hd.
  destruct (astart p ranges board dead Hr Hval shuf target Hs) as [[E _]|(pss & crs & m & r0 & flag & HS)]; [rewrite E in Hd; discriminate|].
  destruct (as_launch _ _ _ _ _ _ _ _ _ _ _ HS) as (crs0 & Ec & Ecrs). pose proof (as_new _ _ _ _ _ _ _ _ _ _ _ HS) as Em.
  rewrite Ec in Hd. cbn [bind] in Hd. rewrite <- Ecrs, Em in Hd. cbn [bind] in Hd. binv Hd. destruct v as [[ok r] w]. inversion Hd; subst ok.
  destruct (athreads_ok p ranges board dead Hr Hval shuf target pss crs m r0 flag HS 1 cancelled rngs 0 []) as (y0 & Ey0 & _).
  exists m, flag, y0. split; [|exists r, w; exact E].
  split; [exact Hval|]. exists (filtered board dead ranges), crs0, r0. split; [exact Ec|]. split; [rewrite <- Ecrs; exact Em|]. split; [apply HS|exact Ey0].
Qed.

(* The run of one thread with a complete board. *)
Lemma full_run p ranges board dead target cancelled shuf rngs fuel : Forall range_ok ranges -> permutes shuf -> validate (length ranges) board dead = None ->
  first_deal p ranges board dead target shuf rngs = Ret true -> f_ltb f_2_14 target = true -> length (mask_cards board) = 5%nat -> 8195 * heaviest ranges < 2 ^ 64 ->
  exists o L s msg, approx_equity p ranges board dead 1 target cancelled shuf rngs fuel (repeat (Run 0) (4096 + 4096 + 3)) = Ret (ROk o) /\
    o_token o = true /\ r_eval_count (o_results o) = 4096 /\ tiny s /\ o_progress o = [approx_progress s target; msg] /\
    Forall (good_sample (filtered board dead ranges) board dead) L /\ N.of_nat (length L) = 4096 /\
    batch_of ranges (fun i => sumf (fun s => item_gain p s (OMask i)) L) (o_results o).
Proof.
  intros Hr Hs Hval Hd Ht Hb Hfit. destruct (dealt_launch p ranges board dead target cancelled shuf rngs Hr Hs Hval Hd) as (m & flag & y0 & HL & Hdeal).
  exact (full_result p ranges board dead target cancelled shuf rngs m flag y0 fuel Hr Hs HL Ht Hb Hdeal Hfit).
Qed.

Lemma first_flush p ranges board dead threads target cancelled shuf rngs m flag y0 fuel sched y tid t y' : Forall range_ok ranges -> permutes shuf ->
  alaunch p ranges board dead threads target cancelled shuf rngs m flag y0 -> foldM (aevent p m fuel) sched y0 = Ret y -> xs_msgs (ay_shared y) = [] ->
  nth_error (ay_threads y) tid = Some t -> a_phase t = AFlush -> aevent p m fuel y (Run tid) = Ret y' ->
  p = Debug \/ N.of_nat (length sched) * heaviest ranges < 2 ^ 64 ->
  (f_ltb f_2_14 target = true -> xs_stopped (ay_shared y') = true) /\ (usual_target target -> xs_stopped (ay_shared y') = true /\ xs_msgs (ay_shared y') = [255]).
Proof.
  intros Hr Hs HL Hf Hmsg Ht Hph He Hfit. cbn [aevent] in He. rewrite Ht in He. binv He. destruct v as [sh' t']. inversion He; subst y'. cbn [ay_shared].
  destruct (first_merge p ranges board dead threads target cancelled shuf rngs m flag y0 fuel Hr Hs HL sched y tid t sh' t' Hf Hmsg Hfit Ht (or_introl Hph) E) as (U1 & U2 & U3).
  rewrite Hph in U3. assert (H1 : f_ltb f_2_14 target = true -> xs_stopped sh' = true) by (intros Hlt; rewrite U3, (tiny_ltb _ _ U1 Hlt); reflexivity).
  split; [exact H1|]. intros Hu. split; [apply H1, usual_ltb; exact Hu|]. rewrite U2, (tiny_progress _ _ U1 Hu). reflexivity.
Qed.

(* ------------------------------------------------------------------------- *)
(** * The witness: aces against kings on a complete board *)

Definition wit_ranges : list (list whand) := [[(51, 50, 1)]; [(47, 46, 1)]].
Definition wit_board : N := 2 ^ 1 + 2 ^ 20 + 2 ^ 30 + 2 ^ 11 + 2 ^ 37.
Definition wit_target : f64 := f_div (f_of_N 1) (f_of_N 100).
Definition wit_rngs (i : nat) (k : N) : N := 0.
Definition wit_shuffle (i : nat) (l : list ccombo) : list ccombo := l.
Definition wit_schedule : list event := repeat (Run 0) (4096 + 4096 + 3).

Lemma wit_ok : Forall range_ok wit_ranges.
Proof. repeat constructor; cbn; lia || discriminate. Qed.
Lemma wit_permutes : permutes wit_shuffle.
Proof. intros i l. apply Permutation.Permutation_refl. Qed.

Definition wit_deal : list whand := [(51, 50, 1); (47, 46, 1)].
Definition wit_wins (i : nat) : N := 4096 * item_gain Debug (wit_deal, mask_cards wit_board) (OMask i).
Lemma wit_gain L : Forall (good_sample (filtered wit_board 0 wit_ranges) wit_board 0) L -> N.of_nat (length L) = 4096 -> forall i,
  sumf (fun s => item_gain Debug s (OMask i)) L = wit_wins i.
Proof.
  intros HG Hl i. unfold wit_wins. rewrite <- Hl, N.mul_comm, <- sumf_const. apply sumf_ext. intros s Hs. f_equal. rewrite Forall_forall in HG.
  destruct (HG s Hs) as (Hd & cs & E & H5 & _). assert (Ed : deals (filtered wit_board 0 wit_ranges) wit_board 0 = [wit_deal]) by (vm_compute; reflexivity).
  rewrite Ed in Hd. destruct Hd as [Hd|[]]. rewrite E, app_length in H5. assert (E5 : length (mask_cards wit_board) = 5%nat) by (vm_compute; reflexivity).
  destruct cs as [|c cs]; [|cbn [length] in H5; lia]. rewrite app_nil_r in E. destruct s as [d l]. cbn [fst snd] in *. congruence.
Qed.
Lemma share_ext n W W' : (forall i, W i = W' i) -> batch_equity n W = batch_equity n W'.
Proof.
  intros H. unfold batch_equity, batch_share. generalize (f_zero, 0). generalize (seq 0 (2 ^ n)). intros l. induction l as [|i l IH]; intros [e h]; [reflexivity|]. cbn [fold_left]. rewrite (H i). apply IH.
Qed.

Lemma witness : exists o msg, approx_equity Debug wit_ranges wit_board 0 1 wit_target false wit_shuffle wit_rngs 0 wit_schedule = Ret (ROk o) /\
  o_token o = true /\ r_eval_count (o_results o) = 4096 /\ o_progress o = [255; msg] /\ f_ltb wit_target (r_stdev (o_results o)) = true.
Proof.
  destruct (full_run Debug wit_ranges wit_board 0 wit_target false wit_shuffle wit_rngs 0 wit_ok wit_permutes) as (o & L & s & msg & E & H1 & H2 & H3 & H4 & HG & Hl & HB);
    try (vm_compute; reflexivity).
  exists o, msg. split; [exact E|]. split; [exact H1|]. split; [exact H2|]. split.
  - rewrite H4, (tiny_progress _ _ H3); [reflexivity|]. exists 5764607523034235%positive, (-59)%Z. split; [vm_compute; reflexivity|]. lia.
  - unfold batch_of in HB. cbv zeta in HB. rewrite (share_ext _ _ wit_wins (wit_gain L HG Hl)) in HB. rewrite HB. vm_compute. reflexivity.
Qed.

Lemma full_flush p ranges board dead target cancelled shuf rngs fuel : Forall range_ok ranges -> permutes shuf -> validate (length ranges) board dead = None ->
  first_deal p ranges board dead target shuf rngs = Ret true -> f_ltb f_2_14 target = true -> length (mask_cards board) = 5%nat -> 8195 * heaviest ranges < 2 ^ 64 ->
  exists m flag y0 y t, alaunch p ranges board dead 1 target cancelled shuf rngs m flag y0 /\
    foldM (aevent p m fuel) (repeat (Run 0) (4096 + 4096)) y0 = Ret y /\ xs_msgs (ay_shared y) = [] /\ nth_error (ay_threads y) 0 = Some t /\ a_phase t = AFlush.
Proof.
  intros Hr Hs Hval Hd Ht Hb Hfit. destruct (dealt_launch p ranges board dead target cancelled shuf rngs Hr Hs Hval Hd) as (m & flag & y0 & HL & Hdeal).
  remember (4096 + 4096)%nat as k eqn:Ek. assert (HK : N.of_nat k = 8192) by (subst k; reflexivity). clear Ek.
  destruct (full_place p ranges board dead target cancelled shuf rngs m flag y0 fuel Hr Hs HL Ht Hb Hdeal Hfit k ltac:(lia)) as (sh & t & E & Hok & Hpl & _).
  exists m, flag, y0, {| ay_shared := sh; ay_threads := [t] |}, t. split; [exact HL|]. split; [exact E|]. cbn [ay_shared ay_threads nth_error].
  rewrite HK in Hpl. unfold one_ok in Hok. unfold place in Hpl. destruct (a_phase t); try lia; intuition lia.
Qed.
