(* The worker threads of exact_equity: which positions they process, and that they end. *)
From Verif Require Import Base BaseProofs SumFacts Ghost Float64 Hand Range FastDivide Combined Sim SpecPoker SpecNames SpecHand SpecRange SpecEquity SpecResults SpecRun
  EnumProofs ShowdownProofs BoardProofs CombinedProofs PositionProofs MergeProofs MachineProofs SetupProofs WeightProofs FinalProofs ExactProofs ResultProofs
  CombineRunProofs DealProofs TraceProofs RunProofs.
From Coq Require Import Permutation Sorted.
Local Open Scope N_scope.
#[local] Opaque NUM_HANDS.

Lemma launched p ranges board dead threads cancelled sched o : exact_equity p ranges board dead threads cancelled sched = Ret (ROk o) ->
  exists m flag dvs y0 y r, launch p ranges board dead threads cancelled m flag dvs y0 /\ foldM (xevent p m dvs) sched y0 = Ret y /\
    forallb xdone (xy_threads y) = true /\ finish p m flag (xs_results (xy_shared y)) = Ret r /\
    o = {| o_results := r; o_progress := xs_msgs (xy_shared y); o_token := xs_stopped (xy_shared y) |}.
Proof.
  unfold exact_equity. intros H. destruct (validate (length ranges) board dead) eqn:Hv; [discriminate|].
  apply bind_ret in H as (c & Ec & H). destruct c as [[hrs crs]|]; [|discriminate].
  apply bind_ret in H as (m & Em & H). apply bind_ret in H as ((r0 & flag) & Ep & H). apply bind_ret in H as (dvs & Ed & H).
  apply bind_ret in H as (y0 & Ey0 & H). apply bind_ret in H as (y & Ey & H). destruct (forallb xdone (xy_threads y)) eqn:Hd; [|discriminate].
  apply bind_ret in H as (r & Er & H). injection H as <-. exists m, flag, dvs, y0, y, r. split; [|auto]. split; [exact Hv|]. exists hrs, crs, r0. auto.
Qed.

Section Launch.
  Variables (p : profile) (ranges : list (list whand)) (board dead : N) (threads : nat) (cancelled : bool).
  Variables (m : simulator) (flag : N) (dvs : list divider) (y0 : xsys).
  Hypothesis Hu : usable ranges.
  Hypothesis HL : launch p ranges board dead threads cancelled m flag dvs y0.

  Lemma launch_started : exists pss crs r0, started p ranges board dead pss crs m r0 flag dvs /\ validate (length ranges) board dead = None /\
    prod_of (fun r => N.of_nat (length r)) ranges < 2 ^ 63 /\ Forall range_ok ranges /\ xinit (m_n_players m) threads cancelled r0 = Ret y0.
  Proof.
    destruct Hu as [Hr Hsize]. destruct HL as (Hv & hrs & crs & r0 & Ec & Em & Ep & Ed & Ey).
    destruct (start p ranges board dead Hr Hv Hsize) as [(E & _)|(pss & crs' & m' & r0' & flag' & dvs' & HS)]; [rewrite Ec in E; discriminate|].
    pose proof (st_combined _ _ _ _ _ _ _ _ _ _ HS) as E1. rewrite Ec in E1. injection E1 as -> ->.
    pose proof (st_new _ _ _ _ _ _ _ _ _ _ HS) as E2. rewrite Em in E2. injection E2 as ->.
    pose proof (st_prepare _ _ _ _ _ _ _ _ _ _ HS) as E3. rewrite Ep in E3. injection E3 as -> ->.
    pose proof (st_dvs _ _ _ _ _ _ _ _ _ _ HS) as E4. rewrite Ed in E4. injection E4 as ->.
    exists pss, crs', r0'. auto 6.
  Qed.

  Definition all_positions : N := prod_of cr_size (m_combined m).

  Lemma launch_positions : 0 < all_positions <= prod_of (fun r => N.of_nat (length r)) ranges.
  Proof.
    destruct launch_started as (pss & crs & r0 & HS & Hv & Hsize & Hr & Ey). pose proof (st_perm p ranges board dead pss crs m r0 flag dvs HS) as HP.
    unfold all_positions. rewrite (st_m1 _ _ _ _ _ _ _ _ _ _ HS). rewrite (sizes_prod (filtered board dead ranges) pss); [|apply (members_range ranges board dead pss crs); apply HS].
    destruct (run_n ranges board dead Hv Hsize) as [Hfn _].
    split; [apply positions_pos; apply HS|]. eapply N.le_trans; [apply positions_prod; exact HP|apply filtered_prod].
  Qed.

  Lemma launch_once sched y : foldM (xevent p m dvs) sched y0 = Ret y -> forallb xdone (xy_threads y) = true ->
    (exists skipped, Permutation (processed p m dvs sched y0 ++ skipped) (nseq 0 (N.to_nat all_positions))) /\
    (cancelled = false -> ~ In Cancel sched -> (0 < threads)%nat -> Permutation (processed p m dvs sched y0) (nseq 0 (N.to_nat all_positions))).
  Proof.
    intros Er Hd. destruct launch_started as (pss & crs & r0 & HS & Hv & Hsize & Hr & Ey). pose proof (st_perm p ranges board dead pss crs m r0 flag dvs HS) as HP.
    assert (HM : Forall2 (range_is (filtered board dead ranges)) pss crs) by (apply (members_range ranges board dead pss crs); apply HS).
    assert (HA : all_positions = positions (filtered board dead ranges) pss) by (unfold all_positions; rewrite (st_m1 _ _ _ _ _ _ _ _ _ _ HS); apply sizes_prod; exact HM).
    pose proof (st_total _ _ _ _ _ _ _ _ _ _ HS) as Ht63.
    assert (Hpre : get_preflop_combo_count p m = Ret all_positions).
    { rewrite HA. apply (preflop_ok p (filtered board dead ranges) pss m); [rewrite (st_m1 _ _ _ _ _ _ _ _ _ _ HS); exact HM|apply HS|].
      eapply N.lt_trans; [exact Ht63|]. reflexivity. }
    destruct (proj1 (validate_none _ _ _) Hv) as (_ & _ & Hdeadb).
    destruct (postflop_ok p m board dead (length ranges)) as (post & Hpost & Hpost0); try (apply HS); [eapply run_board; eassumption|exact Hdeadb|].
    destruct (positions_once p m dvs all_positions post) with (n := m_n_players m) (threads := threads) (cancelled := cancelled) (r0 := r0) (sched := sched) (y0 := y0) (y := y) as [H1 H2];
      try assumption; [apply HS|rewrite HA; revert Ht63; clear; change (2 ^ 63) with 9223372036854775808; change (2 ^ 64) with 18446744073709551616; lia|].
    split; [exact H1|]. intros Hc Hn Ht. apply H2; [exact Hc|apply not_cancelled; exact Hn|exact Ht].
  Qed.

  Lemma launch_ends sched :
    ((exists y, foldM (xevent p m dvs) sched y0 = Ret y) \/ p = Debug /\ foldM (xevent p m dvs) sched y0 = Fail Overflow /\ ~ weights_fit ranges board) /\
    forall y, foldM (xevent p m dvs) sched y0 = Ret y -> length (xy_threads y) = threads /\
      forall tid t, nth_error (xy_threads y) tid = Some t -> (3 * threads + 4 * N.to_nat all_positions < how_many (is_run tid) sched)%nat -> xdone t = true.
  Proof.
    destruct launch_started as (pss & crs & r0 & HS & Hv & Hsize & Hr & Ey). pose proof (st_perm p ranges board dead pss crs m r0 flag dvs HS) as HP.
    assert (HM : Forall2 (range_is (filtered board dead ranges)) pss crs) by (apply (members_range ranges board dead pss crs); apply HS).
    assert (HA : all_positions = positions (filtered board dead ranges) pss) by (unfold all_positions; rewrite (st_m1 _ _ _ _ _ _ _ _ _ _ HS); apply sizes_prod; exact HM).
    destruct (threads_ok p ranges board dead Hr Hv Hsize pss crs m r0 flag dvs HS) as (E & _ & Hrun).
    destruct (Hrun threads cancelled sched) as (y0' & Ey0 & Hmay & Hlen & Hw & _). rewrite Ey in Ey0. injection Ey0 as <-. split.
    - destruct Hmay as [(y & Ey1 & _)|(H1 & H2 & H3)]; eauto.
    - intros y Ey1. split; [apply Hlen; exact Ey1|]. intros tid t Ht Hmany. destruct (xdone t) eqn:Hd; [reflexivity|]. exfalso.
      pose proof (steps_worked p m dvs sched tid t y0 y Ey1 Ht Hd) as Hs. rewrite HA in Hmany. lia.
  Qed.
End Launch.
