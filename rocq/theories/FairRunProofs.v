(* Approximate runs choose fairly: the choices, steps and boards of the threads of a run. *)
From Verif Require Import Base BaseProofs SumFacts Ghost Float64 Hand FastDivide Range Combined Sim Approx SpecPoker ListFacts PokerFacts
  HandProofs HandExprProofs SpecNames SpecHand SpecRange SpecEquity SpecResults SpecRun SpecApprox SpecFair EnumProofs ShowdownProofs BoardProofs CombinedProofs PositionProofs SetupProofs
  WalkProofs MachineProofs ResultProofs ConsistProofs ExactProofs DealProofs ApproxProofs ApproxRunProofs ApproxResultProofs FairProofs FairWalkProofs FairCountProofs FairBoardProofs.
From Coq Require Import Permutation.
Local Open Scope N_scope.

#[local] Opaque NUM_HANDS.

Lemma shuffled_all ranges shuf pss crs : permutes shuf -> Forall2 (range_is ranges) pss crs -> Forall2 (range_all ranges) pss (shuffle_ranges shuf crs).
Proof.
  intros Hs HF. unfold shuffle_ranges. generalize 0%nat. induction HF as [|ps cr pss crs (H1 & H2 & H3 & H4 & H5) _ IH]; intros a; cbn [length seq combine map]; constructor; [|apply IH].
  unfold range_all. cbn [cr_combos]. specialize (Hs a (cr_combos cr)). revert Hs. generalize (shuf a (cr_combos cr)). intros l Hl.
  assert (G : forall (xs : list (list whand)) cs, Forall2 (combo_is (length ps)) xs cs -> forall l, Permutation cs l -> exists hss, Permutation xs hss /\ Forall2 (combo_is (length ps)) hss l).
  { clear. intros xs cs HF l HP. revert xs HF. induction HP as [|x l l' HP IH|x y l|l l' l'' HP1 IH1 HP2 IH2]; intros xs HF.
    - inversion HF; subst. exists []. auto.
    - inversion HF as [|h ? hs ? Hh HF']; subst. destruct (IH hs HF') as (hss & P1 & P2). exists (h :: hss). split; [constructor; exact P1|constructor; assumption].
    - inversion HF as [|h1 ? hs1 ? Hh1 HF1]; subst. inversion HF1 as [|h2 ? hs2 ? Hh2 HF2]; subst. exists (h2 :: h1 :: hs2). split; [apply perm_swap|constructor; [assumption|constructor; assumption]].
    - destruct (IH1 xs HF) as (h1 & P1 & F1). destruct (IH2 h1 F1) as (h2 & P2 & F2). exists h2. split; [eapply Permutation_trans; eassumption|exact F2]. }
  destruct (G _ _ H5 l (Permutation_sym Hl)) as (hss & P1 & P2). exists hss. split; [symmetry; exact P1|exact P2].
Qed.
Lemma same_seats ranges shuf pss pss' crs : Forall2 (range_in ranges) pss (shuffle_ranges shuf crs) -> Forall2 (range_is ranges) pss' crs -> pss = pss'.
Proof.
  intros H H'. revert pss H. unfold shuffle_ranges. generalize 0%nat. induction H' as [|ps' cr pss' crs (K1 & K2 & _) _ IH]; intros a pss H; cbn [length seq combine map] in H; inversion H as [|ps ? pss0 ? Hc HF]; subst; [reflexivity|].
  f_equal; [|eapply IH; exact HF]. destruct Hc as (L1 & L2 & _). cbn [cr_player_count cr_players] in L1, L2. rewrite <- K2, <- L2, <- K1, <- L1. reflexivity.
Qed.

(* ------------------------------------------------------------------------- *)
(** * Attempts *)

Lemma later_eq r r' k : draws r' = draws r -> drawn r' = drawn r + N.of_nat k -> later r k = r'.
Proof. intros H1 H2. unfold later. destruct r' as [f i]. cbn in H1, H2. rewrite H1, H2. reflexivity. Qed.

Section Attempts.
  Variable p : profile.
  Variable ranges : list (list whand).
  Variable pss : list (list nat).
  Variable crs : list crange.
  Variable board dead : N.
  Variable m : simulator.
  Hypothesis Hok : Forall (Forall hole_hand) ranges.
  Hypothesis Hn9 : (length ranges <= 9)%nat.
  Hypothesis HP : Permutation (concat pss) (seq 0 (length ranges)).
  Hypothesis HF : Forall2 (range_in ranges) pss crs.
  Hypothesis Hpos : Forall (fun cr => 0 < cr_size cr) crs.
  Hypothesis Hl9 : (0 < length crs <= 9)%nat.
  Hypothesis Hm1 : m_combined m = crs.
  Hypothesis Hm2 : m_board_mask m = board.
  Hypothesis Hm3 : m_dead_mask m = dead.
  Hypothesis Hm5 : m_n_players m = length ranges.

  Lemma attempts_at tries : forall r w, idle ranges w -> exists o r' w', deal_attempts p m tries r w = Ret (match o with Some _ => true | None => false end, r', w') /\
    attempts m board dead tries r o r' /\ idle ranges w' /\ (forall v, o = Some v -> walk_at p m board dead w' v).
  Proof.
    induction tries as [|tries IH]; intros r w Hi; cbn [deal_attempts].
    - exists None, r, w. split; [reflexivity|]. split; [constructor|]. split; [exact Hi|discriminate].
    - rewrite Hm1, Hm2, Hm3.
      destruct (attempt_at p ranges pss crs board dead m Hok Hn9 HP HF Hpos (proj2 Hl9) Hm1 Hm2 Hm3 Hm5 r w Hi) as (ok & r1 & w1 & E & Hi1 & Eok & Hin & Hd & Hb & Hne & Hres).
      rewrite E. cbn [bind]. destruct ok.
      + destruct (Hres eq_refl) as (Hn & Hat & _). exists (Some (sampled_choice crs r)), r1, w1. split; [reflexivity|]. split; [|split; [exact Hi1|intros v Ev; inversion Ev; subst v; exact Hat]].
        replace r1 with (later r (length (m_combined m))); [|apply later_eq; [exact Hd|rewrite Hm1; exact Hn]].
        rewrite <- Hm1. apply attempt_taken. rewrite Hm1. symmetry. exact Eok.
      + destruct (IH r1 w1 Hi1) as (o & r' & w' & E' & Ha & Hi' & Ho). exists o, r', w'. split; [exact E'|]. split; [|split; [exact Hi'|exact Ho]].
        assert (Hlt : drawn r < drawn r1) by (apply Hne; destruct crs; [cbn in Hl9; lia|discriminate]).
        apply attempt_given_up with (k := N.to_nat (drawn r1 - drawn r)).
        * rewrite Hm1. symmetry. exact Eok.
        * rewrite Hm1. lia.
        * rewrite (later_eq r r1); [exact Ha|exact Hd|lia].
  Qed.
End Attempts.

(* ------------------------------------------------------------------------- *)
(** * Boards *)

Lemma first_new_good : forall k seen xs l, first_new k seen xs = Some l -> length l = k /\ NoDup l /\ Forall (fun c => In c xs /\ seen c = false) l.
Proof.
  intros k seen xs. revert k seen. induction xs as [|x xs IH]; intros [|k] seen l H; cbn [first_new] in H; try discriminate; try (inversion H; subst; repeat constructor; fail).
  destruct (seen x) eqn:Ex.
  - destruct (IH _ _ _ H) as (H1 & H2 & H3). split; [exact H1|]. split; [exact H2|]. eapply Forall_impl; [|exact H3]. intros c [A B]. split; [right; exact A|exact B].
  - destruct (first_new k (fun c => (c =? x) || seen c) xs) as [l'|] eqn:E; [|discriminate]. inversion H; subst l. destruct (IH _ _ _ E) as (H1 & H2 & H3).
    assert (Hs : Forall (fun c => c <> x /\ In c xs /\ seen c = false) l').
    { eapply Forall_impl; [|exact H3]. intros c [A B]. apply orb_false_iff in B as [B1 B2]. apply N.eqb_neq in B1. auto. }
    rewrite Forall_forall in Hs. split; [cbn; lia|]. split.
    + constructor; [|exact H2]. intros Hx. destruct (Hs x Hx) as [Hc _]. congruence.
    + constructor; [split; [left; reflexivity|exact Ex]|]. apply Forall_forall. intros c Hc. destruct (Hs c Hc) as (_ & A & B). split; [right; exact A|exact B].
Qed.
Lemma taken_unseen board dead d c : c < 52 -> taken_cards board dead d c = false -> In c (unseen board dead d).
Proof.
  intros Hc H. unfold unseen. apply filter_In. split; [apply nseq_in; lia|]. rewrite <- negb_orb, negb_true_iff. exact H.
Qed.

Lemma eval_at p m fuel r w st b r' rem : sub_ 32 p 5 (count (m_fixed_board m)) = Ret rem ->
  randomize_board p fuel (N.to_nat rem) (N.lor (w_used w) (m_dead_mask m)) r (m_fixed_board m) = Ret (b, r') ->
  walk_eval p m fuel r w st = (st' <- evaluated p m w b st ;; Ret (r', st')).
Proof.
  intros E1 E2. unfold walk_eval, evaluated. destruct (foldM (fun acc c => mul_ 64 p acc c) (w_weights w) 1) as [wt|f]; cbn [bind]; [|reflexivity].
  rewrite E1. cbn [bind]. rewrite E2. cbn [bind]. reflexivity.
Qed.

(* ------------------------------------------------------------------------- *)
(** * The order of the board *)

Lemma winners_perm d l l' : Permutation l l' -> winners d l = winners d l'.
Proof.
  intros H. assert (Hb : forall h, best (two_cards h ++ l) = best (two_cards h ++ l')) by (intros h; apply best_perm, Permutation_app_head; exact H).
  unfold winners. apply filter_ext. intros i. rewrite Hb. induction d as [|h d IH]; [reflexivity|]. cbn [forallb]. rewrite Hb. f_equal.
  clear IH. generalize (holding (h :: d) i). intros x. induction d as [|h' d IH]; [reflexivity|]. cbn [forallb]. rewrite Hb, IH. reflexivity.
Qed.

(* ------------------------------------------------------------------------- *)
(** * Reached threads *)

Section Run.
  Variable p : profile.
  Variable ranges : list (list whand).
  Variable board dead : N.
  Variable threads : nat.
  Variable target : f64.
  Variable cancelled : bool.
  Variable shuf : nat -> list ccombo -> list ccombo.
  Variable rngs : nat -> N -> N.
  Variable m : simulator.
  Variable flag : N.
  Variable y0 : asys.
  Hypothesis Hr : Forall range_ok ranges.
  Hypothesis Hs : permutes shuf.
  Hypothesis HL : alaunch p ranges board dead threads target cancelled shuf rngs m flag y0.
  Notation fr := (filtered board dead ranges).

  Lemma run_hole_fr : Forall (Forall hole_hand) fr.
  Proof. apply filtered_ok, run_hole; exact Hr. Qed.
  Lemma run_fr9 : (length fr <= 9)%nat.
  Proof. destruct (arun_n ranges board dead (proj1 HL)) as [E H]. lia. Qed.

  Lemma run_all : exists pss crs r0, astarted p ranges board dead shuf target pss crs m r0 flag /\ ainit (m_n_players m) threads cancelled rngs r0 = Ret y0 /\ Forall2 (range_all fr) pss crs.
  Proof.
    destruct (alaunched _ _ _ _ _ _ _ _ _ _ _ _ Hr Hs HL) as (pss & crs & r0 & HS & Ey0). exists pss, crs, r0. split; [exact HS|]. split; [exact Ey0|].
    destruct (as_launch _ _ _ _ _ _ _ _ _ _ _ HS) as (crs0 & Ec & Ecrs). destruct (arun_n ranges board dead (proj1 HL)) as [_ Hn].
    destruct (combine_ok p ranges board dead fr crs0 Hr ltac:(lia) Ec) as (_ & pss' & [Hmem _] & _).
    assert (HF : Forall2 (range_is fr) pss' crs0) by (clear - Hmem; induction Hmem as [|ps cr pss' crs' [Ha _] _ IH]; constructor; assumption).
    pose proof (as_ranges _ _ _ _ _ _ _ _ _ _ _ HS) as HI. rewrite Ecrs in HI. rewrite (same_seats fr shuf pss pss' crs0 HI HF). rewrite Ecrs. apply shuffled_all; assumption.
  Qed.

  Lemma run_choices : Permutation (map (choice_deal m) (legal_choices m board dead)) (deals ranges board dead).
  Proof.
    destruct run_all as (pss & crs & r0 & HS & _ & HA). destruct HS as [_ S1 S2 S3 S4 S5 S6 S7 S8 S9 S10 _ _ _ _ _ _ _]. rewrite <- (deals_filtered board dead ranges).
    apply (choices_perm fr pss crs board dead m run_hole_fr S1 S2 S6); [|exact HA|exact S3]. destruct (arun_n ranges board dead (proj1 HL)) as [E _]. congruence.
  Qed.

  (* the average over all choices and board sequences *)
  Lemma run_mean (f : list whand -> list N -> N) : (forall d l l', Permutation l l' -> f d l = f d l') ->
    sumf (fun s => f (fst s) (snd s)) (all_samples m board dead) =
    N.of_nat (fact (5 - length (mask_cards board))) * sumf (fun d => sumf (f d) (boards board dead d)) (deals ranges board dead).
  Proof.
    intros Hfp. unfold all_samples. rewrite sumf_flat_map.
    transitivity (sumf (fun d => sumf (fun l => f d (mask_cards board ++ l)) (arrangements (5 - length (mask_cards board)) (unseen board dead d))) (map (choice_deal m) (legal_choices m board dead))).
    - rewrite sumf_map. apply sumf_ext. intros v _. rewrite sumf_map. reflexivity.
    - rewrite (sumf_perm _ _ _ run_choices), <- sumf_mul. apply sumf_ext. intros d _. rewrite boards_eq, sumf_map.
      apply (sum_arrangements (5 - length (mask_cards board)) (unseen board dead d) (fun l => f d (mask_cards board ++ l))); [apply unseen_NoDup|].
      intros l l' Hl. apply Hfp. apply Permutation_app_head. exact Hl.
  Qed.
  Lemma run_sampled what : (forall d l l', Permutation l l' -> what d l = what d l') ->
    sampled (all_samples m board dead) what = N.of_nat (fact (5 - length (mask_cards board))) * total_of ranges board dead what.
  Proof.
    intros Hw. unfold sampled, total_of. etransitivity; [symmetry; apply sumf_sum_of|].
    etransitivity; [apply (run_mean (fun d l => if what d l then deal_weight d else 0)); intros d l l' Hl; rewrite (Hw d l l' Hl); reflexivity|].
    f_equal. etransitivity; [|apply sumf_sum_of]. apply sumf_ext. intros d _. etransitivity; [|apply (f_equal (N.mul (deal_weight d))); apply sumf_sum_of].
    rewrite <- sumf_mul. apply sumf_ext. intros l _. destruct (what d l); lia.
  Qed.

  Lemma run_idle fuel sched : forall y, foldM (aevent p m fuel) sched y0 = Ret y -> forall t, In t (ay_threads y) -> idle fr (a_walk t).
  Proof.
    destruct run_all as (pss & crs & r0 & HS & Ey0 & _). pose proof (proj1 HL) as Hval. pose proof HS as HS'. destruct HS as [_ S1 S2 S3 S4 S5 S6 S7 S8 S9 S10 _ _ _ _ _ _ _].
    pose proof run_hole_fr as Hhole. pose proof run_fr9 as Hfr9.
    assert (Hdeal : forall r w, idle fr w -> exists ok r' w', randomize_hole_cards p m r w = Ret (ok, r', w') /\ idle fr w').
    { intros r w Hi. destruct (deal_attempts_ok p fr pss crs board dead m Hhole Hfr9 S1 S2 S3 (proj2 S4) S6 S7 S8 1000 r w Hi) as (ok & r' & w' & E & Hi' & _). exists ok, r', w'. auto. }
    induction sched as [|e sched IH] using rev_ind; intros y Hf t Ht.
    - cbn [foldM] in Hf. inversion Hf; subst y. unfold ainit in Ey0. destruct (stats_init (m_n_players m)) as [st|]; [|discriminate]. cbn [bind] in Ey0. inversion Ey0; subst y0. cbn [ay_threads] in Ht.
      apply in_map_iff in Ht as (i & <- & _). cbn [a_walk]. apply (idle_init fr crs board dead m Hfr9 (proj2 S4) S7 S8).
    - rewrite foldM_app in Hf. destruct (foldM (aevent p m fuel) sched y0) as [y1|f] eqn:E1; [|discriminate]. cbn [bind foldM] in Hf.
      destruct (aevent p m fuel y1 e) as [y2|f] eqn:E2; [|discriminate]. cbn [bind] in Hf. inversion Hf; subst y2. clear Hf. specialize (IH y1 eq_refl).
      destruct e as [tid|]; cbn [aevent] in E2; [|inversion E2; subst y; cbn [ay_threads] in Ht; apply IH; exact Ht].
      destruct (nth_error (ay_threads y1) tid) as [t1|] eqn:Et; [|inversion E2; subst y; apply IH; exact Ht].
      destruct (astep p m fuel (ay_shared y1) t1) as [[sh t2]|f] eqn:E3; [|discriminate]. cbn [bind] in E2. inversion E2; subst y. cbn [ay_threads] in Ht. clear E2.
      apply In_nth_error in Ht as (k & Hk). destruct (Nat.eq_dec tid k) as [<-|Hne]; [|rewrite set_nth_other in Hk by exact Hne; apply IH; eapply nth_error_In; exact Hk].
      rewrite set_nth_same in Hk by (apply nth_error_Some; congruence). inversion Hk; subst t2. clear Hk.
      assert (Hi1 : idle fr (a_walk t1)) by (apply IH; eapply nth_error_In; exact Et).
      unfold astep in E3. destruct (a_phase t1) eqn:Eph.
      + destruct (existsb _ _ || _) in E3; [discriminate|]. destruct (Hdeal (a_rng t1) (a_walk t1) Hi1) as (ok & r' & w' & E & Hi'). rewrite E in E3. cbn [bind] in E3. inversion E3; subst. exact Hi'.
      + destruct (walk_eval p m fuel (a_rng t1) (a_walk t1) (a_stats t1)) as [[r' st']|f]; [|discriminate]. cbn [bind] in E3. inversion E3; subst. exact Hi1.
      + destruct (update_results _ _ _ _ _ _ _) as [[[r' stop] msg]|f]; [|discriminate]. cbn [bind] in E3. destruct (stats_init (m_n_players m)) as [st'|f]; [|discriminate]. cbn [bind] in E3. inversion E3; subst. exact Hi1.
      + destruct (xs_stopped (ay_shared y1)); [inversion E3; subst; exact Hi1|]. destruct (Hdeal (a_rng t1) (a_walk t1) Hi1) as (ok & r' & w' & E & Hi'). rewrite E in E3. cbn [bind] in E3. inversion E3; subst. exact Hi'.
      + destruct (athreads_ok p ranges board dead Hr Hval shuf target pss crs m r0 flag HS' threads cancelled rngs fuel sched) as (y0' & Ey0' & Hrun).
        rewrite Ey0 in Ey0'. inversion Ey0'; subst y0'. destruct (runs_holds _ _ _ _ _ _ Hrun E1) as (_ & Hw & _).
        destruct (Hw t1 (nth_error_In _ _ Et) (or_intror (or_intror Eph))) as (parts & Hp).
        destruct (walk_step_ok p fr pss crs board dead m Hhole Hfr9 S1 S2 (proj2 S4) S6 S7 S8 (a_rng t1) (a_walk t1) parts Hp (proj1 S4)) as (r' & w' & i & parts' & E & Hp' & _).
        rewrite E in E3. cbn [bind] in E3. inversion E3; subst. apply Hp'.
      + destruct (update_results _ _ _ _ _ _ _) as [[[r' stop] msg]|f]; [|discriminate]. cbn [bind] in E3. inversion E3; subst. exact Hi1.
      + inversion E3; subst. exact Hi1.
  Qed.

  Variable fuel : nat.
  Variable sched : list event.
  Variable y : asys.
  Hypothesis Hf : foldM (aevent p m fuel) sched y0 = Ret y.
  Variable t : athread.
  Hypothesis Ht : In t (ay_threads y).

  Lemma run_fresh : exists o r' w', randomize_hole_cards p m (a_rng t) (a_walk t) = Ret (match o with Some _ => true | None => false end, r', w') /\
    attempts m board dead 1000 (a_rng t) o r' /\ forall v, o = Some v -> walk_at p m board dead w' v.
  Proof.
    destruct run_all as (pss & crs & r0 & HS & _ & _). destruct HS as [_ S1 S2 S3 S4 S5 S6 S7 S8 S9 S10 _ _ _ _ _ _ _]. destruct (arun_n ranges board dead (proj1 HL)) as [En _]. rewrite <- En in S10.
    destruct (attempts_at p fr pss crs board dead m run_hole_fr run_fr9 S1 S2 S3 S4 S6 S7 S8 S10 1000 (a_rng t) (a_walk t) (run_idle fuel sched y Hf t Ht)) as (o & r' & w' & E & Ha & _ & Ho).
    exists o, r', w'. auto.
  Qed.

  Lemma run_held : a_phase t = AEval \/ a_phase t = AFlush \/ a_phase t = AWalk -> exists pss crs parts,
    Permutation (concat pss) (seq 0 (length fr)) /\ Forall2 (range_in fr) pss crs /\ Forall (fun cr => 0 < cr_size cr) crs /\ (0 < length crs <= 9)%nat /\ m_combined m = crs /\
    m_board_mask m = board /\ m_dead_mask m = dead /\ m_n_players m = length fr /\ hand_of base (mask_cards board) (m_fixed_board m) /\
    holds_deal p fr pss crs board dead (a_walk t) parts.
  Proof.
    intros Hph. destruct run_all as (pss & crs & r0 & HS & Ey0 & _). pose proof HS as HS'. destruct HS as [_ S1 S2 S3 S4 S5 S6 S7 S8 S9 S10 _ _ _ _ _ _ _]. destruct (arun_n ranges board dead (proj1 HL)) as [En _]. rewrite <- En in S10.
    destruct (athreads_ok p ranges board dead Hr (proj1 HL) shuf target pss crs m r0 flag HS' threads cancelled rngs fuel sched) as (y0' & Ey0' & Hrun).
    rewrite Ey0 in Ey0'. inversion Ey0'; subst y0'. destruct (runs_holds _ _ _ _ _ _ Hrun Hf) as (_ & Hw & _). destruct (Hw t Ht Hph) as (parts & Hp).
    exists pss, crs, parts. repeat (split; [assumption|]). exact Hp.
  Qed.

  Lemma run_step : a_phase t = AWalk -> exists v r' w', walk_at p m board dead (a_walk t) v /\ walk_step p m (a_rng t) (a_walk t) = Ret (r', w') /\ r' = later (a_rng t) 1 /\
    walk_at p m board dead w' (step_choice m board dead v (N.to_nat (draws (a_rng t) (drawn (a_rng t)) mod N.of_nat (length (m_combined m))))).
  Proof.
    intros Hph. destruct (run_held (or_intror (or_intror Hph))) as (pss & crs & parts & S1 & S2 & S3 & S4 & S6 & S7 & S8 & S10 & _ & Hp).
    destruct (walk_step_at p fr pss crs board dead m run_hole_fr run_fr9 S1 S2 (proj2 S4) S6 S7 S8 S10 (a_rng t) (a_walk t) parts Hp (proj1 S4)) as (r' & w' & E & Er & _ & Hat).
    exists (firstn (length crs) (w_indexes (a_walk t))), r', w'. split; [exact (held_at p fr pss crs board dead m run_hole_fr run_fr9 S1 S2 (proj2 S4) S6 S7 S8 S10 (a_walk t) parts Hp)|].
    split; [exact E|]. split; [exact Er|]. rewrite S6. exact Hat.
  Qed.

  Lemma run_boards : a_phase t = AEval -> exists v, walk_at p m board dead (a_walk t) v /\
    forall k l, (k <= fuel)%nat -> first_new (5 - length (mask_cards board)) (taken_cards board dead (choice_deal m v)) (stream (a_rng t) k) = Some l ->
      NoDup l /\ incl l (unseen board dead (choice_deal m v)) /\
      exists b r', run p (board_with board l) = Ret b /\ walk_eval p m fuel (a_rng t) (a_walk t) (a_stats t) = (st <- evaluated p m (a_walk t) b (a_stats t) ;; Ret (r', st)).
  Proof.
    intros Hph. destruct (run_held (or_introl Hph)) as (pss & crs & parts & S1 & S2 & S3 & S4 & S6 & S7 & S8 & S10 & S9 & Hp).
    pose proof (held_at p fr pss crs board dead m run_hole_fr run_fr9 S1 S2 (proj2 S4) S6 S7 S8 S10 (a_walk t) parts Hp) as Hat.
    set (v := firstn (length crs) (w_indexes (a_walk t))) in *. exists v. split; [exact Hat|]. intros k l Hk H.
    destruct (first_new_good _ _ _ _ H) as (Hl & Hnd & HFl).
    assert (Hin : forall c, In c l -> c < 52 /\ taken_cards board dead (choice_deal m v) c = false).
    { intros c Hc. rewrite Forall_forall in HFl. destruct (HFl c Hc) as [A B]. split; [|exact B]. pose proof (stream_cards (a_rng t) k) as Hsc. rewrite Forall_forall in Hsc. apply Hsc. exact A. }
    split; [exact Hnd|]. split; [intros c Hc; destruct (Hin c Hc) as [A B]; apply taken_unseen; assumption|].
    pose proof (arun_board ranges board dead (proj1 HL)) as Hb5.
    assert (Hfit : fits (mask_cards board)) by (apply fits_of_length; lia).
    destruct (from_bit_mask_of p board Hfit) as (fb & Efb & Hfb).
    assert (Ef : fb = m_fixed_board m) by (eapply hand_of_unique; [exact Hfb|exact S9]). rewrite Ef in Efb. clear fb Ef Hfb.
    assert (Hused : forall c, c < 52 -> N.testbit (N.lor (w_used (a_walk t)) dead) c = taken_cards board dead (choice_deal m v) c).
    { intros c _. rewrite N.lor_spec, (hd_used _ _ _ _ _ _ _ _ Hp), N.lor_spec. unfold taken_cards, on_table.
      destruct Hat as (Hin0 & _). apply filter_In in Hin0 as [Hc0 _]. rewrite (choice_deal_of fr pss crs m run_hole_fr S2 S6 S10 v Hc0).
      destruct (held_choice p fr pss crs board dead m run_hole_fr run_fr9 S2 (proj2 S4) S6 S7 S8 S10 (a_walk t) parts Hp) as [_ Epp]. fold v in Epp. rewrite Epp.
      pose proof (dealt_perm _ _ (deal_of_perm fr pss run_hole_fr S1 parts (hd_parts _ _ _ _ _ _ _ _ Hp))) as Hperm.
      assert (E : existsb (N.eqb c) (dealt (deal_of fr pss parts)) = existsb (N.eqb c) (dealt (concat parts))).
      { apply eq_true_iff_eq. rewrite !existsb_eqb_In. split; apply Permutation_in; [exact Hperm|symmetry; exact Hperm]. }
      rewrite E. destruct (N.testbit board c), (N.testbit dead c), (existsb (N.eqb c) (dealt (concat parts))); reflexivity. }
    destruct (board_new p fuel (5 - length (mask_cards board)) (N.lor (w_used (a_walk t)) dead) _ (a_rng t) (m_fixed_board m) (mask_cards board) k l (EMask board) Hused S9 ltac:(lia) Efb H Hk) as (b & r' & Eb & Erun).
    exists b, r'. split; [exact Erun|].
    apply (eval_at p m fuel (a_rng t) (a_walk t) (a_stats t) b r' (5 - N.of_nat (length (mask_cards board)))).
    - rewrite (count_of base (mask_cards board) (m_fixed_board m)) by (try assumption; try (left; reflexivity); lia). rewrite N.mod_small by lia. apply sub_ok. lia.
    - replace (N.to_nat (5 - N.of_nat (length (mask_cards board)))) with (5 - length (mask_cards board))%nat by lia. rewrite S8. exact Eb.
  Qed.
End Run.

Lemma run_unbiased p ranges board dead threads target cancelled shuf rngs m flag y0 : Forall range_ok ranges -> permutes shuf ->
  alaunch p ranges board dead threads target cancelled shuf rngs m flag y0 ->
  let E := all_samples m board dead in
  let orders := N.of_nat (fact (5 - length (mask_cards board))) in
  (forall k, sampled E (fun d l => nats_eqb (first_eight (winners d l)) (players_of (length ranges) k)) =
    orders * total_of ranges board dead (fun d l => nats_eqb (first_eight (winners d l)) (players_of (length ranges) k))) /\
  (forall i a b, sampled E (wins_with i a b) = orders * total_of ranges board dead (wins_with i a b) /\
    sampled E (ties_with i a b) = orders * total_of ranges board dead (ties_with i a b) /\
    sampled E (fun d _ => holds i a b d) = orders * total_of ranges board dead (fun d _ => holds i a b d)) /\
  N.of_nat (length E) = orders * sum_of (fun d => N.of_nat (length (boards board dead d))) (deals ranges board dead).
Proof.
  intros Hr Hs HL E orders. pose proof (run_sampled _ _ _ _ _ _ _ _ _ _ _ _ Hr Hs HL) as H. split; [|split].
  - intros k. apply H. intros d l l' Hl. rewrite (winners_perm d l l' Hl). reflexivity.
  - intros i a b. split; [|split]; apply H; intros d l l' Hl; unfold wins_with, ties_with; try rewrite (winners_perm d l l' Hl); reflexivity.
  - rewrite <- sumf_1_length. etransitivity; [apply (run_mean _ _ _ _ _ _ _ _ _ _ _ _ Hr Hs HL (fun _ _ => 1)); reflexivity|].
    fold orders. f_equal. etransitivity; [|apply sumf_sum_of]. apply sumf_ext. intros d _. apply sumf_1_length.
Qed.
