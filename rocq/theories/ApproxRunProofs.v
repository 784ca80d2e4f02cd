(* approx_equity as a whole. *)
From Verif Require Import Base BaseProofs SumFacts Ghost Float64 Hand FastDivide Range Combined Sim Approx SpecPoker ListFacts PokerFacts
  HandProofs HandExprProofs SpecNames SpecHand SpecRange SpecEquity SpecResults SpecRun SpecApprox EnumProofs ShowdownProofs BoardProofs CombinedProofs PositionProofs MergeProofs
  MachineProofs SetupProofs WeightProofs FinalProofs ExactProofs ResultProofs WalkProofs ApproxProofs.
From Coq Require Import Permutation.
Local Open Scope N_scope.

#[local] Opaque NUM_HANDS.

(* ------------------------------------------------------------------------- *)
(** * Bounds *)

Definition most (r : list whand) : N := fold_right (fun h w => N.max (weight h) w) 1 r.
Lemma most_in r h : In h r -> N.max 1 (weight h) <= most r.
Proof.
  induction r as [|x r IH]; [intros []|]. unfold most in *. cbn [fold_right]. intros [->|H]; [|specialize (IH H); lia].
  assert (1 <= most r) by (clear; induction r as [|y r IH]; unfold most in *; cbn [fold_right]; lia). unfold most in H. lia.
Qed.
Lemma big_heaviest ranges d : In d (picks ranges) -> big_weight d <= heaviest ranges.
Proof.
  revert d. induction ranges as [|r rs IH]; intros d H; cbn [picks] in H.
  - destruct H as [<-|[]]. cbn. lia.
  - apply in_flat_map in H as (h & Hh & H). apply in_map_iff in H as (d' & <- & H).
    change (N.max 1 (weight h) * big_weight d' <= most r * heaviest rs). apply N.mul_le_mono; [apply most_in; exact Hh|apply IH; exact H].
Qed.
Lemma item_gain_le p s o : item_gain p s o <= big_weight (fst s).
Proof.
  unfold item_gain. pose proof (eff_le (fst s) (slot_of p (fst s)) o (snd s)) as H1. pose proof (deal_weight_le (fst s)) as H2. pose proof (big_weight_pos (fst s)) as H3.
  destruct o as [i|f k|]; cbn [one]; [nia|nia|]. cbn [eff]. lia.
Qed.
Lemma item_gain_masks p s k : sumf (fun i => item_gain p s (OMask i)) (seq 0 k) <= big_weight (fst s).
Proof.
  rewrite (sumf_ext _ (fun i => deal_weight (fst s) * sumf (eff (fst s) (slot_of p (fst s)) (OMask i)) [snd s])).
  - rewrite sumf_mul. pose proof (sum_masks_le (fst s) (slot_of p (fst s)) [snd s] k) as H1. cbn [length] in H1. pose proof (deal_weight_le (fst s)). nia.
  - intros i _. unfold item_gain. cbn [one]. rewrite sumf_cons, sumf_nil. lia.
Qed.
Lemma sum_bounded {A} (f : A -> N) W L : Forall (fun x => f x <= W) L -> sumf f L <= N.of_nat (length L) * W.
Proof. induction 1 as [|x L H _ IH]; [cbn; lia|]. rewrite sumf_cons. cbn [length]. lia. Qed.

(* ------------------------------------------------------------------------- *)
(** * Shuffled ranges *)

Lemma shuffled ranges shuf pss crs : permutes shuf -> Forall2 (range_is ranges) pss crs -> Forall2 (range_in ranges) pss (shuffle_ranges shuf crs).
Proof.
  intros Hs HF. unfold shuffle_ranges. generalize 0%nat. induction HF as [|ps cr pss crs (H1 & H2 & H3 & H4 & H5) _ IH]; intros a; cbn [length seq combine map]; constructor; [|apply IH].
  unfold range_in. cbn [cr_player_count cr_players cr_size cr_combos]. split; [exact H1|]. split; [exact H2|]. split; [exact H3|].
  split; [rewrite H4; f_equal; symmetry; apply Permutation_length, Hs|].
  apply Forall_forall. intros c Hc. apply (Permutation_in _ (Hs a (cr_combos cr))) in Hc. clear - H5 Hc. unfold fairs.
  revert H5 Hc. generalize (cr_combos cr). intros l H5. induction H5 as [|hs c' hss l' Hx _ IH]; [intros []|]. intros [<-|Hin].
  - exists hs. split; [left; reflexivity|exact Hx].
  - destruct (IH Hin) as (hs' & Ha & Hb). exists hs'. split; [right; exact Ha|exact Hb].
Qed.
Lemma shuffle_sizes shuf crs : map cr_size (shuffle_ranges shuf crs) = map cr_size crs.
Proof.
  unfold shuffle_ranges. generalize 0%nat. induction crs as [|cr crs IH]; intros a; [reflexivity|]. cbn [length seq combine map cr_size]. f_equal. apply IH.
Qed.
Lemma sizes_exist (P : N -> bool) crs : existsb (fun cr => P (cr_size cr)) crs = existsb P (map cr_size crs).
Proof. induction crs as [|cr crs IH]; [reflexivity|]. cbn [existsb map]. rewrite IH. reflexivity. Qed.

(* ------------------------------------------------------------------------- *)
(** * A run *)

Section ARun.
  Variable p : profile.
  Variable ranges : list (list whand).
  Variable board dead : N.
  Hypothesis Hr : Forall range_ok ranges.
  Hypothesis Hval : validate (length ranges) board dead = None.
  Notation n := (length ranges).
  Notation fr := (filtered board dead ranges).

  Lemma arun_n : (length fr = n /\ 2 <= n <= 9)%nat.
  Proof. split; [apply filtered_length|]. apply validate_none in Hval. lia. Qed.
  Lemma arun_board : (length (mask_cards board) <= 5)%nat.
  Proof. apply validate_none in Hval as (_ & Hb & _). pose proof (mask_cards_length board). lia. Qed.

  Variable shuf : nat -> list ccombo -> list ccombo.
  Variable target : f64.
  Hypothesis Hs : permutes shuf.

  Record astarted (pss : list (list nat)) (crs : list crange) (m : simulator) (r0 : results) (flag : N) : Prop := mkAStarted {
    as_launch : exists crs0, combine_ranges p ranges board dead = Ret (ROk (fr, crs0)) /\ crs = shuffle_ranges shuf crs0;
    as_perm : Permutation (concat pss) (seq 0 (length fr));
    as_ranges : Forall2 (range_in fr) pss crs;
    as_pos : Forall (fun cr => 0 < cr_size cr) crs;
    as_some : (0 < length crs <= 9)%nat;
    as_new : sim_new p fr crs board dead false target = Ret m;
    as_m1 : m_combined m = crs;
    as_m2 : m_board_mask m = board;
    as_m3 : m_dead_mask m = dead;
    as_m4 : hand_of base (mask_cards board) (m_fixed_board m);
    as_m5 : m_n_players m = n;
    as_m6 : m_hand_ranges m = fr;
    as_m7 : m_calc_exact m = false;
    as_m8 : m_stdev_target m = target;
    as_prepare : prepare p m = Ret (r0, flag);
    as_r0 : r0 = with_hand_results (results_init (length fr)) (r_hand_results r0);
    as_ready : entries_ready p board fr (r_hand_results r0);
    as_flag : forall i, (i < length fr)%nat -> N.testbit flag (N.of_nat i) = plain (nth i fr []) }.

  Lemma astart : (combine_ranges p ranges board dead = Ret (RErr ConflictingRanges) /\ deals ranges board dead = []) \/
    exists pss crs m r0 flag, astarted pss crs m r0 flag.
  Proof.
    destruct arun_n as [Hfn [Hn2 Hn9]]. unfold combine_ranges. rewrite (filter_ranges_ok p board dead ranges (run_hole ranges Hr)). cbn [bind].
    destruct (from_ranges_ok p fr (filtered_ok _ board dead ranges (run_hole ranges Hr)) ltac:(lia)) as (pss & crs & Efr & Hmem & Hset). rewrite Efr. cbn [bind].
    destruct Hmem as [Hmem HP].
    assert (HF : Forall2 (range_is fr) pss crs) by (clear - Hmem; induction Hmem as [|ps cr pss' crs' [Ha _] _ IH]; constructor; assumption).
    assert (Hex : existsb (fun cr => cr_size cr =? 0) crs = true <-> Exists (fun ps => size_of fr ps = 0) pss).
    { clear - HF. induction HF as [|ps cr pss' crs' H _ IH]; cbn [existsb].
      - split; [discriminate|]. intros H. inversion H.
      - rewrite orb_true_iff, IH, N.eqb_eq, (range_is_size fr ps cr H). split.
        + intros [E|E]; [left; exact E|right; exact E].
        + intros E. inversion E; subst; auto. }
    destruct (existsb (fun cr => cr_size cr =? 0) crs) eqn:Ee.
    - left. split; [reflexivity|]. rewrite <- deals_filtered. apply (no_deals fr pss); [exact HP|]. apply Hex. reflexivity.
    - right.
      destruct (from_bit_mask_of p board) as (fb & Efb & Hfb); [apply fits_of_length; pose proof arun_board; lia|].
      set (crs' := shuffle_ranges shuf crs).
      set (m := {| m_hand_ranges := fr; m_combined := crs'; m_board_mask := board; m_dead_mask := dead; m_fixed_board := fb; m_n_players := length fr;
                   m_stdev_target := target; m_calc_exact := false |}).
      assert (Em : sim_new p fr crs' board dead false target = Ret m) by (unfold sim_new; rewrite Efb; reflexivity).
      destruct (prepare_ok p fr board m eq_refl eq_refl eq_refl (run_off ranges board dead Hr) arun_board) as (r0 & flag & Ep & Hready & Hr0 & Hflag).
      exists pss, crs', m, r0, flag. constructor; try assumption; try reflexivity.
      + exists crs. split; [|reflexivity]. unfold combine_ranges. rewrite (filter_ranges_ok p board dead ranges (run_hole ranges Hr)). cbn [bind]. rewrite Efr. cbn [bind]. rewrite Ee. reflexivity.
      + apply shuffled; assumption.
      + rewrite (sizes_exist (fun x => x =? 0)) in Ee. unfold crs'. apply Forall_forall. intros cr Hcr. apply (in_map cr_size) in Hcr. rewrite shuffle_sizes in Hcr.
        destruct (N.eq_dec (cr_size cr) 0) as [E0|]; [|lia]. rewrite E0 in Hcr.
        assert (existsb (fun x => x =? 0) (map cr_size crs) = true) by (apply existsb_exists; exists 0; auto). congruence.
      + assert (Hl : length crs' = length crs) by (rewrite <- (map_length cr_size crs'), <- (map_length cr_size crs); unfold crs'; rewrite shuffle_sizes; reflexivity).
        assert (Hlen : length (concat pss) = n) by (rewrite (Permutation_length HP), seq_length; lia).
        rewrite Hl. assert (H0 : (length pss <= length (concat pss))%nat /\ (length (concat pss) = 0 \/ 0 < length pss)%nat /\ length pss = length crs).
        { clear - Hmem. induction Hmem as [|ps cr pss crs (_ & _ & Hne) _ (I1 & I2 & I3)]; [cbn; lia|]. cbn [concat length]. rewrite app_length.
          assert (0 < length ps)%nat by (destruct ps; [congruence|cbn; lia]). lia. }
        lia.
  Qed.

  (* what a run has counted *)
  Record areport (E : list sample_of) (r : results) : Prop := mkAReport {
    ar_wbm : length (r_wins_by_mask r) = (2 ^ n)%nat;
    ar_wins : length (r_wins r) = n;
    ar_hands : length (r_hand_results r) = (n * NUM_HANDS)%nat;
    ar_masks : forall m, m < 2 ^ N.of_nat n -> counter p (nth (N.to_nat m) (r_wins_by_mask r) 0) (sampled E (fun d l => nats_eqb (seen (winners d l)) (players_of n m)));
    ar_single : forall j, (j < n)%nat -> nth j (r_wins r) 0 = nth (2 ^ j) (r_wins_by_mask r) 0;
    ar_total : forall i a b, (i < n)%nat -> hole a b -> counter p (u_total (entry_of p r i a b)) (sampled E (fun d _ => holds i a b d));
    ar_win : forall i a b, (i < n)%nat -> hole a b -> counter p (u_wins (entry_of p r i a b)) (sampled E (wins_with i a b));
    ar_tie : forall i a b, (i < n)%nat -> hole a b -> counter p (u_ties (entry_of p r i a b)) (sampled E (ties_with i a b));
    ar_count : counter p (r_eval_count r) (N.of_nat (length E)) }.

  Lemma sampled_ext E o (what : list whand -> list N -> bool) : Forall (fun s => length (fst s) = n /\ Forall hole_hand (fst s)) E -> o <> OCount ->
    (forall d l, length d = n -> Forall hole_hand d -> eff d (slot_of p d) o l = if what d l then 1 else 0) ->
    sumf (fun s => item_gain p s o) E = sampled E what.
  Proof.
    intros HE Ho H. unfold sampled. etransitivity; [|apply sumf_sum_of]. apply sumf_ext. intros s Hin. rewrite Forall_forall in HE. destruct (HE s Hin) as [H1 H2].
    unfold item_gain. rewrite (H _ _ H1 H2). destruct o; [| |congruence]; cbn [one]; destruct (what (fst s) (snd s)); lia.
  Qed.
  Lemma item_count E : sumf (fun s => item_gain p s OCount) E = N.of_nat (length E).
  Proof. induction E as [|s E IH]; [reflexivity|]. rewrite sumf_cons, IH. unfold item_gain. cbn [eff one length]. lia. Qed.

  Section AStarted.
    Variable pss : list (list nat).
    Variable crs : list crange.
    Variable m : simulator.
    Variable r0 : results.
    Variable flag : N.
    Hypothesis HS : astarted pss crs m r0 flag.
    Notation good := (good_sample fr board dead).

    Lemma good_shape s : good s -> length (fst s) = n /\ Forall hole_hand (fst s).
    Proof. intros [H _]. rewrite deals_filtered in H. eapply deals_shape; [apply run_hole; exact Hr|exact H]. Qed.
    Lemma good_heavy s : good s -> big_weight (fst s) <= heaviest ranges.
    Proof. intros [H _]. rewrite deals_filtered in H. apply filter_In in H as [H _]. apply big_heaviest. exact H. Qed.

    Lemma athreads_ok threads cancelled rngs fuel sched : exists y0, ainit (m_n_players m) threads cancelled rngs r0 = Ret y0 /\
      runs p (N.of_nat (length sched) * heaviest ranges < 2 ^ 64) (length (mask_cards board) < 5)%nat (foldM (aevent p m fuel) sched y0) (fun y =>
        (forall tid t, nth_error (ay_threads y) tid = Some t -> a_phase t <> ADone -> exists ids L, (forall i, (i < n)%nat -> get ids i = Ret i) /\
           shape (n * NUM_HANDS) ids (a_stats t) /\ (forall o, agr p (rd o (a_stats t)) (sumf (fun s => item_gain p s o) L)) /\ Forall good L /\ (length L <= length sched)%nat) /\
        (forall t, In t (ay_threads y) -> a_phase t = AEval \/ a_phase t = AFlush \/ a_phase t = AWalk -> exists parts, holds_deal p fr pss crs board dead (a_walk t) parts) /\
        (forallb adone (ay_threads y) = true -> exists E, Forall good E /\ (length E <= length sched)%nat /\
          results_ok p n r0 (xs_results (ay_shared y)) (fun o => sumf (fun s => item_gain p s o) E))).
    Proof.
      destruct arun_n as [Hfn [Hn2 Hn9]]. destruct HS as [_ S1 S2 S3 S4 S5 S6 S7 S8 S9 S10 S11 S12 S13 S14 S15 S16 S17].
      destruct (stats_init_ok n Hn9) as (ids & st0 & Hinit & Hshape & Hids & Hzero).
      assert (HR0 : results_ok p n r0 r0 (fun _ => 0)) by (rewrite <- Hfn; apply (prepared_ok p fr board); assumption).
      assert (Hhole : Forall (Forall hole_hand) fr) by (apply filtered_ok, run_hole; exact Hr).
      assert (Hguard : existsb (fun cr => cr_size cr =? 0) (m_combined m) || (length (m_combined m) =? 0)%nat = false).
      { rewrite S6. apply orb_false_iff. split; [|apply Nat.eqb_neq; lia]. apply not_true_is_false. intros He. apply existsb_exists in He as (cr & Hc & E).
        rewrite Forall_forall in S3. specialize (S3 cr Hc). apply N.eqb_eq in E. lia. }
      set (K := length sched). set (B := N.of_nat K * heaviest ranges < 2 ^ 64).
      set (H := fun w => exists parts, holds_deal p fr pss crs board dead w parts).
      assert (Hfr9 : (length fr <= 9)%nat) by lia.
      assert (Hbig : B -> forall d, In d (deals fr board dead) -> big_weight d < 2 ^ 64 \/ K = 0%nat).
      { intros b d Hd. rewrite deals_filtered in Hd. apply filter_In in Hd as [Hd _]. apply big_heaviest in Hd. unfold B in b.
        destruct K as [|k]; [right; reflexivity|left]. revert b Hd. generalize (2 ^ 64), (heaviest ranges), (big_weight d). intros. lia. }
      destruct (ainit_ok p n ids st0 r0 (idle fr) H good (item_gain p) Hinit Hshape Hzero (idle_init fr crs board dead m Hfr9 (proj2 S4) S7 S8) threads cancelled rngs HR0) as (y0 & Ey0 & HI).
      rewrite S10. exists y0. split; [exact Ey0|].
      assert (Hc : forall k, concat (repeat (@nil sample_of) k) = []) by (induction k as [|k IH]; [reflexivity|exact IH]).
      destruct sched as [|e sched'].
      { cbn [foldM]. apply runs_ret. split.
        { intros tid t Ht _. exists ids, []. unfold ainit in Ey0. rewrite Hinit in Ey0. cbn [bind] in Ey0. inversion Ey0; subst y0. cbn [ay_threads] in Ht.
          apply nth_error_In, in_map_iff in Ht as (i & <- & _). cbn [a_stats]. split; [exact Hids|]. split; [exact Hshape|]. split; [|split; [constructor|apply Nat.le_refl]].
          intros o. rewrite Hzero. apply agr_0. }
        split.
        { intros t Ht. unfold ainit in Ey0. destruct (stats_init n) as [st|]; [|discriminate]. cbn [bind] in Ey0. inversion Ey0; subst y0. cbn [ay_threads] in Ht.
          apply in_map_iff in Ht as (i & <- & _). cbn [a_phase]. intros [H0|[H0|H0]]; discriminate. }
        intros Hd. exists []. split; [constructor|]. split; [apply Nat.le_refl|]. apply HI. }
      eapply runs_weaken.
      - eapply (arun_ok p B (length (mask_cards board) < 5)%nat n m fuel ids st0 r0 K (idle fr) H good (item_gain p)); try eassumption.
        + intros w (parts & Hp). apply Hp.
        + intros r w Hi. destruct (deal_attempts_ok p fr pss crs board dead m Hhole Hfr9 S1 S2 S3 (proj2 S4) S6 S7 S8 1000 r w Hi) as (ok & r' & w' & E & Hi' & Hok).
          exists ok, r', w'. auto.
        + intros r w (parts & Hp). destruct (walk_step_ok p fr pss crs board dead m Hhole Hfr9 S1 S2 (proj2 S4) S6 S7 S8 r w parts Hp (proj1 S4)) as (r' & w' & i & parts' & E & Hp' & _).
          exists r', w'. split; [exact E|]. exists parts'. exact Hp'.
        + intros r w st v (parts & Hp) Hst Hv HB. rewrite <- Hfn in Hst |- *.
          apply (walk_eval_ok p B fr pss crs board dead m ids fuel) with (parts := parts); try assumption.
          * eapply Forall_impl; [|apply filtered_ok, run_weight; exact Hr]. intros rr Hrr. eapply Forall_impl; [|exact Hrr]. cbv beta. intros h Hh. eapply N.lt_trans; [exact Hh|reflexivity].
          * lia.
          * exact (proj2 S4).
          * apply arun_board.
          * congruence.
          * intros b d Hd. destruct (Hbig b d Hd) as [Hlt|HK0]; [exact Hlt|discriminate].
        + intros b L o HG HK. eapply N.le_lt_trans; [|exact b]. eapply N.le_trans; [apply (sum_bounded _ (heaviest ranges))|].
          * eapply Forall_impl; [|exact HG]. intros s Hgs. eapply N.le_trans; [apply item_gain_le|apply good_heavy; exact Hgs].
          * apply N.mul_le_mono_r. lia.
        + intros b L HG HK. rewrite sumf_swap. eapply N.le_lt_trans; [|exact b]. eapply N.le_trans; [apply (sum_bounded _ (heaviest ranges))|].
          * eapply Forall_impl; [|exact HG]. intros s Hgs. eapply N.le_trans; [apply item_gain_masks|apply good_heavy; exact Hgs].
          * apply N.mul_le_mono_r. lia.
        + rewrite Hc. apply Nat.le_refl.
      - intros y (LR & Ls & HI' & Hl). destruct HI' as [I1 I2 I3]. split.
        { intros tid t Ht Hph. destruct (nth_error Ls tid) as [L|] eqn:EL.
          2:{ apply nth_error_None in EL. assert (tid < length (ay_threads y))%nat by (apply nth_error_Some; congruence). pose proof (CombinedProofs.Forall2_length _ _ _ I1) as HFl. lia. }
          exists ids, L. split; [exact Hids|].
          assert (Hg : agood p n ids (item_gain p) L (a_stats t)).
          { clear - I1 Ht Hph EL. revert tid Ls EL Ht I1. generalize (ay_threads y). intros ts tid. revert ts. induction tid as [|tid IH]; intros [|t' ts] [|L' Ls] EL Ht I1; cbn [nth_error] in *; try discriminate.
            - inversion EL; inversion Ht; subst. inversion I1 as [|? ? ? ? Hok _]; subst. unfold athread_ok in Hok. destruct (a_phase t); try exact (proj1 Hok); try exact Hok. congruence.
            - inversion I1; subst. eapply IH; eassumption. }
          destruct Hg as [Hg1 Hg2]. split; [exact Hg1|]. split; [exact Hg2|].
          assert (Hsub : Forall good L /\ (length L <= length (concat Ls))%nat).
          { apply Forall_app in I3 as [_ I3]. apply nth_error_split in EL as (A1 & A2 & -> & _). rewrite concat_app in *. cbn [concat] in *. rewrite !Forall_app in I3. rewrite !app_length. split; [tauto|lia]. }
          split; [apply Hsub|]. rewrite Hc, app_length in Hl. eapply Nat.le_trans; [exact (proj2 Hsub)|]. eapply Nat.le_trans; [|exact Hl]. lia. }
        split.
        { intros t Ht Hph. apply In_nth_error in Ht as (tid & Ht). clear - I1 Ht Hph. revert tid Ht.
          induction I1 as [|L t' Ls ts Hok _ IH]; intros [|tid] Ht; cbn [nth_error] in Ht; try discriminate; [|exact (IH tid Ht)].
          inversion Ht; subst t'. unfold athread_ok in Hok. destruct Hph as [E|[E|E]]; rewrite E in Hok; exact (proj2 Hok). }
        intros Hd.
        assert (Els : concat Ls = []) by (eapply adone_lists; eassumption). rewrite Els, app_nil_r in *. rewrite Hc in Hl.
        exists LR. split; [exact I3|]. split; [exact Hl|exact I2].
    Qed.

    Lemma afinish_ok E r : Forall good E -> results_ok p n r0 r (fun o => sumf (fun s => item_gain p s o) E) ->
      exists r', finish p m flag r = Ret r' /\ areport E r'.
    Proof.
      intros HE HR. destruct arun_n as [Hfn [Hn2 Hn9]]. assert (Hfn' : @length (list combo) fr = n) by exact Hfn.
      assert (HRf : results_ok p (length fr) r0 r (fun o => sumf (fun s => item_gain p s o) E)) by (rewrite Hfn; exact HR).
      destruct (finish_ok p fr board m) with (r0 := r0) (r := r) (flag := flag) (V := fun o => sumf (fun s => item_gain p s o) E)
        as (r' & Ef & F1 & F2 & F3 & F4 & F5 & F6 & F7 & F8 & F9 & F10 & F11 & F12); try (apply HS); try assumption.
      { apply run_off. exact Hr. }
      { eapply Forall_impl; [|apply filtered_ok, run_weight; exact Hr]. intros rr Hrr. eapply Forall_impl; [|exact Hrr]. cbv beta. intros h Hh.
        change (2 ^ 8) with 256 in Hh. change (c_w h) with (weight h). lia. }
      { rewrite Hfn'. exact Hn9. }
      rewrite Hfn' in F6, F7. exists r'. split; [exact Ef|].
      assert (HD : Forall (fun s => length (fst s) = n /\ Forall hole_hand (fst s)) E) by (eapply Forall_impl; [|exact HE]; apply good_shape).
      destruct HRf as (R1 & R2 & R3 & R4 & R5 & R6 & R7 & _).
      constructor; try congruence.
      - intros mm Hmm. rewrite F3. rewrite <- (sampled_ext E (OMask (N.to_nat mm)) _ HD).
        + apply (R5 (OMask (N.to_nat mm))). cbn [inr]. rewrite Hfn. clear - Hmm.
          assert (H2 : N.of_nat (2 ^ n) = 2 ^ N.of_nat n) by (rewrite Nat2N.inj_pow; reflexivity). lia.
        + discriminate.
        + intros d l Hl _. cbn [eff]. rewrite (wmask_players d l n mm Hl Hmm). reflexivity.
      - intros j Hj. rewrite F1, F3. assert (Hj2 : (j < length fr)%nat) by lia. specialize (R6 j Hj2). eapply agr_fun; [exact R6|].
        apply (R5 (OMask (2 ^ j))). cbn [inr]. apply Nat.pow_lt_mono_r; lia.
      - intros i a b Hi Hab. destruct (idx_spec p a b Hab) as [_ Hlt]. destruct (F7 i (idx p a b) Hi Hlt) as (_ & _ & Ht & _). unfold entry_of. rewrite Ht.
        rewrite <- (sampled_ext E (OHand FTotal (NUM_HANDS * i + idx p a b)) _ HD).
        + apply (R5 (OHand FTotal (NUM_HANDS * i + idx p a b))). cbn [inr]. rewrite Hfn. assert (HN : NUM_HANDS = 1326%nat) by reflexivity. rewrite HN. nia.
        + discriminate.
        + intros d l Hl Hd. cbn [eff]. rewrite slot_exists; [|intros j Hj; apply in_seq in Hj; lia|exact Hd|exact Hab].
          replace (existsb (Nat.eqb i) (seq 0 (length d))) with true; [rewrite andb_true_r; reflexivity|]. symmetry. apply existsb_exists. exists i.
          split; [apply in_seq; lia|apply Nat.eqb_refl].
      - intros i a b Hi Hab. destruct (idx_spec p a b Hab) as [_ Hlt]. destruct (F7 i (idx p a b) Hi Hlt) as (Ht & _). unfold entry_of. rewrite Ht.
        rewrite <- (sampled_ext E (OHand FWins (NUM_HANDS * i + idx p a b)) _ HD).
        + apply (R5 (OHand FWins (NUM_HANDS * i + idx p a b))). cbn [inr]. rewrite Hfn. assert (HN : NUM_HANDS = 1326%nat) by reflexivity. rewrite HN. nia.
        + discriminate.
        + intros d l Hl Hd. cbn [eff]. rewrite slot_exists; [|apply winners_lt|exact Hd|exact Hab].
          unfold wins_with. rewrite <- single_winner. unfold b2n. destruct (holds i a b d), (length (winners d l) =? 1)%nat; reflexivity.
      - intros i a b Hi Hab. destruct (idx_spec p a b Hab) as [_ Hlt]. destruct (F7 i (idx p a b) Hi Hlt) as (_ & Ht & _). unfold entry_of. rewrite Ht.
        rewrite <- (sampled_ext E (OHand FTies (NUM_HANDS * i + idx p a b)) _ HD).
        + apply (R5 (OHand FTies (NUM_HANDS * i + idx p a b))). cbn [inr]. rewrite Hfn. assert (HN : NUM_HANDS = 1326%nat) by reflexivity. rewrite HN. nia.
        + discriminate.
        + intros d l Hl Hd. cbn [eff]. rewrite slot_exists; [|apply winners_lt|exact Hd|exact Hab].
          unfold ties_with. rewrite <- andb_assoc, <- many_winners. unfold b2n. destruct (holds i a b d), (length (winners d l) =? 1)%nat; reflexivity.
      - rewrite F4, <- item_count. apply (R5 OCount). exact I.
    Qed.

    Lemma approx_eq threads cancelled rngs fuel sched y0 : ainit (m_n_players m) threads cancelled rngs r0 = Ret y0 ->
      approx_equity p ranges board dead threads target cancelled shuf rngs fuel sched =
        (y <- foldM (aevent p m fuel) sched y0 ;;
         if forallb adone (ay_threads y) then
           r <- finish p m flag (xs_results (ay_shared y)) ;;
           Ret (ROk {| o_results := r; o_progress := xs_msgs (ay_shared y); o_token := xs_stopped (ay_shared y) |})
         else Fail OutOfFuel).
    Proof.
      intros Ey0. unfold approx_equity. assert (Hval' : validate (@length (list combo) ranges) board dead = None) by exact Hval.
      destruct (as_launch _ _ _ _ _ HS) as (crs0 & Ec & Ecrs). rewrite Hval', Ec. cbn [bind]. rewrite <- Ecrs, (as_new _ _ _ _ _ HS). cbn [bind].
      rewrite (as_prepare _ _ _ _ _ HS). cbn [bind]. rewrite Ey0. reflexivity.
    Qed.
  End AStarted.

  Lemma approx_ok threads cancelled rngs fuel sched :
    (approx_equity p ranges board dead threads target cancelled shuf rngs fuel sched = Ret (RErr ConflictingRanges) /\ deals ranges board dead = []) \/
    runs p (N.of_nat (length sched) * heaviest ranges < 2 ^ 64) True (approx_equity p ranges board dead threads target cancelled shuf rngs fuel sched) (fun res =>
      exists o E, res = ROk o /\ Forall (good_sample fr board dead) E /\ (length E <= length sched)%nat /\ areport E (o_results o)).
  Proof.
    destruct astart as [[E Hd]|(pss & crs & m & r0 & flag & HS)].
    - left. split; [|exact Hd]. unfold approx_equity. assert (Hval' : validate (@length (list combo) ranges) board dead = None) by exact Hval. rewrite Hval', E. reflexivity.
    - right. destruct (athreads_ok pss crs m r0 flag HS threads cancelled rngs fuel sched) as (y0 & Ey0 & Hrun).
      rewrite (approx_eq pss crs m r0 flag HS threads cancelled rngs fuel sched y0 Ey0). eapply runs_bind; [eapply runs_any; exact Hrun|]. intros y Hy. cbv beta in Hy.
      destruct (forallb adone (ay_threads y)) eqn:Ed; [|right; split; [exact I|reflexivity]]. destruct (proj2 (proj2 Hy) eq_refl) as (E & HE & Hl & HR).
      destruct (afinish_ok pss crs m r0 flag HS E _ HE HR) as (r' & Ef & Hrep). rewrite Ef. cbn [bind]. apply runs_ret. eexists. exists E.
      split; [reflexivity|]. auto.
  Qed.
End ARun.
