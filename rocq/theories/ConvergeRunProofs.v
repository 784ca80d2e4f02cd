(* The first flush of an approximate run. *)
From Coq Require Import Floats.SpecFloat.
From Verif Require Import Base BaseProofs SumFacts Ghost Float64 FloatProofs FloatSumProofs Hand FastDivide Range Combined Sim Approx SpecPoker ListFacts PokerFacts
  HandProofs HandExprProofs SpecNames SpecHand SpecRange SpecEquity SpecResults SpecRun SpecApprox EnumProofs ShowdownProofs BoardProofs CombinedProofs PositionProofs MergeProofs
  MachineProofs SetupProofs WeightProofs FinalProofs ExactProofs ResultProofs WalkProofs ApproxProofs ApproxRunProofs ApproxResultProofs ConvergeProofs.
Local Open Scope N_scope.

#[local] Opaque NUM_HANDS.

(* ------------------------------------------------------------------------- *)
(** * The equity of the first batch *)

Section Equity.
  Variable p : profile.
  Variable b : batch.
  Variable n : nat.
  Hypothesis Hids : forall j, (j < n)%nat -> get (b_player_ids b) j = Ret j.

  Lemma merge_others wi i wc : forall js s s', Forall (fun j => 0 < j < n)%nat js -> foldM (merge_player p b wi i wc) js s = Ret s' ->
    snd (fst s') = snd (fst s).
  Proof.
    induction js as [|j js IH]; intros s s' HF H; cbn [foldM] in H; [congruence|]. inversion HF as [|? ? Hj HF']; subst. binv H. apply IH in H; [|exact HF'].
    rewrite H. clear H IH. destruct s as [[[w t] e] a]. unfold merge_player in E. destruct (N.testbit _ _); [|inversion E; reflexivity].
    rewrite (Hids j) in E by lia. cbn [bind] in E. rewrite (proj2 (Nat.eqb_neq j 0)) in E by lia. binv E. destruct v0 as [[w' t'] e'].
    destruct (wc =? 1); binv E0; inversion E0; subst; inversion E; reflexivity.
  Qed.
  Lemma merge_one wi i wc s s' : foldM (merge_player p b wi i wc) (seq 0 n) s = Ret s' ->
    snd (fst s') = snd (fst s) \/ exists x, x <= wi /\ snd (fst s') = f_add (snd (fst s)) (f_of_N x).
  Proof.
    intros H. assert (Es : seq 0 n = [] \/ ((0 < n)%nat /\ seq 0 n = 0%nat :: seq 1 (n - 1))).
    { clear. destruct n as [|k]; [left; reflexivity|right]. split; [lia|]. replace (S k - 1)%nat with k by lia. reflexivity. }
    destruct Es as [Es|[Hn0 Es]]; rewrite Es in H; cbn [foldM] in H; [left; congruence|]. binv H. apply merge_others in H.
    2:{ apply Forall_forall. intros j Hj. apply in_seq in Hj. lia. }
    rewrite H. clear H. destruct s as [[[w t] e] a]. unfold merge_player in E. destruct (N.testbit _ _); [|left; inversion E; reflexivity].
    rewrite (Hids 0) in E by lia. cbn [bind Nat.eqb] in E. binv E. destruct v0 as [[w' t'] e']. right.
    destruct (wc =? 1); binv E0; inversion E0; subst; inversion E; cbn [fst snd].
    - exists wi. split; [lia|reflexivity].
    - exists (wi / wc). split; [|reflexivity]. destruct (N.eq_dec wc 0) as [->|Hw]; [destruct wi; cbn; lia|]. apply N.div_le_upper_bound; [exact Hw|]. nia.
  Qed.

  Hypothesis Hlen : (2 ^ n <= length (b_wins_by_mask b))%nat.
  Hypothesis Hfit : p = Debug \/ sumf (fun i => nth i (b_wins_by_mask b) 0) (seq 0 (2 ^ n)) < 2 ^ 64.

  Lemma merge_masks_share g g' : (n <= 9)%nat -> g_batch_hands g = 0 -> g_batch_equity g = f_zero ->
    foldM (merge_mask p n b) (seq 0 (2 ^ n)) g = Ret g' ->
    share_of_one (f_div (g_batch_equity g') (f_add (f_of_N (g_batch_hands g')) f_1e_9)).
  Proof.
    intros Hn Hh He H.
    assert (H512 : (2 ^ n <= 512)%nat) by (apply (pow2_le9 n Hn)).
    set (W := fun i => nth i (b_wins_by_mask b) 0) in *.
    assert (G : forall c a g g', (a + c = 2 ^ n)%nat -> g_batch_hands g = sumf W (seq 0 a) -> g_batch_hands g < 2 ^ 64 -> eq_ok a (g_batch_hands g) (g_batch_equity g) ->
      foldM (merge_mask p n b) (seq a c) g = Ret g' -> g_batch_hands g' < 2 ^ 64 /\ eq_ok (2 ^ n) (g_batch_hands g') (g_batch_equity g')).
    { induction c as [|c IH]; intros a h h' Ha Eh Hlt Hq Hf; cbn [seq foldM] in Hf.
      - inversion Hf; subst h'. replace (2 ^ n)%nat with a by lia. auto.
      - binv Hf. unfold merge_mask in E. rewrite (get_nth _ a 0) in E by lia. cbn [bind] in E. fold (W a) in E. binv E.
        assert (Ev : v0 = g_batch_hands h + W a /\ v0 < 2 ^ 64).
        { assert (Hs : p = Debug \/ g_batch_hands h + W a < 2 ^ 64).
          { destruct Hfit as [Hp|Hs]; [left; exact Hp|right]. rewrite Eh. eapply N.le_lt_trans; [|exact Hs].
            replace (2 ^ n)%nat with (a + S (2 ^ n - S a))%nat by lia. rewrite seq_app, sumf_app. cbn [seq Nat.add]. rewrite sumf_cons. lia. }
          unfold add_, on_overflow in E0. destruct (N.ltb_spec (g_batch_hands h + W a) (2 ^ 64)) as [L|L]; [inversion E0; subst; auto|].
          destruct Hs as [->|Hs]; [discriminate|lia]. }
        destruct Ev as [-> Hv]. binv E. destruct v0 as [[[w t] e] act]. binv E. inversion E; subst v. clear E.
        apply merge_one in E1. cbn [fst snd] in E1. eapply (IH (S a)); [lia| | | |exact Hf]; cbn [g_batch_hands g_batch_equity].
        + rewrite seq_S, sumf_app. cbn [Nat.add]. rewrite sumf_cons, sumf_nil, N.add_0_r, Eh. reflexivity.
        + exact Hv.
        + destruct E1 as [->|(x & Hx & ->)].
          * apply (eq_ok_more a _ (g_batch_hands h)); [exact Hq|lia|lia].
          * apply (eq_ok_more (S a) _ (g_batch_hands h + x)); [|lia|lia]. apply eq_ok_add; [lia|lia|exact Hq]. }
    destruct (G (2 ^ n)%nat 0%nat g g') as [Hlt Hq]; [reflexivity|rewrite Hh; reflexivity|rewrite Hh; reflexivity|left; exact He|exact H|].
    apply (eq_share (2 ^ n)); [lia|exact Hlt|exact Hq].
  Qed.
End Equity.

(* nothing has been merged yet *)
Definition unmerged (r : results) : Prop := r_batch_sum r = f_zero /\ r_batch_sum2 r = f_zero /\ r_batch_count r = f_zero.

Lemma first_update p m ep stopped r st finished r' stop msg :
  (m_n_players m <= 9)%nat -> m_calc_exact m = false -> unmerged r -> (forall j, (j < m_n_players m)%nat -> get (b_player_ids (s_batch st)) j = Ret j) ->
  (2 ^ m_n_players m <= length (b_wins_by_mask (s_batch st)))%nat ->
  p = Debug \/ sumf (fun i => nth i (b_wins_by_mask (s_batch st)) 0) (seq 0 (2 ^ m_n_players m)) < 2 ^ 64 ->
  update_results p m ep stopped r st finished = Ret (r', stop, msg) ->
  tiny (r_stdev r') /\ stop = (if negb finished && f_ltb (r_stdev r') (m_stdev_target m) then true else stopped) /\
  msg = approx_progress (r_stdev r') (m_stdev_target m).
Proof.
  intros Hn Hex (U1 & U2 & U3) Hids Hlen Hfit H. unfold update_results in H. binv H. binv H. binv H. rewrite Hex in H. cbn [negb] in H.
  apply (merge_masks_share p (s_batch st) (m_n_players m) Hids Hlen Hfit) in E0; [|exact Hn|reflexivity|reflexivity].
  inversion H; subst. cbn [r_stdev]. split; [|split; reflexivity]. rewrite U1, U2, U3. apply first_deviation. exact E0.
Qed.

(* ------------------------------------------------------------------------- *)
(** * The first merge of a run *)

(* a message is sent for every merge *)
Lemma astep_unmerged p m fuel sh t sh' t' : (xs_msgs sh = [] -> unmerged (xs_results sh)) -> astep p m fuel sh t = Ret (sh', t') -> xs_msgs sh' = [] -> unmerged (xs_results sh').
Proof.
  intros H E. unfold astep in E. destruct (a_phase t).
  - destruct (_ || _); [discriminate|]. binv E. destruct v as [[ok r] w]. inversion E; subst. exact H.
  - binv E. destruct v as [r st]. inversion E; subst. exact H.
  - binv E. destruct v as [[r stop] msg]. binv E. inversion E; subst. cbn [xs_msgs]. intros H0. apply app_eq_nil in H0 as [_ H0]. discriminate.
  - destruct (xs_stopped sh); [inversion E; subst; exact H|]. binv E. destruct v as [[ok r] w]. inversion E; subst. exact H.
  - binv E. destruct v as [r w]. inversion E; subst. exact H.
  - binv E. destruct v as [[r stop] msg]. inversion E; subst. cbn [xs_msgs]. intros H0. apply app_eq_nil in H0 as [_ H0]. discriminate.
  - inversion E; subst. exact H.
Qed.
Lemma run_unmerged p m fuel : forall sched y y', (xs_msgs (ay_shared y) = [] -> unmerged (xs_results (ay_shared y))) -> foldM (aevent p m fuel) sched y = Ret y' ->
  xs_msgs (ay_shared y') = [] -> unmerged (xs_results (ay_shared y')).
Proof.
  induction sched as [|e sched IH]; intros y y' H E; cbn [foldM] in E; [inversion E; subst; exact H|]. binv E. apply (IH v y'); [|exact E]. clear E IH.
  destruct e as [tid|]; cbn [aevent] in E0; [|inversion E0; subst; exact H]. destruct (nth_error (ay_threads y) tid) as [t|]; [|inversion E0; subst; exact H].
  binv E0. destruct v0 as [sh t']. inversion E0; subst. cbn [ay_shared]. eapply astep_unmerged; [exact H|exact E].
Qed.

Section First.
  Variables (p : profile) (ranges : list (list whand)) (board dead : N) (threads : nat) (target : f64) (cancelled : bool)
    (shuf : nat -> list ccombo -> list ccombo) (rngs : nat -> N -> N) (m : simulator) (flag : N) (y0 : asys) (fuel : nat).
  Hypothesis Hr : Forall range_ok ranges.
  Hypothesis Hs : permutes shuf.
  Hypothesis HL : alaunch p ranges board dead threads target cancelled shuf rngs m flag y0.

  Lemma launch_facts : (m_n_players m <= 9)%nat /\ m_calc_exact m = false /\ m_stdev_target m = target /\
    unmerged (xs_results (ay_shared y0)) /\ r_eval_count (xs_results (ay_shared y0)) = 0 /\ xs_msgs (ay_shared y0) = [] /\ xs_stopped (ay_shared y0) = cancelled /\
    exists st, stats_init (m_n_players m) = Ret st /\ b_eval_count (s_batch st) = 0 /\
      ay_threads y0 = map (fun i => {| a_phase := AStart; a_rng := {| draws := rngs i; drawn := 0 |}; a_walk := walk_init; a_stats := st |}) (seq 0 threads).
  Proof.
    pose proof (proj1 HL) as Hval. destruct (alaunched _ _ _ _ _ _ _ _ _ _ _ _ Hr Hs HL) as (pss & crs & r0 & HS & Ey0).
    destruct (arun_n ranges board dead Hval) as [Hfn [Hn2 Hn9]].
    pose proof (as_m5 _ _ _ _ _ _ _ _ _ _ _ HS) as S5. split; [lia|]. split; [apply HS|]. split; [apply HS|].
    destruct (stats_init_ok (length ranges) Hn9) as (ids & st0 & Hinit & _ & _ & Hzero).
    unfold ainit in Ey0. rewrite S5, Hinit in Ey0. cbn [bind] in Ey0. inversion Ey0; subst y0. cbn [ay_shared ay_threads xs_results xs_msgs xs_stopped].
    rewrite (as_r0 _ _ _ _ _ _ _ _ _ _ _ HS). split; [repeat split|]. split; [reflexivity|]. split; [reflexivity|]. split; [reflexivity|].
    exists st0. split; [rewrite S5; exact Hinit|]. split; [exact (Hzero OCount)|reflexivity].
  Qed.

  Lemma first_merge sched y tid t sh' t' : foldM (aevent p m fuel) sched y0 = Ret y -> xs_msgs (ay_shared y) = [] ->
    p = Debug \/ N.of_nat (length sched) * heaviest ranges < 2 ^ 64 ->
    nth_error (ay_threads y) tid = Some t -> a_phase t = AFlush \/ a_phase t = AFinal -> astep p m fuel (ay_shared y) t = Ret (sh', t') ->
    tiny (r_stdev (xs_results sh')) /\ xs_msgs sh' = [approx_progress (r_stdev (xs_results sh')) target] /\
    xs_stopped sh' = match a_phase t with AFlush => f_ltb (r_stdev (xs_results sh')) target || xs_stopped (ay_shared y) | _ => xs_stopped (ay_shared y) end.
  Proof.
    intros Hf Hmsg Hfit Ht Hph Hstep. destruct launch_facts as (F1 & F2 & F3 & F4 & _).
    pose proof (run_unmerged p m fuel sched y0 y (fun _ => F4) Hf Hmsg) as Hun.
    pose proof (proj1 HL) as Hval. destruct (alaunched _ _ _ _ _ _ _ _ _ _ _ _ Hr Hs HL) as (pss & crs & r0 & HS & Ey0).
    destruct (arun_n ranges board dead Hval) as [Hfn [Hn2 Hn9]]. pose proof (as_m5 _ _ _ _ _ _ _ _ _ _ _ HS) as S5.
    destruct (athreads_ok p ranges board dead Hr Hval shuf target pss crs m r0 flag HS threads cancelled rngs fuel sched) as (y0' & Ey0' & Hrun).
    rewrite Ey0 in Ey0'. inversion Ey0'; subst y0'. destruct (runs_holds _ _ _ _ _ _ Hrun Hf) as (Hst & _).
    destruct (Hst tid t Ht) as (ids & L & Hids & (Sh1 & Sh2 & Sh3) & Hag & HG & HLen); [destruct Hph as [-> | ->]; discriminate|].
    assert (HU : forall fin r' stop msg, update_results p m (xs_enum_pos (ay_shared y)) (xs_stopped (ay_shared y)) (xs_results (ay_shared y)) (a_stats t) fin = Ret (r', stop, msg) ->
      tiny (r_stdev r') /\ stop = (if negb fin && f_ltb (r_stdev r') target then true else xs_stopped (ay_shared y)) /\ msg = approx_progress (r_stdev r') target).
    { intros fin r' stop msg E. rewrite <- F3. eapply first_update; [exact F1|exact F2|exact Hun| | | |exact E].
      - intros j Hj. rewrite Sh3. apply Hids. lia.
      - rewrite Sh1. apply (pow2_le9 _ F1).
      - destruct Hfit as [Hp|Hfit]; [left; exact Hp|right]. eapply N.le_lt_trans; [|exact Hfit]. rewrite S5.
        apply N.le_trans with (sumf (fun i => sumf (fun s => item_gain p s (OMask i)) L) (seq 0 (2 ^ length ranges))).
        + apply sumf_le. intros i _. apply (agr_bound p). exact (Hag (OMask i)).
        + rewrite sumf_swap. eapply N.le_trans; [apply (sum_bounded _ (heaviest ranges))|apply N.mul_le_mono_r; lia].
          eapply Forall_impl; [|exact HG]. intros s Hgs. eapply N.le_trans; [apply item_gain_masks|eapply good_heavy; exact Hgs]. }
    unfold astep in Hstep. destruct Hph as [E|E]; rewrite E in Hstep |- *; binv Hstep; destruct v as [[r' stop] msg]; destruct (HU _ _ _ _ E0) as (U1 & U2 & U3).
    - binv Hstep. inversion Hstep; subst sh' t'. cbn [xs_results xs_msgs xs_stopped]. rewrite Hmsg, U2, U3. split; [exact U1|]. split; [reflexivity|].
      cbn [negb andb]. destruct (f_ltb _ _); reflexivity.
    - inversion Hstep; subst sh' t'. cbn [xs_results xs_msgs xs_stopped]. rewrite Hmsg, U2, U3. split; [exact U1|]. split; reflexivity.
  Qed.
End First.

(* ------------------------------------------------------------------------- *)
(** * Counting evaluations *)

Lemma eval_counts p m fuel r w st r' st' : walk_eval p m fuel r w st = Ret (r', st') -> add_ 64 p (b_eval_count (s_batch st)) 1 = Ret (b_eval_count (s_batch st')).
Proof.
  intros H. unfold walk_eval in H. binv H. binv H. binv H. destruct v1 as [bd r1]. binv H. inversion H; subst. unfold evaluate_hands in E2.
  binv E2. binv E2. binv E2. binv E2. binv E2. inversion E2; subst. cbn [s_batch b_eval_count]. assumption.
Qed.
Lemma merge_counts p m ep stop r st fin r' stop' msg : update_results p m ep stop r st fin = Ret (r', stop', msg) ->
  add_ 64 p (r_eval_count r) (b_eval_count (s_batch st)) = Ret (r_eval_count r').
Proof.
  intros H. unfold update_results in H. binv H. binv H. binv H. destruct (negb (m_calc_exact m)); [|binv H]; inversion H; subst; cbn [r_eval_count]; assumption.
Qed.
Lemma finish_counts p m flag r r' : finish p m flag r = Ret r' -> r_eval_count r' = r_eval_count r.
Proof. intros H. unfold finish in H. binv H. binv H. destruct v0. binv H. destruct v0. inversion H; subst. reflexivity. Qed.

Lemma low_bits c : 0 < c <= 4096 -> (N.land c 0xfff =? 0) = (c =? 4096).
Proof.
  intros H. change 0xfff with (N.ones 12). rewrite N.land_ones. change (2 ^ 12) with 4096.
  destruct (N.eqb_spec c 4096) as [->|Hne]; [reflexivity|]. rewrite N.mod_small by lia. apply N.eqb_neq. lia.
Qed.

(* ------------------------------------------------------------------------- *)
(** * One thread *)

(* a run of one thread, up to its first flush *)
Definition one_ok (sh : xshared) (t : athread) : Prop :=
  let re := r_eval_count (xs_results sh) in let be := b_eval_count (s_batch (a_stats t)) in
  match a_phase t with
  | AStart => xs_msgs sh = [] /\ re = 0 /\ be = 0
  | AEval => xs_msgs sh = [] /\ re = 0 /\ be < 4096
  | AWalk => xs_msgs sh = [] /\ re = 0 /\ 0 < be < 4096
  | AFlush => xs_msgs sh = [] /\ re = 0 /\ be = 4096
  | ACheck => xs_stopped sh = true /\ re = 4096 /\ be = 0
  | AFinal => re <= 4096 /\ be = 0
  | ADone => re <= 4096
  end.
(* how many steps the thread has made *)
Definition place (t : athread) : N :=
  match a_phase t with
  | AStart => 0
  | AEval => 2 * b_eval_count (s_batch (a_stats t)) + 1
  | AWalk | AFlush => 2 * b_eval_count (s_batch (a_stats t))
  | ACheck => 8193
  | AFinal => 8194
  | ADone => 8195
  end.

Section One.
  Variables (p : profile) (ranges : list (list whand)) (board dead : N) (target : f64) (cancelled : bool)
    (shuf : nat -> list ccombo -> list ccombo) (rngs : nat -> N -> N) (m : simulator) (flag : N) (y0 : asys) (fuel : nat).
  Hypothesis Hr : Forall range_ok ranges.
  Hypothesis Hs : permutes shuf.
  Hypothesis HL : alaunch p ranges board dead 1 target cancelled shuf rngs m flag y0.
  Hypothesis Ht : f_ltb f_2_14 target = true.

  Lemma one_step sched y sh t sh' t' : foldM (aevent p m fuel) sched y0 = Ret y -> y = {| ay_shared := sh; ay_threads := [t] |} ->
    p = Debug \/ N.of_nat (length sched) * heaviest ranges < 2 ^ 64 -> one_ok sh t -> astep p m fuel sh t = Ret (sh', t') ->
    one_ok sh' t' /\
    (place t' = place t + 1 \/ a_phase t = ADone /\ sh' = sh /\ t' = t \/ a_phase t = AStart /\ exists r w, randomize_hole_cards p m (a_rng t) (a_walk t) = Ret (false, r, w)).
  Proof.
    intros Hf Ey Hfit Hok Hstep. destruct (launch_facts p ranges board dead 1 target cancelled shuf rngs m flag y0 Hr Hs HL) as (_ & _ & _ & _ & _ & _ & _ & st0 & Hinit & Hst0 & _).
    unfold one_ok, place in *. unfold astep in Hstep. destruct (a_phase t) eqn:Eph.
    - destruct (_ || _); [discriminate|]. binv Hstep. destruct v as [[ok r] w]. inversion Hstep; subst sh' t'. cbn [a_phase a_stats]. destruct Hok as (H1 & H2 & H3). destruct ok.
      + split; [split; [exact H1|split; [exact H2|lia]]|]. left. lia.
      + split; [lia|]. right. right. split; [reflexivity|]. exists r, w. assumption.
    - binv Hstep. destruct v as [r st]. inversion Hstep; subst sh' t'. cbn [a_phase a_stats]. destruct Hok as (H1 & H2 & H3). apply eval_counts in E.
      rewrite add_ok in E by lia. injection E as E. rewrite low_bits by lia. destruct (N.eqb_spec (b_eval_count (s_batch st)) 4096) as [E1|E1].
      + split; [split; [exact H1|split; [exact H2|exact E1]]|]. left. lia.
      + split; [split; [exact H1|split; [exact H2|lia]]|]. left. lia.
    - destruct Hok as (H1 & H2 & H3).
      assert (H0 : nth_error (ay_threads y) 0 = Some t) by (subst y; reflexivity). assert (Hsh : ay_shared y = sh) by (subst y; reflexivity).
      assert (Hst : astep p m fuel (ay_shared y) t = Ret (sh', t')) by (unfold astep; rewrite Eph, Hsh; exact Hstep).
      destruct (first_merge p ranges board dead 1 target cancelled shuf rngs m flag y0 fuel Hr Hs HL sched y 0 t sh' t' Hf) as (U1 & _ & U2); try assumption; [rewrite Hsh; exact H1|left; exact Eph|].
      rewrite Eph, (tiny_ltb _ _ U1 Ht) in U2. cbn [orb] in U2.
      binv Hstep. destruct v as [[r stop] msg]. rewrite Hinit in Hstep. cbn [bind] in Hstep. inversion Hstep; subst sh' t'. cbn [a_phase a_stats xs_results xs_stopped] in *.
      apply merge_counts in E. rewrite add_ok in E by lia. injection E as E.
      split; [split; [exact U2|split; [lia|exact Hst0]]|]. left. lia.
    - destruct Hok as (H1 & H2 & H3). rewrite H1 in Hstep. inversion Hstep; subst sh' t'. cbn [a_phase a_stats]. split; [lia|]. left. lia.
    - binv Hstep. destruct v as [r w]. inversion Hstep; subst sh' t'. cbn [a_phase a_stats]. destruct Hok as (H1 & H2 & H3).
      split; [split; [exact H1|split; [exact H2|lia]]|]. left. lia.
    - binv Hstep. destruct v as [[r stop] msg]. inversion Hstep; subst sh' t'. cbn [a_phase a_stats xs_results].
      apply merge_counts in E. rewrite add_ok in E by lia. injection E as E. split; [lia|]. left. lia.
    - inversion Hstep; subst sh' t'. rewrite Eph. split; [exact Hok|]. right. left. auto.
  Qed.

  Lemma one_start : exists sh t, y0 = {| ay_shared := sh; ay_threads := [t] |} /\ one_ok sh t /\ a_phase t = AStart /\ a_rng t = {| draws := rngs 0%nat; drawn := 0 |} /\
    a_walk t = walk_init.
  Proof.
    destruct (launch_facts p ranges board dead 1 target cancelled shuf rngs m flag y0 Hr Hs HL) as (_ & _ & _ & _ & F1 & F2 & _ & st0 & Hinit & Hst0 & Hts).
    destruct y0 as [sh ts]. cbn [ay_shared ay_threads] in *. subst ts. cbn [seq map]. eexists _, _. split; [reflexivity|]. cbn [a_phase a_rng a_walk]. split; [|auto].
    unfold one_ok. cbn [a_phase a_stats]. auto.
  Qed.

  Lemma one_run sched y : foldM (aevent p m fuel) sched y0 = Ret y -> p = Debug \/ N.of_nat (length sched) * heaviest ranges < 2 ^ 64 ->
    exists sh t, y = {| ay_shared := sh; ay_threads := [t] |} /\ one_ok sh t.
  Proof.
    revert y. induction sched as [|e sched IH] using rev_ind; intros y Hf Hfit.
    - cbn [foldM] in Hf. inversion Hf; subst y. destruct one_start as (sh & t & E & Hok & _). eauto.
    - rewrite foldM_app in Hf. binv Hf. cbn [foldM] in Hf. binv Hf. inversion Hf; subst v0. rewrite app_length in Hfit. cbn [length] in Hfit.
      assert (Hfit' : p = Debug \/ N.of_nat (length sched) * heaviest ranges < 2 ^ 64) by (destruct Hfit as [Hp|Hfit]; [left; exact Hp|right; nia]).
      destruct (IH v E Hfit') as (sh & t & Ey & Hok). pose proof E0 as E1. rewrite Ey in E1. destruct e as [tid|]; cbn [aevent ay_shared ay_threads] in E1.
      + destruct (nth_error [t] tid) as [t1|] eqn:Et; [|inversion E1; subst y; eauto]. destruct tid as [|tid]; [|destruct tid; discriminate]. inversion Et; subst t1.
        binv E1. destruct v0 as [sh' t']. inversion E1; subst y. exists sh', t'. split; [reflexivity|]. eapply one_step; [exact E|exact Ey|exact Hfit'|exact Hok|exact E2].
      + inversion E1; subst y. eexists _, t. split; [reflexivity|]. unfold one_ok in *. cbn [xs_results xs_msgs xs_stopped]. destruct (a_phase t); tauto.
  Qed.

  (* a complete board and a successful first deal: the thread goes on to its end *)
  Hypothesis Hfull : length (mask_cards board) = 5%nat.
  Hypothesis Hdeal : exists r w, randomize_hole_cards p m {| draws := rngs 0%nat; drawn := 0 |} walk_init = Ret (true, r, w).
  Hypothesis Hfit : 8195 * heaviest ranges < 2 ^ 64.

  Lemma full_runs sched : N.of_nat (length sched) <= 8195 -> exists y, foldM (aevent p m fuel) sched y0 = Ret y.
  Proof.
    intros Hlen. pose proof (proj1 HL) as Hval. destruct (alaunched _ _ _ _ _ _ _ _ _ _ _ _ Hr Hs HL) as (pss & crs & r0 & HS & Ey0).
    destruct (athreads_ok p ranges board dead Hr Hval shuf target pss crs m r0 flag HS 1 cancelled rngs fuel sched) as (y0' & Ey0' & Hrun).
    rewrite Ey0 in Ey0'. inversion Ey0'; subst y0'. destruct Hrun as [[(y & E & _)|(_ & _ & HB)]|[Hshort _]]; [eauto| |lia].
    exfalso. apply HB. eapply N.le_lt_trans; [|exact Hfit]. apply N.mul_le_mono_r. exact Hlen.
  Qed.

  Lemma full_place k : N.of_nat k <= 8195 -> exists sh t, foldM (aevent p m fuel) (repeat (Run 0) k) y0 = Ret {| ay_shared := sh; ay_threads := [t] |} /\ one_ok sh t /\
    place t = N.of_nat k /\ (k = 0%nat -> a_rng t = {| draws := rngs 0%nat; drawn := 0 |} /\ a_walk t = walk_init).
  Proof.
    induction k as [|k IH]; intros Hk.
    - destruct one_start as (sh & t & E & Hok & Eph & H). exists sh, t. cbn [repeat foldM]. rewrite E. split; [reflexivity|]. split; [exact Hok|].
      unfold place. rewrite Eph. split; [reflexivity|]. intros _. exact H.
    - destruct IH as (sh & t & E & Hok & Hpl & H0); [lia|]. replace (S k) with (k + 1)%nat by lia. rewrite repeat_app. cbn [repeat].
      destruct (full_runs (repeat (Run 0) k ++ [Run 0])) as (y & Ey); [rewrite app_length, repeat_length; cbn [length]; lia|]. rewrite Ey.
      rewrite foldM_app, E in Ey. cbn [bind foldM aevent ay_shared ay_threads nth_error] in Ey. binv Ey. inversion Ey; subst v. clear Ey. binv E0. destruct v as [sh' t']. inversion E0; subst y. clear E0.
      assert (Hfit' : p = Debug \/ N.of_nat (length (repeat (Run 0) k)) * heaviest ranges < 2 ^ 64).
      { right. rewrite repeat_length. eapply N.le_lt_trans; [|exact Hfit]. apply N.mul_le_mono_r. lia. }
      destruct (one_step _ _ sh t sh' t' E eq_refl Hfit' Hok E1) as [Hok' [Hp|[(Hd & _)|(Hd & r & w & Hd')]]].
      + exists sh', t'. split; [reflexivity|]. split; [exact Hok'|]. split; [lia|lia].
      + exfalso. unfold place in Hpl. rewrite Hd in Hpl. lia.
      + exfalso. unfold place in Hpl. rewrite Hd in Hpl. destruct H0 as [H1 H2]; [lia|]. rewrite H1, H2 in Hd'. destruct Hdeal as (r1 & w1 & Hd1). congruence.
  Qed.
End One.
