(* Approximate runs: the batches of 4096 boards, and how many of them there are. *)
From Coq Require Import Floats.SpecFloat Permutation.
From Verif Require Import Base BaseProofs SumFacts Ghost Float64 FloatProofs FloatSumProofs Hand FastDivide Range Combined Sim Approx SpecPoker ListFacts PokerFacts
  HandProofs HandExprProofs SpecNames SpecHand SpecRange SpecEquity SpecResults SpecRun SpecApprox EnumProofs ShowdownProofs BoardProofs CombinedProofs PositionProofs MergeProofs
  MachineProofs SetupProofs WeightProofs FinalProofs ExactProofs ResultProofs WalkProofs ApproxProofs ApproxRunProofs ApproxResultProofs ConvergeProofs ConvergeRunProofs ConvergeResultProofs.
Local Open Scope N_scope.

#[local] Opaque NUM_HANDS.

(* ------------------------------------------------------------------------- *)
(** * Deals which cannot fail *)

(* no card is in two of the ranges *)
Definition apart (ranges : list (list whand)) : Prop := forall i j a b, i <> j -> In a (nth i ranges []) -> In b (nth j ranges []) -> shares (two_cards a) (two_cards b) = false.

Lemma clash_dealt u d : (forall h, In h d -> clash u (two_cards h) = false) -> clash u (dealt d) = false.
Proof.
  induction d as [|h d IH]; intros H; [reflexivity|]. change (dealt (h :: d)) with (two_cards h ++ dealt d). rewrite clash_app, (H h) by (left; reflexivity).
  apply IH. intros h' Hh. apply H. right. exact Hh.
Qed.
Lemma shares_dealt l d : (forall h, In h d -> shares (two_cards h) l = false) -> shares (dealt d) l = false.
Proof.
  intros H. apply not_true_is_false. intros Hs. unfold shares in Hs. apply existsb_exists in Hs as (c & Hc & Hx). unfold dealt in Hc. apply in_flat_map in Hc as (h & Hh & Hc).
  assert (Hs : shares (two_cards h) l = true) by (unfold shares; apply existsb_exists; exists c; auto). rewrite (H h Hh) in Hs. discriminate.
Qed.
Lemma fairs_member ranges ps hs h : In hs (fairs ranges ps) -> In h hs -> exists i, In i ps /\ In h (range_of ranges i).
Proof.
  intros H Hh. apply fair_In in H as [H _]. revert hs H Hh. induction ps as [|i ps IH]; intros hs H Hh; cbn [map] in H; inversion H as [|? ? ? ? H1 H2]; subst; [destruct Hh|].
  destruct Hh as [<-|Hh]; [exists i; split; [left; reflexivity|exact H1]|]. destruct (IH _ H2 Hh) as (j & Hj & Hr). exists j. split; [right; exact Hj|exact Hr].
Qed.

Section Apart.
  Variable p : profile.
  Variable ranges : list (list whand).
  Hypothesis Hok : Forall (Forall hole_hand) ranges.
  Hypothesis Hapart : apart ranges.

  Lemma attempt_apart : forall pss crs i r w, Forall2 (range_in ranges) pss crs -> Forall (fun cr => 0 < cr_size cr) crs ->
    NoDup (concat pss) -> Forall (fun i => (i < 9)%nat) (concat pss) -> (length (concat pss) <= 9)%nat -> (i + length crs <= 9)%nat -> sized w ->
    (forall k h, In k (concat pss) -> In h (range_of ranges k) -> clash (w_used w) (two_cards h) = false) ->
    exists r' w', deal_attempt p crs i r w = Ret (true, r', w').
  Proof.
    induction pss as [|ps pss IH]; intros crs i r w HF Hpos Hnd H9 Hl9 Hi Hsz Hfree; inversion HF as [|? cr ? crs' Hcr HF']; subst.
    - exists r, w. reflexivity.
    - inversion Hpos as [|? ? Hp0 Hpos']; subst. cbn [concat] in Hnd, H9, Hl9, Hfree. apply Forall_app in H9 as [H9 H9'].
      pose proof (NoDup_app_l _ _ Hnd) as Hndp. pose proof (NoDup_app_r _ _ Hnd) as Hnd'. rewrite app_length in Hl9. cbn [length] in Hi.
      pose proof Hcr as (_ & _ & _ & Hsize & Hcombos).
      cbn [deal_attempt sample]. destruct Hsz as (Z1 & Z2 & Z3 & Z4). rewrite upd_ok by lia. cbn [bind].
      set (x := N.to_nat (draws r (drawn r) mod cr_size cr)).
      assert (Hx : (x < length (cr_combos cr))%nat).
      { unfold x. assert (draws r (drawn r) mod cr_size cr < cr_size cr) by (apply N.mod_lt; lia). lia. }
      destruct (nth_error (cr_combos cr) x) as [c|] eqn:Ec; [|apply nth_error_None in Ec; lia].
      rewrite (proj2 (get_ret _ _ _) Ec). cbn [bind].
      assert (Hex : exists hs, In hs (fairs ranges ps) /\ combo_is (length ps) hs c).
      { rewrite Forall_forall in Hcombos. apply Hcombos. eapply nth_error_In. exact Ec. }
      destruct Hex as (hs & Hhs & Hc). pose proof Hc as (Hlh & _ & _ & _ & Hmask & _). destruct (fairs_hole ranges Hok ps hs Hhs) as (Hhole & _ & Hdist).
      set (w1 := with_indexes w (set_nth (w_indexes w) i x)).
      assert (Hsz1 : sized w1) by (unfold w1, sized; cbn [with_indexes w_indexes w_hands w_weights w_lookup]; rewrite set_nth_length; auto).
      change (w_used w1) with (w_used w). rewrite (clash_land _ _ _ Hmask), negb_involutive.
      assert (Ecl : clash (w_used w) (dealt hs) = false).
      { apply clash_dealt. intros h Hh. destruct (fairs_member _ _ _ _ Hhs Hh) as (k & Hk & Hin). apply (Hfree k); [apply in_or_app; left; exact Hk|exact Hin]. }
      rewrite Ecl.
      destruct (place_combo_ok p ranges ps cr hs c w1 Hcr Hc Hhole H9 Hndp ltac:(lia) Hsz1) as (w2 & Ep & U2 & X2 & Z2' & _ & _).
      rewrite Ep. cbn [bind]. apply IH; try assumption; try lia.
      cbn [with_used w_used]. rewrite U2. change (w_used w1) with (w_used w). intros k h Hk Hh.
      rewrite (clash_lor _ _ _ _ Hmask), (Hfree k h) by (try (apply in_or_app; right); assumption). cbn [orb]. apply shares_dealt. intros h' Hh'.
      destruct (fairs_member _ _ _ _ Hhs Hh') as (j & Hj & Hin). apply (Hapart j k); [|exact Hin|exact Hh]. intros ->. exact (NoDup_app_disj _ _ _ Hnd Hj Hk).
  Qed.
End Apart.

Lemma filtered_nth board dead ranges i : nth i (filtered board dead ranges) [] = filter (free board dead) (nth i ranges []).
Proof. unfold filtered. change (@nil whand) with (filter (free board dead) (@nil whand)) at 1. apply map_nth. Qed.
Lemma apart_filtered board dead ranges : apart ranges -> apart (filtered board dead ranges).
Proof. intros H i j a b Hij Ha Hb. rewrite filtered_nth in Ha, Hb. apply filter_In in Ha as [Ha _]. apply filter_In in Hb as [Hb _]. exact (H i j a b Hij Ha Hb). Qed.

Lemma deal_apart p ranges board dead m r w pss crs shuf target r0 flag : Forall range_ok ranges -> validate (length ranges) board dead = None ->
  astarted p ranges board dead shuf target pss crs m r0 flag -> apart ranges -> idle (filtered board dead ranges) w ->
  exists r' w', randomize_hole_cards p m r w = Ret (true, r', w').
Proof.
  intros Hr Hval HS Hap Hw. destruct (arun_n ranges board dead Hval) as [Hfn [Hn2 Hn9]]. destruct HS as [_ S1 S2 S3 S4 S5 S6 S7 S8 S9 S10 S11 S12 S13 S14 S15 S16 S17].
  assert (Hhole : Forall (Forall hole_hand) (filtered board dead ranges)) by (apply filtered_ok, run_hole; exact Hr).
  unfold randomize_hole_cards. remember 1000%nat as tries eqn:Et. assert (Htr : (0 < tries)%nat) by (subst tries; apply Nat.lt_0_succ). clear Et. destruct tries as [|k]; [lia|]. cbn [deal_attempts].
  rewrite S6, S7, S8. assert (Hfr9 : (length (filtered board dead ranges) <= 9)%nat) by lia.
  destruct (attempt_apart p (filtered board dead ranges) Hhole (apart_filtered board dead ranges Hap) pss crs 0 r (with_used w (N.lor board dead)) S2 S3) as (r' & w' & E).
  - eapply Permutation_NoDup; [symmetry; exact S1|apply seq_NoDup].
  - rewrite Forall_forall. intros j Hj. apply (Permutation_in _ S1) in Hj. apply in_seq in Hj. lia.
  - rewrite (Permutation_length S1), seq_length. exact Hfr9.
  - exact (proj2 S4).
  - exact (proj1 Hw).
  - cbn [with_used w_used]. intros i h _ Hh. unfold range_of in Hh. rewrite filtered_nth in Hh. apply filter_In in Hh as [_ Hh]. unfold free, avoids in Hh.
    unfold clash, two_cards. cbn [existsb]. rewrite !N.lor_spec.
    destruct (N.testbit board (first_card h)), (N.testbit board (second_card h)), (N.testbit dead (first_card h)), (N.testbit dead (second_card h)); try discriminate; reflexivity.
  - exists r', w'. rewrite E. reflexivity.
Qed.

(* ------------------------------------------------------------------------- *)
(** * Whole batches *)

Lemma merge_div p m ep stop r st fin r' stop' msg : update_results p m ep stop r st fin = Ret (r', stop', msg) ->
  (4096 | r_eval_count r) -> (4096 | b_eval_count (s_batch st)) -> (4096 | r_eval_count r').
Proof.
  intros H Hr Hb. apply merge_counts in H. unfold add_, on_overflow in H. destruct (_ <? _).
  - inversion H. apply N.divide_add_r; assumption.
  - destruct p; [discriminate|]. assert (H1 : r_eval_count r' = (r_eval_count r + b_eval_count (s_batch st)) mod 2 ^ 64) by congruence. rewrite H1.
    assert (Hd : (4096 | r_eval_count r + b_eval_count (s_batch st))) by (apply N.divide_add_r; assumption). destruct Hd as [k ->].
    exists (k mod 2 ^ 52). assert (E64 : 2 ^ 64 = 2 ^ 52 * 4096) by reflexivity. rewrite E64. apply N.mul_mod_distr_r; discriminate.
Qed.

(* the boards in the batch of a thread *)
Definition whole (t : athread) : Prop :=
  let be := b_eval_count (s_batch (a_stats t)) in
  match a_phase t with
  | AStart | ACheck | AFinal => be = 0
  | AEval | AWalk => be < 4096
  | AFlush => be = 4096
  | ADone => True
  end.
Lemma whole_step p m fuel sh t sh' t' st0 : stats_init (m_n_players m) = Ret st0 -> b_eval_count (s_batch st0) = 0 -> whole t -> (4096 | r_eval_count (xs_results sh)) ->
  astep p m fuel sh t = Ret (sh', t') -> whole t' /\ (4096 | r_eval_count (xs_results sh')).
Proof.
  intros Hinit Hst0 Hok Hd Hstep. unfold whole in *. unfold astep in Hstep. destruct (a_phase t) eqn:Eph.
  - destruct (_ || _); [discriminate|]. binv Hstep. destruct v as [[ok r] w]. inversion Hstep; subst sh' t'. cbn [a_phase a_stats]. split; [destruct ok; lia|exact Hd].
  - binv Hstep. destruct v as [r st]. inversion Hstep; subst sh' t'. cbn [a_phase a_stats]. apply eval_counts in E.
    rewrite add_ok in E by lia. injection E as E. rewrite low_bits by lia. split; [|exact Hd]. destruct (N.eqb_spec (b_eval_count (s_batch st)) 4096); lia.
  - binv Hstep. destruct v as [[r stop] msg]. rewrite Hinit in Hstep. cbn [bind] in Hstep. inversion Hstep; subst sh' t'. cbn [a_phase a_stats xs_results].
    split; [exact Hst0|]. eapply merge_div; [exact E|exact Hd|]. rewrite Hok. apply N.divide_refl.
  - destruct (xs_stopped sh); [inversion Hstep; subst; auto|]. binv Hstep. destruct v as [[ok r] w]. inversion Hstep; subst sh' t'. cbn [a_phase a_stats]. split; [destruct ok; lia|exact Hd].
  - binv Hstep. destruct v as [r w]. inversion Hstep; subst sh' t'. cbn [a_phase a_stats]. auto.
  - binv Hstep. destruct v as [[r stop] msg]. inversion Hstep; subst sh' t'. cbn [a_phase a_stats xs_results].
    split; [exact I|]. eapply merge_div; [exact E|exact Hd|]. rewrite Hok. apply N.divide_0_r.
  - inversion Hstep; subst sh' t'. rewrite Eph. auto.
Qed.
Lemma nth_set_nth {A} (l : list A) k i x t : nth_error (set_nth l k x) i = Some t -> (i = k /\ t = x) \/ (i <> k /\ nth_error l i = Some t).
Proof.
  intros H. destruct (Nat.eq_dec i k) as [->|Hne]; [|right; rewrite set_nth_other in H by congruence; auto].
  assert (Hk : (k < length l)%nat) by (rewrite <- (set_nth_length l k x); apply nth_error_Some; congruence).
  rewrite set_nth_same in H by exact Hk. inversion H; auto.
Qed.
Lemma whole_run p m fuel st0 : stats_init (m_n_players m) = Ret st0 -> b_eval_count (s_batch st0) = 0 -> forall sched y y',
  (forall i t, nth_error (ay_threads y) i = Some t -> whole t) -> (4096 | r_eval_count (xs_results (ay_shared y))) -> foldM (aevent p m fuel) sched y = Ret y' ->
  (forall i t, nth_error (ay_threads y') i = Some t -> whole t) /\ (4096 | r_eval_count (xs_results (ay_shared y'))).
Proof.
  intros Hinit Hst0. induction sched as [|e sched IH]; intros y y' Hw Hd E; cbn [foldM] in E; [inversion E; subst; auto|]. binv E.
  assert (Hv : (forall i t, nth_error (ay_threads v) i = Some t -> whole t) /\ (4096 | r_eval_count (xs_results (ay_shared v)))).
  { clear E IH. destruct e as [tid|]; cbn [aevent] in E0; [|inversion E0; subst; auto]. destruct (nth_error (ay_threads y) tid) as [t|] eqn:Et; [|inversion E0; subst; auto].
    binv E0. destruct v0 as [sh t']. inversion E0; subst v. cbn [ay_threads ay_shared].
    destruct (whole_step p m fuel _ _ _ _ st0 Hinit Hst0 (Hw _ _ Et) Hd E) as [H1 H2]. split; [|exact H2].
    intros i t1 H. apply nth_set_nth in H as [[_ ->]|[_ H]]; [exact H1|]. exact (Hw i t1 H). }
  destruct Hv as [Hw' Hd']. exact (IH v y' Hw' Hd' E).
Qed.
Lemma whole_batches p ranges board dead threads target cancelled shuf rngs fuel sched o : Forall range_ok ranges -> permutes shuf ->
  approx_equity p ranges board dead threads target cancelled shuf rngs fuel sched = Ret (ROk o) -> (4096 | r_eval_count (o_results o)).
Proof.
  intros Hr Hs H. destruct (launch_of _ _ _ _ _ _ _ _ _ _ _ _ H) as (m & flag & y0 & y & HL & Hf & Hd & Hfin & _).
  destruct (launch_facts p ranges board dead threads target cancelled shuf rngs m flag y0 Hr Hs HL) as (_ & _ & _ & _ & F1 & _ & _ & st0 & Hinit & Hst0 & Hts).
  rewrite (finish_counts _ _ _ _ _ Hfin). eapply (whole_run p m fuel st0 Hinit Hst0 sched y0 y); [| |exact Hf].
  - intros i t Ht. rewrite Hts in Ht. apply nth_error_In, in_map_iff in Ht as (k & <- & _). exact Hst0.
  - rewrite F1. apply N.divide_0_r.
Qed.

(* ------------------------------------------------------------------------- *)
(** * Ranges which are apart: every thread evaluates one batch *)

Lemma sumf_set_nth {A} (f : A -> N) x : forall l k t, nth_error l k = Some t -> sumf f (set_nth l k x) + f t = sumf f l + f x.
Proof.
  induction l as [|y l IH]; intros [|k] t H; cbn [nth_error] in H; try discriminate; cbn [set_nth]; rewrite !sumf_cons.
  - inversion H; subst. lia.
  - specialize (IH k t H). lia.
Qed.
Lemma sumf_zero_in {A} (f : A -> N) l : (forall i t, nth_error l i = Some t -> f t = 0) -> sumf f l = 0.
Proof.
  induction l as [|y l IH]; intros H; [reflexivity|]. rewrite sumf_cons, (H 0%nat y eq_refl), IH; [reflexivity|]. intros i t Ht. exact (H (S i) t Ht).
Qed.
Lemma sumf_bound {A} (f : A -> N) l : (forall t, f t <= 1) -> sumf f l <= N.of_nat (length l).
Proof. intros H. induction l as [|y l IH]; [apply N.le_refl|]. rewrite sumf_cons. pose proof (H y). cbn [length]. lia. Qed.

Definition counted (t : athread) : N := match a_phase t with ACheck | AFinal | ADone => 1 | _ => 0 end.
Definition single (t : athread) : Prop :=
  let be := b_eval_count (s_batch (a_stats t)) in
  match a_phase t with
  | AStart => be = 0 /\ a_walk t = walk_init
  | ACheck | AFinal => be = 0
  | AEval => be < 4096
  | AWalk => 0 < be < 4096
  | AFlush => be = 4096
  | ADone => True
  end.
Record many_ok (n : nat) (y : asys) : Prop := mkMany {
  mo_length : length (ay_threads y) = n;
  mo_single : forall i t, nth_error (ay_threads y) i = Some t -> single t;
  mo_count : r_eval_count (xs_results (ay_shared y)) = 4096 * sumf counted (ay_threads y);
  mo_first : xs_msgs (ay_shared y) = [] -> forall i t, nth_error (ay_threads y) i = Some t -> counted t = 0;
  mo_later : xs_msgs (ay_shared y) <> [] -> xs_stopped (ay_shared y) = true }.

Lemma update_stop p m ep r st fin r' stop' msg : m_calc_exact m = false -> update_results p m ep true r st fin = Ret (r', stop', msg) -> stop' = true.
Proof.
  intros Hex H. unfold update_results in H. binv H. binv H. binv H. rewrite Hex in H. cbn [negb] in H. inversion H; subst. destruct (_ && _); reflexivity.
Qed.

Section Many.
  Variables (p : profile) (ranges : list (list whand)) (board dead : N) (threads : nat) (target : f64) (cancelled : bool)
    (shuf : nat -> list ccombo -> list ccombo) (rngs : nat -> N -> N) (m : simulator) (flag : N) (y0 : asys) (fuel : nat).
  Hypothesis Hr : Forall range_ok ranges.
  Hypothesis Hs : permutes shuf.
  Hypothesis HL : alaunch p ranges board dead threads target cancelled shuf rngs m flag y0.
  Hypothesis Ht : f_ltb f_2_14 target = true.
  Hypothesis Hap : apart ranges.
  Hypothesis Hthreads : 4096 * N.of_nat threads < 2 ^ 64.

  Lemma many_start : many_ok threads y0.
  Proof.
    destruct (launch_facts p ranges board dead threads target cancelled shuf rngs m flag y0 Hr Hs HL) as (_ & _ & _ & _ & F1 & F2 & _ & st0 & Hinit & Hst0 & Hts).
    assert (Hall : forall i t, nth_error (ay_threads y0) i = Some t -> single t /\ counted t = 0).
    { intros i t H. rewrite Hts in H. apply nth_error_In, in_map_iff in H as (k & <- & _). split; [split; [exact Hst0|reflexivity]|reflexivity]. }
    constructor.
    - rewrite Hts, map_length, seq_length. reflexivity.
    - intros i t H. apply (Hall i t H).
    - rewrite F1, sumf_zero_in; [reflexivity|]. intros i t H. apply (Hall i t H).
    - intros _ i t H. apply (Hall i t H).
    - intros H. contradiction.
  Qed.

  Lemma many_step sched y tid t y' : foldM (aevent p m fuel) sched y0 = Ret y -> p = Debug \/ N.of_nat (length sched) * heaviest ranges < 2 ^ 64 -> many_ok threads y ->
    nth_error (ay_threads y) tid = Some t -> aevent p m fuel y (Run tid) = Ret y' ->
    many_ok threads y' /\ exists t', ay_threads y' = set_nth (ay_threads y) tid t' /\ (a_phase t = ADone /\ t' = t \/ place t' = place t + 1).
  Proof.
    intros Hf Hfit [M1 M2 M3 M4 M5] Hn He. cbn [aevent] in He. rewrite Hn in He. binv He. destruct v as [sh' t']. inversion He; subst y'. clear He.
    destruct (launch_facts p ranges board dead threads target cancelled shuf rngs m flag y0 Hr Hs HL) as (_ & Hex & _ & _ & _ & _ & _ & st0 & Hinit & Hst0 & _).
    pose proof (M2 tid t Hn) as Hok. cbn [ay_threads ay_shared].
    assert (Hlen : (tid < length (ay_threads y))%nat) by (apply nth_error_Some; congruence).
    (* steps which leave the shared state alone *)
    assert (Quiet : sh' = ay_shared y -> single t' -> counted t' = counted t -> many_ok threads {| ay_shared := sh'; ay_threads := set_nth (ay_threads y) tid t' |}).
    { intros -> Hsi Hc. constructor; cbn [ay_threads ay_shared].
      - rewrite set_nth_length. exact M1.
      - intros i t1 H. apply nth_set_nth in H as [[_ ->]|[_ H]]; [exact Hsi|exact (M2 i t1 H)].
      - rewrite M3. f_equal. pose proof (sumf_set_nth counted t' _ _ _ Hn) as H. lia.
      - intros H0 i t1 H. apply nth_set_nth in H as [[_ ->]|[_ H]]; [rewrite Hc; exact (M4 H0 tid t Hn)|exact (M4 H0 i t1 H)].
      - exact M5. }
    (* merges *)
    assert (Merge : xs_msgs sh' <> [] -> xs_stopped sh' = true -> single t' -> r_eval_count (xs_results sh') + 4096 * counted t = r_eval_count (xs_results (ay_shared y)) + 4096 * counted t' ->
      many_ok threads {| ay_shared := sh'; ay_threads := set_nth (ay_threads y) tid t' |}).
    { intros Hm Hst Hsi Hc. constructor; cbn [ay_threads ay_shared].
      - rewrite set_nth_length. exact M1.
      - intros i t1 H. apply nth_set_nth in H as [[_ ->]|[_ H]]; [exact Hsi|exact (M2 i t1 H)].
      - pose proof (sumf_set_nth counted t' _ _ _ Hn) as H. lia.
      - intros H0. contradiction.
      - intros _. exact Hst. }
    assert (Hsum : sumf counted (ay_threads y) <= N.of_nat threads) by (rewrite <- M1; apply sumf_bound; intros t1; unfold counted; destruct (a_phase t1); lia).
    pose proof E as Hstep. unfold astep in Hstep. unfold single in Hok. unfold place. destruct (a_phase t) eqn:Eph.
    - destruct (_ || _); [discriminate|]. binv Hstep. destruct v as [[ok r] w]. inversion Hstep; subst sh' t'. cbn [a_phase a_stats]. destruct Hok as [H1 H2].
      assert (Hdl : ok = true).
      { pose proof (proj1 HL) as Hval. destruct (alaunched _ _ _ _ _ _ _ _ _ _ _ _ Hr Hs HL) as (pss & crs & r0 & HS & Ey0).
        destruct (arun_n ranges board dead Hval) as [Hfn [Hn2 Hn9]].
        destruct (deal_apart p ranges board dead m (a_rng t) (a_walk t) pss crs shuf target r0 flag Hr Hval HS Hap) as (r' & w' & Ed).
        - rewrite H2. split; [repeat split|]. intros i Hi. cbn [walk_init w_weights]. do 9 (destruct i as [|i]; [reflexivity|]). lia.
        - congruence. }
      subst ok. split; [|eexists; split; [reflexivity|right; cbn [a_phase a_stats]; lia]]. apply Quiet; [reflexivity|unfold single; cbn [a_phase a_stats]; lia|unfold counted; rewrite Eph; reflexivity].
    - binv Hstep. destruct v as [r st]. inversion Hstep; subst sh' t'. cbn [a_phase a_stats]. apply eval_counts in E0.
      rewrite add_ok in E0 by lia. injection E0 as E0. split.
      + apply Quiet; [reflexivity| |].
        * unfold single. cbn [a_phase a_stats]. rewrite low_bits by lia. destruct (N.eqb_spec (b_eval_count (s_batch st)) 4096); lia.
        * unfold counted. cbn [a_phase]. rewrite Eph. destruct (_ =? _); reflexivity.
      + eexists. split; [reflexivity|]. right. cbn [a_phase a_stats]. rewrite low_bits by lia. destruct (N.eqb_spec (b_eval_count (s_batch st)) 4096); lia.
    - assert (Hst : xs_stopped sh' = true).
      { destruct (xs_msgs (ay_shared y)) as [|msg msgs] eqn:Em.
        - destruct (first_merge p ranges board dead threads target cancelled shuf rngs m flag y0 fuel Hr Hs HL sched y tid t sh' t' Hf Em Hfit Hn (or_introl Eph) E) as (U1 & _ & U2).
          rewrite Eph, (tiny_ltb _ _ U1 Ht) in U2. exact U2.
        - binv Hstep. destruct v as [[r stop] msg']. rewrite Hinit in Hstep. cbn [bind] in Hstep. inversion Hstep; subst sh' t'. cbn [xs_stopped].
          rewrite M5 in E0 by congruence. eapply update_stop; [exact Hex|exact E0]. }
      binv Hstep. destruct v as [[r stop] msg]. rewrite Hinit in Hstep. cbn [bind] in Hstep. inversion Hstep; subst sh' t'. cbn [a_phase a_stats] in *.
      apply merge_counts in E0. assert (Hc : counted t = 0) by (unfold counted; rewrite Eph; reflexivity).
      assert (Hlt : 4096 * sumf counted (ay_threads y) + 4096 < 2 ^ 64).
      { assert (Hb : sumf counted (ay_threads y) + 1 <= N.of_nat threads); [|lia].
        set (t1 := {| a_phase := ADone; a_rng := a_rng t; a_walk := a_walk t; a_stats := a_stats t |}).
        pose proof (sumf_set_nth counted t1 _ _ _ Hn) as H. change (counted t1) with 1 in H.
        assert (Hb : sumf counted (set_nth (ay_threads y) tid t1) <= N.of_nat threads); [|lia].
        rewrite <- M1, <- (set_nth_length (ay_threads y) tid t1). apply sumf_bound. intros t2. unfold counted. destruct (a_phase t2); lia. }
      rewrite add_ok in E0 by lia. injection E0 as E0. split; [|eexists; split; [reflexivity|right; cbn [a_phase a_stats]; lia]].
      apply Merge.
      + cbn [xs_msgs]. intros H0. apply app_eq_nil in H0 as [_ H0]. discriminate.
      + exact Hst.
      + exact Hst0.
      + cbn [xs_results]. rewrite Hc. change (counted {| a_phase := ACheck; a_rng := a_rng t; a_walk := a_walk t; a_stats := st0 |}) with 1. lia.
    - assert (Hst : xs_stopped (ay_shared y) = true).
      { apply M5. intros H0. specialize (M4 H0 tid t Hn). unfold counted in M4. rewrite Eph in M4. discriminate. }
      rewrite Hst in Hstep. inversion Hstep; subst sh' t'. cbn [a_phase a_stats]. split; [|eexists; split; [reflexivity|right; cbn [a_phase]; lia]].
      apply Quiet; [reflexivity|exact Hok|unfold counted; rewrite Eph; reflexivity].
    - binv Hstep. destruct v as [r w]. inversion Hstep; subst sh' t'. cbn [a_phase a_stats]. split; [|eexists; split; [reflexivity|right; cbn [a_phase a_stats]; lia]].
      apply Quiet; [reflexivity|unfold single; cbn [a_phase a_stats]; lia|unfold counted; rewrite Eph; reflexivity].
    - assert (Hst : xs_stopped (ay_shared y) = true).
      { apply M5. intros H0. specialize (M4 H0 tid t Hn). unfold counted in M4. rewrite Eph in M4. discriminate. }
      binv Hstep. destruct v as [[r stop] msg]. inversion Hstep; subst sh' t'. rewrite Hst in E0. pose proof (update_stop _ _ _ _ _ _ _ _ _ Hex E0) as Hs'.
      apply merge_counts in E0. rewrite add_ok in E0 by lia. injection E0 as E0. split; [|eexists; split; [reflexivity|right; cbn [a_phase a_stats]; lia]].
      apply Merge.
      + cbn [xs_msgs]. intros H0. apply app_eq_nil in H0 as [_ H0]. discriminate.
      + exact Hs'.
      + exact I.
      + cbn [xs_results]. assert (Hc : counted t = 1) by (unfold counted; rewrite Eph; reflexivity). rewrite Hc.
        change (counted {| a_phase := ADone; a_rng := a_rng t; a_walk := a_walk t; a_stats := a_stats t |}) with 1. lia.
    - inversion Hstep; subst sh' t'. split; [|exists t; split; [reflexivity|left; auto]].
      apply Quiet; [reflexivity|exact (M2 tid t Hn)|reflexivity].
  Qed.

  Definition is_run (i : nat) (e : event) : bool := match e with Run k => (k =? i)%nat | Cancel => false end.
  Definition steps_of (i : nat) (sched : list event) : N := N.of_nat (length (filter (is_run i) sched)).

  Lemma many_run sched : forall y, foldM (aevent p m fuel) sched y0 = Ret y -> p = Debug \/ N.of_nat (length sched) * heaviest ranges < 2 ^ 64 ->
    many_ok threads y /\ forall i t, nth_error (ay_threads y) i = Some t -> place t = N.min 8195 (steps_of i sched).
  Proof.
    induction sched as [|e sched IH] using rev_ind; intros y Hf Hfit.
    - cbn [foldM] in Hf. inversion Hf; subst y. split; [exact many_start|]. intros i t H.
      destruct (launch_facts p ranges board dead threads target cancelled shuf rngs m flag y0 Hr Hs HL) as (_ & _ & _ & _ & _ & _ & _ & st0 & _ & _ & Hts).
      rewrite Hts in H. apply nth_error_In, in_map_iff in H as (k & <- & _). reflexivity.
    - rewrite foldM_app in Hf. binv Hf. cbn [foldM] in Hf. binv Hf. inversion Hf; subst v0. clear Hf. rewrite app_length in Hfit. cbn [length] in Hfit.
      assert (Hfit' : p = Debug \/ N.of_nat (length sched) * heaviest ranges < 2 ^ 64) by (destruct Hfit as [Hp|Hfit]; [left; exact Hp|right; nia]).
      destruct (IH v E Hfit') as [Hm Hp].
      assert (Est : forall i, steps_of i (sched ++ [e]) = steps_of i sched + (if is_run i e then 1 else 0)).
      { intros i. unfold steps_of. rewrite filter_app, app_length. cbn [filter]. destruct (is_run i e); cbn [length]; lia. }
      destruct e as [tid|].
      + destruct (nth_error (ay_threads v) tid) as [t|] eqn:Et.
        * destruct (many_step sched v tid t y E Hfit' Hm Et E0) as (Hm' & t' & Ets & Hpl). split; [exact Hm'|]. intros i t1 H. rewrite Ets in H. rewrite Est. cbn [is_run].
          apply nth_set_nth in H as [[-> ->]|[Hne H]].
          -- rewrite Nat.eqb_refl. specialize (Hp tid t Et). pose proof (mo_single _ _ Hm' tid t') as Hsi. rewrite Ets, set_nth_same in Hsi by (apply nth_error_Some; congruence).
             specialize (Hsi eq_refl). destruct Hpl as [[Hd ->]|Hpl].
             ++ rewrite Hp. unfold place in Hp. rewrite Hd in Hp. lia.
             ++ assert (place t' <= 8195) by (unfold place; unfold single in Hsi; destruct (a_phase t'); lia). lia.
          -- destruct (Nat.eqb_spec tid i) as [->|_]; [congruence|]. rewrite N.add_0_r. exact (Hp i t1 H).
        * cbn [aevent] in E0. rewrite Et in E0. inversion E0; subst y. split; [exact Hm|]. intros i t1 H. rewrite Est. cbn [is_run].
          destruct (Nat.eqb_spec tid i) as [->|_]; [congruence|]. rewrite N.add_0_r. exact (Hp i t1 H).
      + cbn [aevent] in E0. inversion E0; subst y. split.
        * destruct Hm as [M1 M2 M3 M4 M5]. constructor; cbn [ay_threads ay_shared xs_results xs_msgs xs_stopped]; auto.
        * intros i t1 H. rewrite Est. cbn [is_run]. rewrite N.add_0_r. exact (Hp i t1 H).
  Qed.
End Many.

Lemma many_threads p ranges board dead threads target cancelled shuf rngs fuel sched o : Forall range_ok ranges -> permutes shuf -> f_ltb f_2_14 target = true -> apart ranges ->
  4096 * N.of_nat threads < 2 ^ 64 -> p = Debug \/ N.of_nat (length sched) * heaviest ranges < 2 ^ 64 ->
  approx_equity p ranges board dead threads target cancelled shuf rngs fuel sched = Ret (ROk o) -> r_eval_count (o_results o) = 4096 * N.of_nat threads.
Proof.
  intros Hr Hs Ht Hap Hth Hfit H. destruct (launch_of _ _ _ _ _ _ _ _ _ _ _ _ H) as (m & flag & y0 & y & HL & Hf & Hd & Hfin & _).
  destruct (many_run p ranges board dead threads target cancelled shuf rngs m flag y0 fuel Hr Hs HL Ht Hap Hth sched y Hf Hfit) as [[M1 _ M3 _ _] _].
  rewrite (finish_counts _ _ _ _ _ Hfin), M3, <- M1. f_equal. clear - Hd. induction (ay_threads y) as [|t ts IH]; [reflexivity|]. cbn [forallb] in Hd. apply andb_prop in Hd as [H1 H2].
  rewrite sumf_cons, (IH H2). unfold counted. unfold adone in H1. destruct (a_phase t); try discriminate. cbn [length]. lia.
Qed.

Lemma many_end p ranges board dead threads target cancelled shuf rngs fuel sched : Forall range_ok ranges -> permutes shuf -> f_ltb f_2_14 target = true -> apart ranges ->
  4096 * N.of_nat threads < 2 ^ 64 -> N.of_nat (length sched) * heaviest ranges < 2 ^ 64 -> validate (length ranges) board dead = None -> deals ranges board dead <> [] ->
  length (mask_cards board) = 5%nat -> (forall i, (i < threads)%nat -> 8195 <= steps_of i sched) ->
  exists o, approx_equity p ranges board dead threads target cancelled shuf rngs fuel sched = Ret (ROk o) /\ r_eval_count (o_results o) = 4096 * N.of_nat threads.
Proof.
  intros Hr Hs Ht Hap Hth Hfit Hval Hdeals Hfull Hst.
  destruct (astart p ranges board dead Hr Hval shuf target Hs) as [[_ E]|(pss & crs & m & r0 & flag & HS)]; [contradiction|].
  destruct (as_launch _ _ _ _ _ _ _ _ _ _ _ HS) as (crs0 & Ec & Ecrs). pose proof (as_new _ _ _ _ _ _ _ _ _ _ _ HS) as Em.
  destruct (athreads_ok p ranges board dead Hr Hval shuf target pss crs m r0 flag HS threads cancelled rngs fuel sched) as (y0 & Ey0 & Hrun).
  assert (HL : alaunch p ranges board dead threads target cancelled shuf rngs m flag y0).
  { split; [exact Hval|]. exists (filtered board dead ranges), crs0, r0. split; [exact Ec|]. split; [rewrite <- Ecrs; exact Em|]. split; [apply HS|exact Ey0]. }
  destruct Hrun as [[(y & Hf & _ & _ & Hy)|(_ & _ & HB)]|[Hshort _]]; [|contradiction|lia].
  destruct (many_run p ranges board dead threads target cancelled shuf rngs m flag y0 fuel Hr Hs HL Ht Hap Hth sched y Hf (or_intror Hfit)) as [[M1 M2 M3 _ _] Hpl].
  assert (Hd : forallb adone (ay_threads y) = true).
  { apply forallb_forall. intros t Hin. apply In_nth_error in Hin as (i & Hi). specialize (Hpl i t Hi). assert (Hlt : (i < threads)%nat) by (rewrite <- M1; apply nth_error_Some; congruence).
    specialize (Hst i Hlt). specialize (M2 i t Hi). unfold single in M2. unfold place in Hpl. unfold adone. destruct (a_phase t); try reflexivity; exfalso; lia. }
  destruct (Hy Hd) as (E & HE & _ & HR). destruct (afinish_ok p ranges board dead Hr Hval shuf target pss crs m r0 flag HS E _ HE HR) as (r' & Ef & _).
  pose proof (of_launch _ _ _ _ _ _ _ _ _ _ _ _ _ _ _ _ HL Hf Hd Ef) as E1. eexists. split; [exact E1|].
  eapply many_threads; [exact Hr|exact Hs|exact Ht|exact Hap|exact Hth|right; exact Hfit|exact E1].
Qed.
