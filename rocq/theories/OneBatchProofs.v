(* The standard deviation reported by one thread which has evaluated one batch. *)
From Coq Require Import Floats.SpecFloat QArith.
From Verif Require Import Base BaseProofs SumFacts Ghost Float64 FloatProofs FloatSumProofs Hand FastDivide Range Combined Sim Approx SpecPoker ListFacts PokerFacts
  HandProofs SpecNames SpecHand SpecRange SpecEquity SpecResults SpecRun SpecApprox SpecShare SpecDeviation EnumProofs ShowdownProofs BoardProofs PositionProofs WeightProofs CombinedProofs MergeProofs
  MachineProofs SetupProofs FinalProofs ExactProofs ResultProofs WalkProofs ApproxProofs ApproxRunProofs ApproxResultProofs ConvergeProofs ConvergeRunProofs ConvergeResultProofs
  BatchProofs EquityFloatProofs EquityProofs ShareProofs DeviationProofs RootProofs.
Local Open Scope N_scope.

#[local] Opaque NUM_HANDS.

(* the equity of a batch, if the counts are small *)
Lemma batch_int n b : weights n [b] <= 2 ^ 53 ->
  batch_equity n (fun i => nth i b 0) = f_div (f_of_N (taken n 0 [b])) (f_add (f_of_N (weights n [b])) f_1e_9).
Proof.
  intros H. unfold batch_equity, batch_share. unfold taken, weights in *. rewrite !sumf_cons, !sumf_nil, !N.add_0_r in *.
  assert (G : forall l e h, e + sumf (part b 0) l <= 2 ^ 53 ->
    fold_left (fun '(e, h) i => (if N.testbit (N.of_nat i) 0 then f_add e (f_of_N (if count_ones (N.of_nat i) =? 1 then nth i b 0 else nth i b 0 / count_ones (N.of_nat i))) else e, h + nth i b 0))
      l (f_of_N e, h) = (f_of_N (e + sumf (part b 0) l), h + sumf (fun i => nth i b 0) l)).
  { clear H. induction l as [|i l IH]; intros e h H; cbn [fold_left]; [rewrite !sumf_nil, !N.add_0_r; reflexivity|]. rewrite !sumf_cons in *.
    assert (E : (if N.testbit (N.of_nat i) 0 then f_add (f_of_N e) (f_of_N (if count_ones (N.of_nat i) =? 1 then nth i b 0 else nth i b 0 / count_ones (N.of_nat i))) else f_of_N e) = f_of_N (e + part b 0 i)).
    { unfold part in *. change (N.of_nat 0) with 0 in *. destruct (N.testbit (N.of_nat i) 0); [|rewrite N.add_0_r; reflexivity].
      destruct (N.eqb_spec (count_ones (N.of_nat i)) 1) as [E1|E1]; [rewrite E1, N.div_1_r in *|]; apply add_int; lia. }
    rewrite E, IH by lia. f_equal; [f_equal; lia|lia]. }
  change f_zero with (f_of_N 0). rewrite G; [rewrite !N.add_0_l; reflexivity|]. rewrite N.add_0_l. eapply N.le_trans; [|exact H]. apply sumf_le. intros i _. apply part_le.
Qed.

(* what the results say about the batches bs *)
Definition devs (n : nat) (bs : list (list N)) (r : results) : Prop :=
  r_batch_sum r = fold_left f_add (map (fun b => batch_equity n (fun i => nth i b 0)) bs) f_zero /\
  r_batch_sum2 r = fold_left f_add (map (fun b => f_mul (batch_equity n (fun i => nth i b 0)) (batch_equity n (fun i => nth i b 0))) bs) f_zero /\
  r_batch_count r = fold_left f_add (map (fun _ => f_1) bs) f_zero /\
  (bs <> [] -> r_stdev r = batch_stdev (r_batch_sum r) (r_batch_sum2 r) (r_batch_count r)).

Lemma devs_step p m ep stop r st fin r' stop' msg n bs : m_n_players m = n -> (0 < n)%nat -> m_calc_exact m = false -> batch_ok p n st ->
  update_results p m ep stop r st fin = Ret (r', stop', msg) -> weights n [b_wins_by_mask (s_batch st)] < 2 ^ 64 -> devs n bs r -> devs n (bs ++ [b_wins_by_mask (s_batch st)]) r'.
Proof.
  intros Hm Hn Hex (B1 & B2 & _) H Hw (D1 & D2 & D3 & _). unfold weights in Hw. rewrite sumf_cons, sumf_nil, N.add_0_r in Hw. subst n.
  destruct (update_sums p m ep stop r st fin r' stop' msg (fun i => nth i (b_wins_by_mask (s_batch st)) 0) Hn Hex B1 B2 (fun i _ => eq_refl) Hw H) as (U1 & U2 & U3 & U4).
  unfold devs. rewrite !map_app, !fold_left_app. cbn [map fold_left]. rewrite <- D1, <- D2, <- D3. auto.
Qed.

(* one thread *)
Definition one_hist (n : nat) (st0 : stats) (y : asys) : Prop := exists sh t bs, y = {| ay_shared := sh; ay_threads := [t] |} /\ hist Debug n bs (xs_results sh) /\
  length bs = length (xs_msgs sh) /\ (weights n bs < 2 ^ 64 -> devs n bs (xs_results sh)) /\
  match a_phase t with AStart | ACheck | AFinal => a_stats t = st0 | ADone => exists bs', bs = bs' ++ [b_wins_by_mask (s_batch st0)] | _ => True end.

Lemma one_hist_run ranges board dead target cancelled shuf rngs m flag y0 fuel sched y : Forall range_ok ranges -> permutes shuf ->
  alaunch Debug ranges board dead 1 target cancelled shuf rngs m flag y0 -> foldM (aevent Debug m fuel) sched y0 = Ret y ->
  exists st0, (forall i, nth i (b_wins_by_mask (s_batch st0)) 0 = 0) /\ one_hist (length ranges) st0 y.
Proof.
  intros Hr Hs HL Hf. destruct (launch_facts Debug ranges board dead 1 target cancelled shuf rngs m flag y0 Hr Hs HL) as (_ & Hex & _ & U & _ & _ & _ & st0 & Hinit & _ & Hts).
  pose proof (proj1 HL) as Hval. destruct (alaunched _ _ _ _ _ _ _ _ _ _ _ _ Hr Hs HL) as (pss & crs & r0 & HS & Ey0).
  destruct (arun_n ranges board dead Hval) as [Hfn [Hn2 Hn9]]. pose proof (as_m5 _ _ _ _ _ _ _ _ _ _ _ HS) as Hm.
  destruct (stats_init_ok (length ranges) Hn9) as (ids & st0' & Hinit' & _ & _ & Hzero). rewrite Hm, Hinit' in Hinit. injection Hinit as ->.
  exists st0. split; [intros i; exact (Hzero (OMask i))|]. clear Hzero.
  revert y Hf. induction sched as [|e sched IH] using rev_ind; intros y Hf.
  - cbn [foldM] in Hf. injection Hf as <-. unfold ainit in Ey0. rewrite Hm, Hinit' in Ey0. cbn [bind] in Ey0. injection Ey0 as <-. cbn [ay_shared ay_threads xs_results] in U. eexists _, _, []. split; [reflexivity|]. cbn [xs_results xs_msgs].
    split; [|split; [reflexivity|split; [|reflexivity]]].
    + destruct HS as [_ S1 S2 S3 S4 S5 S6 S7 S8 S9 S10 S11 S12 S13 S14 S15 S16 S17]. match goal with H : r0 = with_hand_results _ _ |- _ => rewrite H end.
      change (@length (list combo) (filtered board dead ranges)) with (@length (list whand) (filtered board dead ranges)). rewrite Hfn. apply hist_init.
    + intros _. destruct U as (U1 & U2 & U3). unfold devs. cbn [map fold_left]. split; [exact U1|]. split; [exact U2|]. split; [exact U3|]. intros H. exfalso. apply H. reflexivity.
  - rewrite foldM_app in Hf. binv Hf. destruct (IH v E) as (sh & t & bs & Ev & HB & Hl & HD & Hph). cbn [foldM] in Hf. binv Hf. injection Hf as <-.
    destruct (athreads_ok Debug ranges board dead Hr Hval shuf target pss crs m r0 flag HS 1 cancelled rngs fuel sched) as (y0' & Ey0' & Hrun).
    rewrite Ey0 in Ey0'. injection Ey0' as <-. destruct (runs_holds _ _ _ _ _ _ Hrun E) as (Hst & _). subst v. cbn [ay_threads ay_shared] in Hst.
    assert (Hok : a_phase t <> ADone -> batch_ok Debug (length ranges) (a_stats t)).
    { intros Hnd. destruct (Hst 0%nat t eq_refl Hnd) as (ids1 & L & Hids & Hsh & Hag & _). eapply stats_batch_ok; [exact Hn9|exact Hids|exact Hsh|exact Hag]. }
    assert (Quiet : forall sh' t', xs_results sh' = xs_results sh -> xs_msgs sh' = xs_msgs sh ->
      match a_phase t' with AStart | ACheck | AFinal => a_stats t' = st0 | ADone => exists bs', bs = bs' ++ [b_wins_by_mask (s_batch st0)] | _ => True end ->
      one_hist (length ranges) st0 {| ay_shared := sh'; ay_threads := [t'] |}).
    { intros sh' t' E1 E2 Hp. exists sh', t', bs. rewrite E1, E2. auto. }
    assert (Merge : forall fin r1 stop1 msg1 sh' t', a_phase t <> ADone ->
      update_results Debug m (xs_enum_pos sh) (xs_stopped sh) (xs_results sh) (a_stats t) fin = Ret (r1, stop1, msg1) -> xs_results sh' = r1 -> xs_msgs sh' = xs_msgs sh ++ [msg1] ->
      match a_phase t' with ACheck => a_stats t' = st0 | ADone => a_stats t = st0 | _ => False end -> one_hist (length ranges) st0 {| ay_shared := sh'; ay_threads := [t'] |}).
    { intros fin r1 stop1 msg1 sh' t' Hnd Hu E1 E2 Hp. exists sh', t', (bs ++ [b_wins_by_mask (s_batch (a_stats t))]). rewrite E1, E2. specialize (Hok Hnd).
      split; [reflexivity|]. split; [eapply hist_step; [exact Hn9|exact Hm|exact Hok|exact Hu|exact HB]|]. split; [rewrite !app_length, Hl; reflexivity|]. split.
      - intros Hw. unfold weights in Hw. rewrite sumf_app in Hw. fold (weights (length ranges) bs) in Hw. fold (weights (length ranges) [b_wins_by_mask (s_batch (a_stats t))]) in Hw.
        eapply devs_step; [exact Hm| |exact Hex|exact Hok|exact Hu| |apply HD]; lia.
      - destruct (a_phase t'); try contradiction; [exact Hp|]. exists bs. rewrite Hp. reflexivity. }
    destruct e as [tid|]; cbn [aevent] in E0.
    2:{ injection E0 as <-. exists {| xs_enum_pos := xs_enum_pos sh; xs_stopped := true; xs_results := xs_results sh; xs_msgs := xs_msgs sh |}, t, bs.
        split; [reflexivity|]. auto. }
    destruct tid as [|tid]; cbn [ay_threads nth_error] in E0.
    2:{ destruct tid; cbn [nth_error] in E0; injection E0 as <-; exists sh, t, bs; auto. }
    cbn [ay_shared] in E0. apply bind_ret in E0 as ([sh' t'] & E1 & E0). injection E0 as <-. cbn [set_nth].
    unfold astep in E1. destruct (a_phase t) eqn:Ep.
    + destruct (_ || _); [discriminate|]. apply bind_ret in E1 as ([[ok r1] w1] & Ex1 & E1). injection E1 as <- <-. apply Quiet; [reflexivity|reflexivity|]. cbn [a_phase a_stats]. destruct ok; [exact I|exact Hph].
    + apply bind_ret in E1 as ([r1 st1] & Ex1 & E1). injection E1 as <- <-. apply Quiet; [reflexivity|reflexivity|]. cbn [a_phase]. destruct (_ =? _); exact I.
    + apply bind_ret in E1 as ([[r1 stop1] msg1] & E3 & E1). rewrite Hm, Hinit' in E1. cbn [bind] in E1. injection E1 as <- <-. eapply Merge; [discriminate|exact E3|reflexivity|reflexivity|reflexivity].
    + destruct (xs_stopped _); [injection E1 as <- <-; apply Quiet; [reflexivity|reflexivity|exact Hph]|].
      apply bind_ret in E1 as ([[ok r1] w1] & Ex1 & E1). injection E1 as <- <-. apply Quiet; [reflexivity|reflexivity|]. cbn [a_phase a_stats]. destruct ok; [exact I|exact Hph].
    + apply bind_ret in E1 as ([r1 w1] & Ex1 & E1). injection E1 as <- <-. apply Quiet; [reflexivity|reflexivity|exact I].
    + apply bind_ret in E1 as ([[r1 stop1] msg1] & E3 & E1). injection E1 as <- <-. eapply Merge; [discriminate|exact E3|reflexivity|reflexivity|exact Hph].
    + injection E1 as <- <-. apply Quiet; [reflexivity|reflexivity|]. rewrite Ep. exact Hph.
Qed.

Lemma credit_taken n b : (0 < n <= 9)%nat -> credit n b = taken n 0 [b].
Proof.
  intros Hn. unfold credit, taken. rewrite sumf_cons, sumf_nil, N.add_0_r, <- sumf_sum_of. apply sumf_ext. intros i Hi. apply in_seq in Hi. unfold part.
  rewrite players_in. destruct (masks_fact n i ltac:(lia) ltac:(lia)) as [-> _]. rewrite (proj2 (Nat.ltb_lt 0 n)) by lia. reflexivity.
Qed.

Lemma one_batch_deviation p ranges board dead target cancelled shuf rngs fuel sched o : Forall range_ok ranges -> permutes shuf ->
  p = Debug \/ N.of_nat (length sched) * heaviest ranges < 2 ^ 64 ->
  approx_equity p ranges board dead 1 target cancelled shuf rngs fuel sched = Ret (ROk o) -> r_eval_count (o_results o) = 4096 -> N.of_nat (length (o_progress o)) < 2 ^ 52 ->
  let w := sum_of (fun x => x) (r_wins_by_mask (o_results o)) in let a := credit (length ranges) (r_wins_by_mask (o_results o)) in
  w <= 2 ^ 53 -> 0 < a -> w <= 1000 * a ->
  number (r_stdev (o_results o)) /\ ((353 # 1000) * ratio a w <= value (r_stdev (o_results o)))%Q /\ (value (r_stdev (o_results o)) <= (354 # 1000) * ratio a w)%Q.
Proof.
  intros Hr Hs Hfit H He Hlen w a Hw Ha H1000. apply approx_debug in H; try assumption. destruct (batches_counted _ _ _ _ _ _ _ _ _ _ _ _ Hr Hs H Hlen) as [_ Hc].
  destruct (launch_of _ _ _ _ _ _ _ _ _ _ _ _ H) as (m & flag & y0 & y & HL & Hf & Hd & Hfin & Hp & _).
  destruct (one_hist_run ranges board dead target cancelled shuf rngs m flag y0 fuel sched y Hr Hs HL Hf) as (st0 & Hz & sh & t & bs & -> & HB & Hl & HD & Hph).
  destruct (arun_n ranges board dead (proj1 HL)) as [_ [Hn2 Hn9]].
  cbn [ay_threads forallb] in Hd. unfold adone in Hd. destruct (a_phase t); try discriminate. destruct Hph as (bs' & ->). cbn [ay_shared] in *.
  destruct (hist_finish Debug (length ranges) m flag _ _ _ Hfin HB) as [HB' _]. destruct (finish_fields Debug m flag _ _ Hfin) as (_ & _ & F3 & _).
  destruct (finish_deviation _ _ _ _ _ Hfin) as (G1 & G2 & G3 & G4).
  rewrite Hp in Hc. rewrite <- Hl, app_length, He in Hc. cbn [length] in Hc. destruct bs' as [|b [|b' bs']]; cbn [length] in Hc; try lia. clear Hc. cbn [app] in *.
  set (z := b_wins_by_mask (s_batch st0)) in *. set (n := length ranges) in *.
  assert (Ew : w = weights n [b; z]) by (apply (weights_sum n _ _ HB')).
  assert (Ez : forall f : N -> nat -> N, (forall i, f 0 i = 0) -> sumf (fun i => f (nth i z 0) i) (seq 0 (2 ^ n)) = 0) by (intros f Hf0; apply sumf_zero; intros i _; rewrite Hz; apply Hf0).
  assert (Wz : weights n [z] = 0) by (unfold weights; rewrite sumf_cons, sumf_nil, N.add_0_r; apply (Ez (fun x _ => x)); reflexivity).
  assert (Tz : taken n 0 [z] = 0) by (pose proof (taken_le n 0 [z]); lia).
  assert (Wb : weights n [b] = w) by (rewrite Ew; unfold weights in *; rewrite !sumf_cons, !sumf_nil, !N.add_0_r in *; lia).
  assert (Tb : taken n 0 [b] = a).
  { unfold a. rewrite <- credit_taken by lia. unfold credit. rewrite <- !sumf_sum_of. apply sumf_ext. intros i Hi. apply in_seq in Hi. cbv zeta.
    rewrite (masks_int n _ _ HB' i) by lia. unfold msum. rewrite !sumf_cons, sumf_nil, Hz, !N.add_0_r. reflexivity. }
  destruct HD as (D1 & D2 & D3 & D4); [rewrite <- Ew; lia|]. specialize (D4 ltac:(discriminate)). cbn [map fold_left] in *.
  rewrite (batch_int n z) in * by (rewrite Wz; lia). rewrite (batch_int n b) in * by (rewrite Wb; exact Hw). rewrite Wz, Tz, Wb, Tb in *.
  assert (Ee : f_div (f_of_N 0) (f_add (f_of_N 0) f_1e_9) = f_zero) by reflexivity. rewrite Ee in *.
  assert (Haw : a <= w) by (rewrite <- Tb, <- Wb; apply taken_le).
  destruct (two_batches a w Ha Haw Hw H1000) as (v & Hv & V1 & V2). rewrite G4, D4, D1, D2, D3. destruct (value_num _ _ Hv) as [W1 W2].
  split; [exact W1|]. rewrite W2. unfold ratio. split; [exact V1|exact V2].
Qed.

(* the witness of ConvergeResultProofs: aces win all 4096 pots against kings *)
Lemma wit_masks : exists o, approx_equity Debug wit_ranges wit_board 0 1 wit_target false wit_shuffle wit_rngs 0 wit_schedule = Ret (ROk o) /\
  r_eval_count (o_results o) = 4096 /\ length (o_progress o) = 2%nat /\ r_wins_by_mask (o_results o) = [0; 4096; 0; 0].
Proof.
  destruct witness as (o & msg & H & _ & He & Hp & _). exists o. split; [exact H|]. split; [exact He|]. split; [rewrite Hp; reflexivity|].
  destruct (some_approx _ _ _ _ _ _ _ _ _ _ _ _ wit_ok wit_permutes H) as (_ & _ & E & HE & _ & Hrep).
  pose proof (ar_count _ _ _ _ Hrep) as Hc. cbn [counter] in Hc. rewrite He in Hc.
  assert (Es : Forall (fun s => s = (wit_deal, mask_cards wit_board)) E).
  { eapply Forall_impl; [|exact HE]. intros s (Hd & cs & Ecs & H5 & _). assert (Ed : deals (filtered wit_board 0 wit_ranges) wit_board 0 = [wit_deal]) by (vm_compute; reflexivity).
    rewrite Ed in Hd. destruct Hd as [Hd|[]]. rewrite Ecs, app_length in H5. assert (E5 : length (mask_cards wit_board) = 5%nat) by (vm_compute; reflexivity).
    destruct cs as [|c cs]; [|cbn [length] in H5; lia]. rewrite app_nil_r in Ecs. destruct s as [d l]. cbn [fst snd] in *. congruence. }
  assert (G : forall what, sampled E what = 4096 * if what wit_deal (mask_cards wit_board) then 1 else 0).
  { intros what. unfold sampled. rewrite Hc, N.mul_comm. rewrite <- sumf_sum_of, <- sumf_const. apply sumf_ext. intros s Hs. rewrite Forall_forall in Es. rewrite (Es s Hs). reflexivity. }
  pose proof (ar_wbm _ _ _ _ Hrep) as HL. pose proof (ar_masks _ _ _ _ Hrep) as HM. change (length wit_ranges) with 2%nat in *. cbn [counter] in HM.
  assert (M : forall m, m < 4 -> nth (N.to_nat m) (r_wins_by_mask (o_results o)) 0 = 4096 * if m =? 1 then 1 else 0).
  { intros m Hm. rewrite (HM m Hm), G. f_equal. destruct m as [|[[]|[]|]]; try lia; vm_compute; reflexivity. }
  pose proof (M 0 eq_refl) as M0. pose proof (M 1 eq_refl) as M1. pose proof (M 2 eq_refl) as M2. pose proof (M 3 eq_refl) as M3.
  destruct (r_wins_by_mask (o_results o)) as [|x0 [|x1 [|x2 [|x3 [|x4 l]]]]]; try discriminate HL. clear HM M.
  change (x0 = 0) in M0. change (x1 = 4096) in M1. change (x2 = 0) in M2. change (x3 = 0) in M3. rewrite M0, M1, M2, M3. reflexivity.
Qed.
