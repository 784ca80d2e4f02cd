(* When every pot can be split evenly the reported equities lose nothing. *)
From Coq Require Import Floats.SpecFloat QArith Qabs Qpower Lqa Permutation.
From Verif Require Import Base BaseProofs SumFacts Ghost Float64 FloatProofs FloatSumProofs EquityFloatProofs Hand FastDivide Range Combined Sim Approx SpecPoker ListFacts PokerFacts
  SpecNames SpecHand SpecRange SpecEquity SpecResults SpecRun SpecApprox SpecShare SpecEven EnumProofs ShowdownProofs BoardProofs CombinedProofs PositionProofs MergeProofs
  MachineProofs SetupProofs WeightProofs FinalProofs ExactProofs ResultProofs CombineRunProofs RunProofs LaunchProofs ConsistProofs WalkProofs ApproxProofs ApproxRunProofs ApproxResultProofs ConvergeProofs ConvergeRunProofs ConvergeResultProofs EquityProofs ProfileProofs ShareProofs.
Local Open Scope N_scope.

#[local] Opaque NUM_HANDS.

(* ------------------------------------------------------------------------- *)
(** * Every position is a deal *)

Lemma dec_mod ranges pss : Forall (fun ps => 0 < size_of ranges ps) pss -> forall x, dec ranges pss (x mod positions ranges pss) = dec ranges pss x.
Proof.
  induction 1 as [|ps pss Hp Hf IH]; intros x; [reflexivity|]. cbn [dec positions fold_right]. fold (positions ranges pss).
  pose proof (positions_pos ranges pss Hf) as HP. set (s := size_of ranges ps) in *. set (t := positions ranges pss) in *.
  pose proof (N.mod_mul_r x s t ltac:(lia) ltac:(lia)) as E. rewrite E.
  assert (E1 : (x mod s + s * ((x / s) mod t)) mod s = x mod s).
  { rewrite N.mul_comm, N.mod_add by lia. apply N.mod_mod. lia. }
  assert (E2 : (x mod s + s * ((x / s) mod t)) / s = (x / s) mod t).
  { rewrite N.mul_comm, N.div_add by lia. rewrite N.div_small by (apply N.mod_lt; lia). apply N.add_0_l. }
  rewrite E1, E2, IH. reflexivity.
Qed.
Lemma deal_at_in ranges pss board dead x : Permutation (concat pss) (seq 0 (length ranges)) -> Forall (fun ps => 0 < size_of ranges ps) pss ->
  ok_at ranges pss board dead x = true -> In (deal_at ranges pss x) (deals ranges board dead).
Proof.
  intros HP Hpos Hok. eapply Permutation_in; [apply (deals_perm ranges pss board dead HP Hpos)|].
  unfold ok_at in Hok. unfold deal_at. rewrite <- (dec_mod ranges pss Hpos x) in *.
  apply (in_map (fun y => assemble (length ranges) (combine (concat pss) (concat (dec ranges pss y))))). apply filter_In. split; [|exact Hok].
  apply upto_In. apply N.mod_lt. pose proof (positions_pos ranges pss Hpos). lia.
Qed.

(* ------------------------------------------------------------------------- *)
(** * What the batches hold *)

Definition even_batch (n : nat) (b : list N) : Prop := forall k i, 1 <= k <= N.of_nat n -> N.divide k (nth i b 0).

Lemma divide_sumf {A} (k : N) (f : A -> N) (l : list A) : (forall x, In x l -> N.divide k (f x)) -> N.divide k (sumf f l).
Proof.
  induction l as [|x l IH]; intros H; [exists 0; reflexivity|]. rewrite sumf_cons. apply N.divide_add_r; [apply H; left; reflexivity|]. apply IH. intros y Hy. apply H. right. exact Hy.
Qed.

Lemma exact_even ranges board dead threads cancelled sched o : usable ranges -> even_deals ranges board dead -> exact_equity Debug ranges board dead threads cancelled sched = Ret (ROk o) ->
  exists bs, hist Debug (length ranges) bs (o_results o) /\ Forall (even_batch (length ranges)) bs /\
    r_equities (o_results o) = get_equity (r_wins (o_results o)) (r_ties (o_results o)) /\ validate (length ranges) board dead = None.
Proof.
  intros Hu Hev H. destruct (launched _ _ _ _ _ _ _ _ H) as (m & flag & dvs & y0 & y & r & HL & Hf & Hd & Hfin & ->). cbn [o_results o_progress].
  destruct (launch_started Debug ranges board dead threads cancelled m flag dvs y0 Hu HL) as (pss & crs & r0 & HS & Hv & Hsize & Hr & Ey0).
  destruct (run_n ranges board dead Hv Hsize) as [Hfn [Hn2 Hn9]]. pose proof (st_m5 _ _ _ _ _ _ _ _ _ _ HS) as Hm.
  pose proof (st_perm Debug ranges board dead pss crs m r0 flag dvs HS) as HP. pose proof (st_pos _ _ _ _ _ _ _ _ _ _ HS) as Hpos.
  destruct (threads_ok Debug ranges board dead Hr Hv Hsize pss crs m r0 flag dvs HS) as (E & _ & Hrun).
  assert (HI : forall sched y, foldM (xevent Debug m dvs) sched y0 = Ret y -> exists bs, hist Debug (length ranges) bs (xs_results (xy_shared y)) /\ Forall (even_batch (length ranges)) bs).
  { clear Hf Hd Hfin H sched y. intros sched. induction sched as [|e sched IH] using rev_ind; intros y Hf.
    - cbn [foldM] in Hf. injection Hf as <-. unfold xinit in Ey0. binv Ey0. injection Ey0 as <-. cbn [xy_shared xs_results xs_msgs]. exists []. split; [|constructor].
      rewrite (st_r0 _ _ _ _ _ _ _ _ _ _ HS). change (@length (list combo) (filtered board dead ranges)) with (@length (list whand) (filtered board dead ranges)). rewrite Hfn. apply hist_init.
    - rewrite foldM_app in Hf. binv Hf. destruct (IH v E0) as (bs & HB & Hl). cbn [foldM] in Hf. binv Hf. injection Hf as <-.
      destruct (Hrun threads cancelled sched) as (y0' & Ey0' & _ & _ & _ & _ & Hst). rewrite Ey0 in Ey0'. injection Ey0' as <-. specialize (Hst v E0).
      destruct e as [tid|]; cbn [xevent] in E1; [|injection E1 as <-; exists bs; split; assumption].
      destruct (nth_error (xy_threads v) tid) as [t|] eqn:Et; [|injection E1 as <-; exists bs; split; assumption].
      apply bind_ret in E1 as ([sh' t'] & E2 & E1). injection E1 as <-. cbn [xy_shared].
      assert (Hok : xdone t = false -> batch_ok Debug (length ranges) (x_stats t) /\ even_batch (length ranges) (b_wins_by_mask (s_batch (x_stats t)))).
      { intros Hnd. destruct (Hst t (nth_error_In _ _ Et) Hnd) as (ids & L & Hids & Hsh & Hag). split; [eapply stats_batch_ok; [exact Hn9|exact Hids|exact Hsh|exact Hag]|].
        intros k i Hk. specialize (Hag (OMask i)). cbn [rd agr] in Hag. rewrite Hag. apply divide_sumf. intros x _. unfold pgain.
        destruct (ok_at _ _ _ _ x) eqn:Eo; [|exists 0; reflexivity]. unfold gain. apply N.divide_mul_l. apply Hev; [|exact Hk].
        rewrite <- deals_filtered. apply deal_at_in; assumption. }
      unfold xdone in Hok. unfold xstep in E2. destruct (x_phase t) eqn:Ep.
      + destruct (_ <=? _); [|injection E2 as <- <-; exists bs; split; assumption]. apply bind_ret in E2 as (x1 & Ex1 & E2). destruct (_ =? _); [discriminate|]. apply bind_ret in E2 as (x2 & Ex2 & E2). apply bind_ret in E2 as ([x3 x4] & Ex3 & E2). injection E2 as <- <-. exists bs; split; assumption.
      + apply bind_ret in E2 as (x1 & Ex1 & E2). destruct (_ <=? _); [injection E2 as <- <-; exists bs; split; assumption|]. apply bind_ret in E2 as (x2 & Ex2 & E2). injection E2 as <- <-. exists bs; split; assumption.
      + destruct (Hok eq_refl) as [Hok1 Hok2]. apply bind_ret in E2 as ([[r1 stop1] msg1] & E3 & E2). apply bind_ret in E2 as (x2 & Ex2 & E2). injection E2 as <- <-. cbn [xs_results xs_msgs]. eexists. split; [eapply hist_step; [exact Hn9|exact Hm|exact Hok1|exact E3|exact HB]|].
        apply Forall_app. split; [exact Hl|]. constructor; [exact Hok2|constructor].
      + destruct (xs_stopped _); [injection E2 as <- <-; exists bs; split; assumption|]. apply bind_ret in E2 as (x2 & Ex2 & E2). injection E2 as <- <-. exists bs; split; assumption.
      + destruct (Hok eq_refl) as [Hok1 Hok2]. apply bind_ret in E2 as ([[r1 stop1] msg1] & E3 & E2). injection E2 as <- <-. cbn [xs_results xs_msgs]. eexists. split; [eapply hist_step; [exact Hn9|exact Hm|exact Hok1|exact E3|exact HB]|].
        apply Forall_app. split; [exact Hl|]. constructor; [exact Hok2|constructor].
      + injection E2 as <- <-. exists bs; split; assumption. }
  destruct (HI sched y Hf) as (bs & HB & Hl). exists bs. destruct (hist_finish Debug (length ranges) m flag _ _ bs Hfin HB) as [H1 H2]. auto.
Qed.

Lemma approx_even ranges board dead threads target cancelled shuf rngs fuel sched o : Forall range_ok ranges -> permutes shuf -> even_deals ranges board dead ->
  approx_equity Debug ranges board dead threads target cancelled shuf rngs fuel sched = Ret (ROk o) ->
  exists bs, hist Debug (length ranges) bs (o_results o) /\ Forall (even_batch (length ranges)) bs /\
    r_equities (o_results o) = get_equity (r_wins (o_results o)) (r_ties (o_results o)) /\ validate (length ranges) board dead = None.
Proof.
  intros Hr Hs Hev H. destruct (launch_of _ _ _ _ _ _ _ _ _ _ _ _ H) as (m & flag & y0 & y & HL & Hf & Hd & Hfin & _ & _).
  pose proof (proj1 HL) as Hval. destruct (alaunched _ _ _ _ _ _ _ _ _ _ _ _ Hr Hs HL) as (pss & crs & r0 & HS & Ey0).
  destruct (arun_n ranges board dead Hval) as [Hfn [Hn2 Hn9]]. pose proof (as_m5 _ _ _ _ _ _ _ _ _ _ _ HS) as Hm.
  assert (HI : forall sched y, foldM (aevent Debug m fuel) sched y0 = Ret y -> exists bs, hist Debug (length ranges) bs (xs_results (ay_shared y)) /\ Forall (even_batch (length ranges)) bs).
  { clear Hf Hd Hfin H sched y. intros sched. induction sched as [|e sched IH] using rev_ind; intros y Hf.
    - cbn [foldM] in Hf. injection Hf as <-. unfold ainit in Ey0. binv Ey0. injection Ey0 as <-. cbn [ay_shared xs_results xs_msgs]. exists []. split; [|constructor].
      destruct HS as [_ S1 S2 S3 S4 S5 S6 S7 S8 S9 S10 S11 S12 S13 S14 S15 S16 S17].
      match goal with H : r0 = with_hand_results _ _ |- _ => rewrite H end.
      change (@length (list combo) (filtered board dead ranges)) with (@length (list whand) (filtered board dead ranges)). rewrite Hfn. apply hist_init.
    - rewrite foldM_app in Hf. binv Hf. destruct (IH v E) as (bs & HB & Hl). cbn [foldM] in Hf. binv Hf. injection Hf as <-.
      destruct (athreads_ok Debug ranges board dead Hr Hval shuf target pss crs m r0 flag HS threads cancelled rngs fuel sched) as (y0' & Ey0' & Hrun).
      rewrite Ey0 in Ey0'. injection Ey0' as <-. destruct (runs_holds _ _ _ _ _ _ Hrun E) as (Hst & _).
      destruct e as [tid|]; cbn [aevent] in E0; [|injection E0 as <-; exists bs; split; assumption].
      destruct (nth_error (ay_threads v) tid) as [t|] eqn:Et; [|injection E0 as <-; exists bs; split; assumption].
      apply bind_ret in E0 as ([sh' t'] & E1 & E0). injection E0 as <-. cbn [ay_shared].
      assert (Hok : a_phase t <> ADone -> batch_ok Debug (length ranges) (a_stats t) /\ even_batch (length ranges) (b_wins_by_mask (s_batch (a_stats t)))).
      { intros Hnd. destruct (Hst tid t Et Hnd) as (ids & L & Hids & Hsh & Hag & Hgood & _). split; [eapply stats_batch_ok; [exact Hn9|exact Hids|exact Hsh|exact Hag]|].
        intros k i Hk. specialize (Hag (OMask i)). cbn [rd agr] in Hag. rewrite Hag. apply divide_sumf. intros s Hin. rewrite Forall_forall in Hgood. destruct (Hgood s Hin) as [Hd _].
        rewrite deals_filtered in Hd. unfold item_gain. cbn [one]. rewrite N.add_0_r. apply N.divide_mul_l. apply Hev; assumption. }
      unfold astep in E1. destruct (a_phase t) eqn:Ep.
      + destruct (_ || _); [discriminate|]. apply bind_ret in E1 as ([[ok r1] w1] & Ex1 & E1). injection E1 as <- <-. exists bs; split; assumption.
      + apply bind_ret in E1 as ([r1 st1] & Ex1 & E1). injection E1 as <- <-. exists bs; split; assumption.
      + destruct Hok as [Hok1 Hok2]; [discriminate|]. apply bind_ret in E1 as ([[r1 stop1] msg1] & E3 & E1). apply bind_ret in E1 as (x2 & Ex2 & E1). injection E1 as <- <-. cbn [xs_results xs_msgs]. eexists. split; [eapply hist_step; [exact Hn9|exact Hm|exact Hok1|exact E3|exact HB]|].
        apply Forall_app. split; [exact Hl|]. constructor; [exact Hok2|constructor].
      + destruct (xs_stopped _); [injection E1 as <- <-; exists bs; split; assumption|]. apply bind_ret in E1 as ([[ok r1] w1] & Ex1 & E1). injection E1 as <- <-. exists bs; split; assumption.
      + apply bind_ret in E1 as ([r1 w1] & Ex1 & E1). injection E1 as <- <-. exists bs; split; assumption.
      + destruct Hok as [Hok1 Hok2]; [discriminate|]. apply bind_ret in E1 as ([[r1 stop1] msg1] & E3 & E1). injection E1 as <- <-. cbn [xs_results xs_msgs]. eexists. split; [eapply hist_step; [exact Hn9|exact Hm|exact Hok1|exact E3|exact HB]|].
        apply Forall_app. split; [exact Hl|]. constructor; [exact Hok2|constructor].
      + injection E1 as <- <-. exists bs; split; assumption. }
  destruct (HI sched y Hf) as (bs & HB & Hl). exists bs. destruct (hist_finish Debug (length ranges) m flag _ _ bs Hfin HB) as [H1 H2]. auto.
Qed.

(* ------------------------------------------------------------------------- *)
(** * Nothing is lost *)

Lemma even_part n b k i : (n <= 9)%nat -> (i < 2 ^ n)%nat -> (k < n)%nat -> even_batch n b ->
  2520 * part b k i = nth i b 0 * share_of k (players_of n (N.of_nat i)).
Proof.
  intros Hn Hi Hk Hb. rewrite (share_mask n k i Hn Hi Hk). unfold part. destruct (N.testbit _ _) eqn:Eb; [|lia].
  pose proof (count_range n i Hn Hi (bit_nonzero _ _ Eb)) as Hc. pose proof (lcm_fact _ Hc) as HL.
  assert (Hcn : count_ones (N.of_nat i) <= N.of_nat n).
  { destruct (masks_fact n i Hn Hi) as [E _]. rewrite <- E. unfold players_of. pose proof (filter_length_le (fun k => N.testbit (N.of_nat i) (N.of_nat k)) (seq 0 n)) as HF. rewrite seq_length in HF. lia. }
  destruct (Hb (count_ones (N.of_nat i)) i ltac:(lia)) as [q Hq]. rewrite Hq. revert Hc HL. generalize (count_ones (N.of_nat i)). intros c Hc HL.
  rewrite N.div_mul by lia. rewrite <- N.mul_assoc, HL. lia.
Qed.
Lemma even_taken n k bs : (n <= 9)%nat -> (k < n)%nat -> Forall (even_batch n) bs -> 2520 * taken n k bs = chips n k bs.
Proof.
  intros Hn Hk Hb. unfold taken, chips. rewrite <- sumf_mul. apply sumf_ext. intros b Hin. rewrite Forall_forall in Hb. specialize (Hb b Hin). rewrite <- sumf_mul.
  apply sumf_ext. intros i Hi. apply in_seq in Hi. apply even_part; try assumption; lia.
Qed.
Lemma even_total n bs : (n <= 9)%nat -> Forall (even_batch n) bs -> sumf (fun k => taken n k bs) (seq 0 n) = won n bs.
Proof.
  intros Hn Hb. pose proof (chips_sum n bs Hn) as H.
  rewrite (sumf_ext _ (fun k => 2520 * taken n k bs)) in H by (intros k Hk; apply in_seq in Hk; symmetry; apply even_taken; try assumption; lia).
  rewrite sumf_mul in H. lia.
Qed.

(* the equities as quotients of whole numbers *)
Definition whole_equities (n : nat) (wbm : list N) : list f64 :=
  map (fun k => f_div (f_of_N (pot_shares n k wbm / 2520)) (f_of_N (pots wbm))) (seq 0 n).
Lemma even_equities n bs r : (n <= 9)%nat -> hist Debug n bs r -> Forall (even_batch n) bs -> sum_of (fun x => x) (r_wins_by_mask r) <= 2 ^ 53 ->
  get_equity (r_wins r) (r_ties r) = whole_equities n (r_wins_by_mask r) /\
  (0 < pots (r_wins_by_mask r) -> forall j, (j < n)%nat -> let e := nth j (get_equity (r_wins r) (r_ties r)) f_zero in
     number e /\ (Qabs (value e - ratio (pot_shares n j (r_wins_by_mask r)) (2520 * pots (r_wins_by_mask r))) <= Qpower 2 (-53))%Q).
Proof.
  intros Hn HH Hb Hfit. rewrite (weights_sum n bs r HH) in Hfit.
  assert (E : get_equity (r_wins r) (r_ties r) = whole_equities n (r_wins_by_mask r)).
  { rewrite (equities_int n bs r HH Hn Hfit), map_map. unfold whole_equities. apply map_ext_in. intros k Hk. apply in_seq in Hk.
    rewrite even_total by assumption. rewrite (pots_won n bs r HH), (shares_chips n bs r HH), <- (even_taken n k bs) by (try assumption; lia).
    rewrite N.mul_comm, N.div_mul by discriminate. reflexivity. }
  split; [exact E|]. intros Hw j Hj. cbv zeta. rewrite E. unfold whole_equities.
  rewrite (nth_indep _ f_zero (f_div (f_of_N (pot_shares n 0 (r_wins_by_mask r) / 2520)) (f_of_N (pots (r_wins_by_mask r))))) by (rewrite map_length, seq_length; exact Hj).
  rewrite (map_nth (fun k => f_div (f_of_N (pot_shares n k (r_wins_by_mask r) / 2520)) (f_of_N (pots (r_wins_by_mask r))))), seq_nth by exact Hj. cbn [Nat.add].
  rewrite (pots_won n bs r HH) in *. rewrite (shares_chips n bs r HH). rewrite <- (even_taken n j bs Hn Hj Hb). rewrite (N.mul_comm 2520), N.div_mul by discriminate.
  rewrite <- (even_total n bs Hn Hb) in *. set (S := sumf (fun k => taken n k bs) (seq 0 n)) in *.
  assert (Hx : taken n j bs <= S) by (apply (sumf_in_le (fun k => taken n k bs)); apply in_seq; lia).
  pose proof (taken_sum_le n bs Hn) as HS3. fold S in HS3.
  destruct (div_close _ _ Hx Hw ltac:(lia)) as [Hnum Hdiv]. split; [exact Hnum|].
  assert (ER : (ratio (taken n j bs * 2520) (2520 * S) == ratio (taken n j bs) S)%Q).
  { unfold ratio. rewrite !Z_of_mul. assert (Hz : (0 < inject_Z (Z.of_N S))%Q) by (apply (Z_of_lt 0); lia). field. lra. }
  rewrite ER. exact Hdiv.
Qed.

Lemma exact_whole p ranges board dead threads cancelled sched o : usable ranges -> p = Debug \/ weights_fit ranges board -> even_deals ranges board dead ->
  exact_equity p ranges board dead threads cancelled sched = Ret (ROk o) ->
  let r := o_results o in let n := length ranges in let w := pots (r_wins_by_mask r) in
  sum_of (fun x => x) (r_wins_by_mask r) <= 2 ^ 53 ->
  r_equities r = whole_equities n (r_wins_by_mask r) /\
  (0 < w -> forall j, (j < n)%nat -> let e := nth j (r_equities r) f_zero in
    number e /\ (Qabs (value e - ratio (pot_shares n j (r_wins_by_mask r)) (2520 * w)) <= Qpower 2 (-53))%Q).
Proof.
  intros Hu Hw Hev H. cbv zeta. intros Hs. apply exact_debug in H; [|exact Hu|exact Hw]. destruct (exact_even _ _ _ _ _ _ _ Hu Hev H) as (bs & HH & HB & HE & Hv).
  rewrite HE. apply (even_equities _ bs); try assumption. apply validate_none in Hv. lia.
Qed.
Lemma approx_whole p ranges board dead threads target cancelled shuf rngs fuel sched o : Forall range_ok ranges -> permutes shuf ->
  p = Debug \/ N.of_nat (length sched) * heaviest ranges < 2 ^ 64 -> even_deals ranges board dead ->
  approx_equity p ranges board dead threads target cancelled shuf rngs fuel sched = Ret (ROk o) ->
  let r := o_results o in let n := length ranges in let w := pots (r_wins_by_mask r) in
  sum_of (fun x => x) (r_wins_by_mask r) <= 2 ^ 53 ->
  r_equities r = whole_equities n (r_wins_by_mask r) /\
  (0 < w -> forall j, (j < n)%nat -> let e := nth j (r_equities r) f_zero in
    number e /\ (Qabs (value e - ratio (pot_shares n j (r_wins_by_mask r)) (2520 * w)) <= Qpower 2 (-53))%Q).
Proof.
  intros Hr Hp Hw Hev H. cbv zeta. intros Hs. apply approx_debug in H; try assumption. destruct (approx_even _ _ _ _ _ _ _ _ _ _ _ Hr Hp Hev H) as (bs & HH & HB & HE & Hv).
  rewrite HE. apply (even_equities _ bs); try assumption. apply validate_none in Hv. lia.
Qed.

(* ------------------------------------------------------------------------- *)
(** * Runs that are not cancelled *)

Lemma exact_even_true p ranges board dead threads sched o : usable ranges -> (length ranges <= 8)%nat -> p = Debug \/ weights_fit ranges board -> even_deals ranges board dead ->
  exact_equity p ranges board dead threads false sched = Ret (ROk o) -> ~ In Cancel sched -> (0 < threads)%nat ->
  let n := length ranges in let w := dealt_pots ranges board dead in
  w <= 2 ^ 53 ->
  r_equities (o_results o) = map (fun j => f_div (f_of_N (dealt_shares ranges board dead j / 2520)) (f_of_N w)) (seq 0 n) /\
  (0 < w -> forall j, (j < n)%nat -> let e := nth j (r_equities (o_results o)) f_zero in
    number e /\ (Qabs (value e - ratio (dealt_shares ranges board dead j) (2520 * w)) <= Qpower 2 (-53))%Q).
Proof.
  intros Hu H8 Hw Hev H Hc Ht. cbv zeta. pose proof (exact_whole _ _ _ _ _ _ _ _ Hu Hw Hev H) as HC. apply exact_debug in H; [|exact Hu|exact Hw].
  destruct (masks_spec _ _ _ _ _ _ _ Hu H Hc Ht) as [HL HM]. specialize (HM H8). cbn [counter] in HM.
  destruct (RunProofs.full_run _ _ _ _ _ _ _ Hu H Hc Ht) as (D & e & HP & Hn & Hrep).
  pose proof (true_pots ranges board dead _ ltac:(lia) HL HM) as EP. pose proof (true_shares ranges board dead _ ltac:(lia) HL HM) as ES.
  assert (ET : sum_of (fun x => x) (r_wins_by_mask (o_results o)) = dealt_pots ranges board dead).
  { rewrite <- sumf_sum_of. rewrite (masks_total Debug ranges board dead D [] e _ (proj1 Hu) Hn ltac:(rewrite app_nil_r; exact HP) Hrep (or_introl eq_refl)).
    rewrite (sum_over_perm _ _ _ _ _ HP). apply sum_over_total. }
  cbv zeta in HC. rewrite ET, EP in HC. intros Hb. destruct (HC Hb) as [HC1 HC2]. split.
  - rewrite HC1. unfold whole_equities. rewrite EP. apply map_ext_in. intros j _. rewrite ES. reflexivity.
  - intros H0 j Hj. specialize (HC2 H0 j Hj). rewrite ES in HC2. exact HC2.
Qed.
Lemma even_threads p q ranges board dead threads threads' sched sched' o o' : usable ranges -> (length ranges <= 8)%nat -> weights_fit ranges board ->
  even_deals ranges board dead -> dealt_pots ranges board dead <= 2 ^ 53 ->
  exact_equity p ranges board dead threads false sched = Ret (ROk o) -> ~ In Cancel sched -> (0 < threads)%nat ->
  exact_equity q ranges board dead threads' false sched' = Ret (ROk o') -> ~ In Cancel sched' -> (0 < threads')%nat ->
  r_equities (o_results o) = r_equities (o_results o').
Proof.
  intros Hu H8 Hw Hev Hb H1 Hc1 Ht1 H2 Hc2 Ht2.
  destruct (exact_even_true _ _ _ _ _ _ _ Hu H8 (or_intror Hw) Hev H1 Hc1 Ht1 Hb) as [E1 _]. destruct (exact_even_true _ _ _ _ _ _ _ Hu H8 (or_intror Hw) Hev H2 Hc2 Ht2 Hb) as [E2 _].
  rewrite E1, E2. reflexivity.
Qed.

(* ------------------------------------------------------------------------- *)
(** * Two players *)

Lemma even_two r1 r2 board dead : Forall (fun h => N.even (weight h) = true) r1 \/ Forall (fun h => N.even (weight h) = true) r2 -> even_deals [r1; r2] board dead.
Proof.
  intros H d k Hd Hk. apply filter_In in Hd as [Hd _]. cbn [picks] in Hd. apply in_flat_map in Hd as (a & Ha & Hd). apply in_map_iff in Hd as (d' & <- & Hd).
  apply in_flat_map in Hd as (b & Hb & Hd). apply in_map_iff in Hd as (d'' & <- & [<-|[]]). cbn [length] in Hk.
  unfold deal_weight. cbn [map fold_right fold_left].
  assert (E : k = 1 \/ k = 2) by lia. destruct E as [E|E]; subst k; [apply N.divide_1_l|].
  assert (HE : forall x, N.even x = true -> N.divide 2 x) by (intros x Hx; apply N.even_spec in Hx as [q ->]; exists q; lia).
  rewrite !Forall_forall in H. destruct H as [H|H]; [specialize (HE _ (H _ Ha))|specialize (HE _ (H _ Hb))]; repeat (first [exact HE|apply N.divide_mul_l; exact HE|apply N.divide_mul_r]).
Qed.
