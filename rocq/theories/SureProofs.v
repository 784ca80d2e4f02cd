(* Players who never win and players who always win: their equities are exactly 0 and 1. *)
From Coq Require Import Floats.SpecFloat QArith Qabs Qpower Lqa Permutation.
From Verif Require Import Base BaseProofs SumFacts Ghost Float64 FloatProofs FloatSumProofs EquityFloatProofs Hand FastDivide Range Combined Sim Approx SpecPoker ListFacts PokerFacts
  SpecNames SpecHand SpecRange SpecEquity SpecResults SpecRun SpecApprox SpecShare SpecSure EnumProofs ShowdownProofs BoardProofs CombinedProofs PositionProofs MergeProofs
  MachineProofs SetupProofs WeightProofs FinalProofs ExactProofs ResultProofs CombineRunProofs RunProofs LaunchProofs ConsistProofs WalkProofs ApproxProofs ApproxRunProofs ApproxResultProofs ConvergeProofs ConvergeRunProofs ConvergeResultProofs EquityProofs ProfileProofs ShareProofs EvenProofs.
Local Open Scope N_scope.

#[local] Opaque NUM_HANDS.

(* ------------------------------------------------------------------------- *)
(** * What the batches count *)

(* b counts the winners of some deals on some boards *)
Definition counts (p : profile) (ranges : list (list whand)) (board dead : N) (b : list N) : Prop :=
  exists L : list (list whand * list N), Forall (fun s => In (fst s) (deals ranges board dead) /\ exists l, In l (boards board dead (fst s)) /\ Permutation (snd s) l) L /\
    forall i, agr p (nth i b 0) (sumf (fun s => deal_weight (fst s) * eff (fst s) (slot_of p (fst s)) (OMask i) (snd s)) L).

Lemma exact_counts p ranges board dead threads cancelled sched o : usable ranges -> exact_equity p ranges board dead threads cancelled sched = Ret (ROk o) ->
  exists bs, hist p (length ranges) bs (o_results o) /\ Forall (counts p ranges board dead) bs /\
    r_equities (o_results o) = get_equity (r_wins (o_results o)) (r_ties (o_results o)) /\ validate (length ranges) board dead = None.
Proof.
  intros Hu H. destruct (launched _ _ _ _ _ _ _ _ H) as (m & flag & dvs & y0 & y & r & HL & Hf & Hd & Hfin & ->). cbn [o_results o_progress].
  destruct (launch_started p ranges board dead threads cancelled m flag dvs y0 Hu HL) as (pss & crs & r0 & HS & Hv & Hsize & Hr & Ey0).
  destruct (run_n ranges board dead Hv Hsize) as [Hfn [Hn2 Hn9]]. pose proof (st_m5 _ _ _ _ _ _ _ _ _ _ HS) as Hm.
  pose proof (st_perm p ranges board dead pss crs m r0 flag dvs HS) as HP. pose proof (st_pos _ _ _ _ _ _ _ _ _ _ HS) as Hpos.
  destruct (threads_ok p ranges board dead Hr Hv Hsize pss crs m r0 flag dvs HS) as (E & _ & Hrun).
  assert (HI : forall sched y, foldM (xevent p m dvs) sched y0 = Ret y -> exists bs, hist p (length ranges) bs (xs_results (xy_shared y)) /\ Forall (counts p ranges board dead) bs).
  { clear Hf Hd Hfin H sched y. intros sched. induction sched as [|e sched IH] using rev_ind; intros y Hf.
    - cbn [foldM] in Hf. injection Hf as <-. unfold xinit in Ey0. binv Ey0. injection Ey0 as <-. cbn [xy_shared xs_results xs_msgs]. exists []. split; [|constructor].
      rewrite (st_r0 _ _ _ _ _ _ _ _ _ _ HS). change (@length (list combo) (filtered board dead ranges)) with (@length (list whand) (filtered board dead ranges)). rewrite Hfn. apply hist_init.
    - rewrite foldM_app in Hf. binv Hf. destruct (IH v E0) as (bs & HB & Hl). cbn [foldM] in Hf. binv Hf. injection Hf as <-.
      destruct (Hrun threads cancelled sched) as (y0' & Ey0' & _ & _ & _ & _ & Hst). rewrite Ey0 in Ey0'. injection Ey0' as <-. specialize (Hst v E0).
      destruct e as [tid|]; cbn [xevent] in E1; [|injection E1 as <-; exists bs; split; assumption].
      destruct (nth_error (xy_threads v) tid) as [t|] eqn:Et; [|injection E1 as <-; exists bs; split; assumption].
      apply bind_ret in E1 as ([sh' t'] & E2 & E1). injection E1 as <-. cbn [xy_shared].
      assert (Hok : xdone t = false -> batch_ok p (length ranges) (x_stats t) /\ counts p ranges board dead (b_wins_by_mask (s_batch (x_stats t)))).
      { intros Hnd. destruct (Hst t (nth_error_In _ _ Et) Hnd) as (ids & L & Hids & Hsh & Hag). split; [eapply stats_batch_ok; [exact Hn9|exact Hids|exact Hsh|exact Hag]|].
        set (fr := filtered board dead ranges) in *.
        exists (flat_map (fun x => if ok_at fr pss board dead x then map (pair (deal_at fr pss x)) (boards board dead (deal_at fr pss x)) else []) L). split.
        - apply Forall_forall. intros s Hs. apply in_flat_map in Hs as (x & _ & Hs). destruct (ok_at fr pss board dead x) eqn:Eo; [|destruct Hs].
          apply in_map_iff in Hs as (l & <- & Hl2). cbn [fst snd]. split; [|exists l; split; [exact Hl2|reflexivity]].
          rewrite <- deals_filtered. apply deal_at_in; assumption.
        - intros i. specialize (Hag (OMask i)). cbn [rd] in Hag. match goal with |- agr _ _ ?b => match type of Hag with agr _ _ ?a => replace b with a; [exact Hag|] end end.
          clear. induction L as [|x L IH]; [reflexivity|]. cbn [flat_map]. rewrite sumf_cons, sumf_app, IH. f_equal. unfold pgain.
          destruct (ok_at fr pss board dead x); [|reflexivity]. unfold gain. rewrite sumf_map. cbn [fst snd]. symmetry. apply sumf_mul. }
      unfold xdone in Hok. unfold xstep in E2. destruct (x_phase t) eqn:Ep.
      + destruct (_ <=? _); [|injection E2 as <- <-; exists bs; split; assumption]. apply bind_ret in E2 as (x1 & Ex1 & E2). destruct (_ =? _); [discriminate|]. apply bind_ret in E2 as (x2 & Ex2 & E2). apply bind_ret in E2 as ([x3 x4] & Ex3 & E2). injection E2 as <- <-. exists bs; split; assumption.
      + apply bind_ret in E2 as (x1 & Ex1 & E2). destruct (_ <=? _); [injection E2 as <- <-; exists bs; split; assumption|]. apply bind_ret in E2 as (x2 & Ex2 & E2). injection E2 as <- <-. exists bs; split; assumption.
      + destruct (Hok eq_refl) as [Hok1 Hok2]. apply bind_ret in E2 as ([[r1 stop1] msg1] & E3 & E2). apply bind_ret in E2 as (x2 & Ex2 & E2). injection E2 as <- <-. cbn [xs_results xs_msgs]. eexists. split; [eapply hist_step; [exact Hn9|exact Hm|exact Hok1|exact E3|exact HB]|].
        apply Forall_app. split; [exact Hl|]. constructor; [exact Hok2|constructor].
      + destruct (xs_stopped _); [injection E2 as <- <-; exists bs; split; assumption|]. apply bind_ret in E2 as (x2 & Ex2 & E2). injection E2 as <- <-. exists bs; split; assumption.
      + destruct (Hok eq_refl) as [Hok1 Hok2]. apply bind_ret in E2 as ([[r1 stop1] msg1] & E3 & E2). injection E2 as <- <-. cbn [xs_results xs_msgs]. eexists. split; [eapply hist_step; [exact Hn9|exact Hm|exact Hok1|exact E3|exact HB]|].
        apply Forall_app. split; [exact Hl|]. constructor; [exact Hok2|constructor].
      + injection E2 as <- <-. exists bs; split; assumption. }
  destruct (HI sched y Hf) as (bs & HB & Hl). exists bs. destruct (hist_finish p (length ranges) m flag _ _ bs Hfin HB) as [H1 H2]. auto.
Qed.

Lemma filter_choose {A} (f : A -> bool) (l : list A) : In (filter f l) (choose (length (filter f l)) l).
Proof.
  induction l as [|x l IH]; [left; reflexivity|]. cbn [filter]. destruct (f x).
  - cbn [length choose]. apply in_or_app. left. apply in_map. exact IH.
  - destruct (filter f l) as [|y t] eqn:E; [rewrite choose_0; left; reflexivity|]. cbn [length choose] in *. apply in_or_app. right. exact IH.
Qed.
Lemma good_board board dead d l cs : l = mask_cards board ++ cs -> length l = 5%nat -> NoDup (dealt d ++ l) -> Forall (fun c => c < 52 /\ N.testbit dead c = false) cs ->
  exists l', In l' (boards board dead d) /\ Permutation l l'.
Proof.
  intros El H5 Hnd Hcs. set (t := filter (fun c => existsb (N.eqb c) cs) (unseen board dead d)).
  assert (Hn : NoDup cs) by (rewrite El in Hnd; eapply NoDup_app_r; eapply NoDup_app_r; exact Hnd).
  assert (HP : Permutation cs t).
  { apply NoDup_Permutation; [exact Hn| |].
    - unfold t, unseen. apply NoDup_filter, NoDup_filter. apply nseq_NoDup.
    - intros c. unfold t. rewrite filter_In, existsb_exists. split.
      + intros Hc. rewrite Forall_forall in Hcs. destruct (Hcs c Hc) as [C1 C2]. split; [|exists c; split; [exact Hc|apply N.eqb_refl]].
        unfold unseen. apply filter_In. split; [apply nseq_In; lia|]. apply andb_true_iff. split; apply negb_true_iff; apply not_true_is_false; intros Hx.
        * unfold on_table in Hx. rewrite C2, orb_false_r in Hx. rewrite El in Hnd. apply NoDup_app_r in Hnd. apply (NoDup_app_disj _ _ c Hnd); [|exact Hc].
          unfold mask_cards. apply filter_In. split; [apply nseq_In; lia|exact Hx].
        * apply existsb_exists in Hx as (c' & Hc' & Ec). apply N.eqb_eq in Ec. subst c'. apply (NoDup_app_disj _ _ c Hnd Hc'). rewrite El. apply in_or_app. right. exact Hc.
      + intros [_ (c' & Hc' & Ec)]. apply N.eqb_eq in Ec. subst c'. exact Hc'. }
  exists (mask_cards board ++ t). split.
  - unfold boards. apply in_map. rewrite El, app_length in H5. replace (5 - length (mask_cards board))%nat with (length t) by (rewrite <- (Permutation_length HP); lia).
    apply filter_choose.
  - rewrite El. apply Permutation_app_head. exact HP.
Qed.

Lemma approx_counts p ranges board dead threads target cancelled shuf rngs fuel sched o : Forall range_ok ranges -> permutes shuf ->
  approx_equity p ranges board dead threads target cancelled shuf rngs fuel sched = Ret (ROk o) ->
  exists bs, hist p (length ranges) bs (o_results o) /\ Forall (counts p ranges board dead) bs /\
    r_equities (o_results o) = get_equity (r_wins (o_results o)) (r_ties (o_results o)) /\ validate (length ranges) board dead = None.
Proof.
  intros Hr Hs H. destruct (launch_of _ _ _ _ _ _ _ _ _ _ _ _ H) as (m & flag & y0 & y & HL & Hf & Hd & Hfin & _ & _).
  pose proof (proj1 HL) as Hval. destruct (alaunched _ _ _ _ _ _ _ _ _ _ _ _ Hr Hs HL) as (pss & crs & r0 & HS & Ey0).
  destruct (arun_n ranges board dead Hval) as [Hfn [Hn2 Hn9]]. pose proof (as_m5 _ _ _ _ _ _ _ _ _ _ _ HS) as Hm.
  assert (HI : forall sched y, foldM (aevent p m fuel) sched y0 = Ret y -> exists bs, hist p (length ranges) bs (xs_results (ay_shared y)) /\ Forall (counts p ranges board dead) bs).
  { clear Hf Hd Hfin H sched y. intros sched. induction sched as [|e sched IH] using rev_ind; intros y Hf.
    - cbn [foldM] in Hf. injection Hf as <-. unfold ainit in Ey0. binv Ey0. injection Ey0 as <-. cbn [ay_shared xs_results xs_msgs]. exists []. split; [|constructor].
      destruct HS as [_ S1 S2 S3 S4 S5 S6 S7 S8 S9 S10 S11 S12 S13 S14 S15 S16 S17].
      match goal with H : r0 = with_hand_results _ _ |- _ => rewrite H end.
      change (@length (list combo) (filtered board dead ranges)) with (@length (list whand) (filtered board dead ranges)). rewrite Hfn. apply hist_init.
    - rewrite foldM_app in Hf. binv Hf. destruct (IH v E) as (bs & HB & Hl). cbn [foldM] in Hf. binv Hf. injection Hf as <-.
      destruct (athreads_ok p ranges board dead Hr Hval shuf target pss crs m r0 flag HS threads cancelled rngs fuel sched) as (y0' & Ey0' & Hrun).
      rewrite Ey0 in Ey0'. injection Ey0' as <-. destruct (runs_holds _ _ _ _ _ _ Hrun E) as (Hst & _).
      destruct e as [tid|]; cbn [aevent] in E0; [|injection E0 as <-; exists bs; split; assumption].
      destruct (nth_error (ay_threads v) tid) as [t|] eqn:Et; [|injection E0 as <-; exists bs; split; assumption].
      apply bind_ret in E0 as ([sh' t'] & E1 & E0). injection E0 as <-. cbn [ay_shared].
      assert (Hok : a_phase t <> ADone -> batch_ok p (length ranges) (a_stats t) /\ counts p ranges board dead (b_wins_by_mask (s_batch (a_stats t)))).
      { intros Hnd. destruct (Hst tid t Et Hnd) as (ids & L & Hids & Hsh & Hag & Hgood & _). split; [eapply stats_batch_ok; [exact Hn9|exact Hids|exact Hsh|exact Hag]|].
        exists L. split.
        - eapply Forall_impl; [|exact Hgood]. cbv beta. intros s [G1 (cs & G2 & G3 & G4 & G5)]. rewrite deals_filtered in G1. split; [exact G1|].
          exact (good_board _ _ _ _ _ G2 G3 G4 G5).
        - intros i. specialize (Hag (OMask i)). cbn [rd] in Hag. match goal with |- agr _ _ ?b => match type of Hag with agr _ _ ?a => replace b with a; [exact Hag|] end end.
          apply sumf_ext. intros s _. unfold item_gain. cbn [one]. apply N.add_0_r. }
      unfold astep in E1. destruct (a_phase t) eqn:Ep.
      + destruct (_ || _); [discriminate|]. apply bind_ret in E1 as ([[ok r1] w1] & Ex1 & E1). injection E1 as <- <-. exists bs; split; assumption.
      + apply bind_ret in E1 as ([r1 st1] & Ex1 & E1). injection E1 as <- <-. exists bs; split; assumption.
      + destruct Hok as [Hok1 Hok2]; [discriminate|]. apply bind_ret in E1 as ([[r1 stop1] msg1] & E3 & E1). apply bind_ret in E1 as (x2 & Ex2 & E1). injection E1 as <- <-. cbn [xs_results xs_msgs]. eexists. split; [eapply hist_step; [exact Hn9|exact Hm|exact Hok1|exact E3|exact HB]|].
        apply Forall_app. split; [exact Hl|]. constructor; [exact Hok2|constructor].
      + destruct (xs_stopped _); [injection E1 as <- <-; exists bs; split; assumption|]. apply bind_ret in E1 as ([[ok r1] w1] & Ex1 & E1). injection E1 as <- <-. exists bs; split; assumption.
      + apply bind_ret in E1 as ([r1 w1] & Ex1 & E1). injection E1 as <- <-. exists bs; split; assumption.
      + destruct Hok as [Hok1 Hok2]; [discriminate|]. apply bind_ret in E1 as ([[r1 stop1] msg1] & E3 & E1). injection E1 as <- <-. cbn [xs_results xs_msgs]. eexists. split; [eapply hist_step; [exact Hn9|exact Hm|exact Hok1|exact E3|exact HB]|].
        apply Forall_app. split; [exact Hl|]. constructor; [exact Hok2|constructor].
      + injection E1 as <- <-. exists bs; split; assumption. }
  destruct (HI sched y Hf) as (bs & HB & Hl). exists bs. destruct (hist_finish p (length ranges) m flag _ _ bs Hfin HB) as [H1 H2]. auto.
Qed.

(* ------------------------------------------------------------------------- *)
(** * Masks nobody can reach stay empty *)

Lemma winners_order d l l' : Permutation l l' -> winners d l = winners d l'.
Proof.
  intros H. assert (Hb : forall h, best (two_cards h ++ l) = best (two_cards h ++ l')) by (intros h; apply best_perm, Permutation_app_head; exact H).
  unfold winners. apply filter_ext. intros i. rewrite Hb. generalize (holding d i). intros x. induction d as [|h d IH]; [reflexivity|]. cbn [forallb]. rewrite Hb, IH. reflexivity.
Qed.
Lemma eff_zero p ranges board dead i b : counts p ranges board dead b ->
  (forall d l, In d (deals ranges board dead) -> In l (boards board dead d) -> N.to_nat (wmask (winners d l)) <> i) -> nth i b 0 = 0.
Proof.
  intros (L & HL & Hag) Hi. specialize (Hag i). rewrite sumf_zero in Hag; [|].
  - apply (agr_exact p _ 0 Hag). reflexivity.
  - intros s Hs. rewrite Forall_forall in HL. destruct (HL s Hs) as (Hd & l & Hl & HP). cbn [eff].
    rewrite (winners_order _ _ _ HP). destruct (Nat.eqb_spec (N.to_nat (wmask (winners (fst s) l))) i) as [E|E]; [|cbn [b2n]; apply N.mul_0_r].
    exfalso. exact (Hi _ _ Hd Hl E).
Qed.
Lemma never_masks p ranges board dead k bs : Forall (counts p ranges board dead) bs -> never_wins ranges board dead k ->
  forall b i, In b bs -> N.testbit (N.of_nat i) (N.of_nat k) = true -> nth i b 0 = 0.
Proof.
  intros HC Hk b i Hb Hi. rewrite Forall_forall in HC. apply (eff_zero p ranges board dead); [exact (HC b Hb)|].
  intros d l Hd Hl E. apply (Hk d l Hd Hl). rewrite <- E, N2Nat.id, wmask_bit in Hi. apply existsb_exists in Hi as (j & Hj & Ej). apply Nat.eqb_eq in Ej. subst j.
  unfold seen in Hj. apply filter_In in Hj as [Hj _]. exact Hj.
Qed.
Lemma never_counters p ranges board dead k bs r : Forall (counts p ranges board dead) bs -> never_wins ranges board dead k -> hist p (length ranges) bs r -> (k < length ranges)%nat ->
  nth k (r_wins r) 0 = 0 /\ nth k (r_ties r) f_zero = f_zero.
Proof.
  intros HC Hk HH Hlt. pose proof (never_masks p ranges board dead k bs HC Hk) as HM. split.
  - pose proof (h_single _ _ _ _ HH k Hlt) as Hs. unfold msum in Hs. rewrite sumf_zero in Hs; [apply (agr_exact p _ 0 Hs); reflexivity|].
    intros b Hb. apply HM; [exact Hb|]. rewrite Nat2N.inj_pow. change (N.of_nat 2) with 2. apply N.pow2_bits_true.
  - rewrite (h_tie _ _ _ _ HH k Hlt). unfold tie_total. clear HC HH. revert HM. generalize (seq 0 (2 ^ length ranges)). intros is HM.
    induction bs as [|b bs IH]; [reflexivity|]. cbn [fold_left].
    assert (E : fold_left (tie_step b k) is f_zero = f_zero).
    { clear IH. induction is as [|i is IHi]; [reflexivity|]. cbn [fold_left]. unfold tie_step at 2. destruct (N.testbit (N.of_nat i) (N.of_nat k)) eqn:Eb; cbn [andb]; [|exact IHi].
      rewrite (HM b i (or_introl eq_refl) Eb). destruct (negb _); [|exact IHi]. replace (0 / count_ones (N.of_nat i)) with 0 by (destruct (count_ones (N.of_nat i)); reflexivity). exact IHi. }
    rewrite E. apply IH. intros b' i Hb'. apply HM. right. exact Hb'.
Qed.

(* ------------------------------------------------------------------------- *)
(** * The quotients *)

Lemma entries_upto p n bs r : (n <= 9)%nat -> hist p n bs r -> exists vs, Forall2 (upto_B 119) (map (fun '(w, t) => f_add (f_add f_zero (f_of_N w)) t) (combine (r_wins r) (r_ties r))) vs.
Proof.
  intros Hn [H1 H2 H3 H4 H5 H6 H7 H8].
  assert (Hw : Forall (fun w => w < 2 ^ 64) (r_wins r)).
  { apply Forall_nth. intros j d Hj. rewrite (nth_indep _ d 0 Hj). rewrite H2 in Hj. assert (Hp : (2 ^ j < 2 ^ n)%nat) by (apply Nat.pow_lt_mono_r; lia).
    rewrite (agr_fun p _ _ _ (H6 j Hj) (H5 _ Hp)). apply (proj1 (Forall_nth _ _) H4). lia. }
  assert (Ht : Forall tie_ok (r_ties r)).
  { apply Forall_nth. intros j d Hj. rewrite (nth_indep _ d f_zero Hj). rewrite H1 in Hj. rewrite (H7 j Hj). apply tie_total_ok. exact H8. }
  clear - Hw Ht. revert Ht. generalize (r_ties r). induction Hw as [|w ws Hw0 Hw IH]; intros [|t ts] Ht; try (exists []; constructor).
  inversion Ht as [|? ? (v & Hv) Ht']; subst. destruct (IH ts Ht') as (vs & F2). cbn [combine map]. destruct (of_N_upto w Hw0) as (x & Hx & Hx1).
  assert (Ez : f_add f_zero (f_of_N w) = f_of_N w).
  { destruct (proj1 Hx) as [[E _]|[Nx _]]; [rewrite E; reflexivity|eapply num_add; exact Nx]. }
  rewrite Ez. destruct (add_upto 118 118 (f_of_N w) t x v ltac:(lia) ltac:(lia) ltac:(lia) (upto_more 64 118 _ _ ltac:(lia) Hx) Hv) as (z & Hz & _).
  exists (z :: vs). constructor; [exact Hz|exact F2].
Qed.
Lemma self_div k x v : (k < 150)%Z -> upto_B k x v -> x = f_zero \/ f_div x x = f_1.
Proof.
  intros Hk [[[E _]|[Nx Lx]] Ux]; [left; exact E|right].
  assert (Hm : mid_range v).
  { split; [apply Qle_trans with (B 0); [apply B_le; lia|exact Lx]|]. apply Qle_trans with (1 := Ux). apply B_le. lia. }
  destruct (div_ok x x v v Nx Nx Hm Hm) as (q & Hq). assert (E1 : (v / v == 1)%Q) by (field; lra).
  assert (HF : F (v / v)) by (destruct (F_B 0) as (a & e & Ha & He); exists a, e; split; [exact Ha|]; rewrite E1, <- He; reflexivity).
  pose proof (rounded_exact _ _ _ Hq HF) as Eq. destruct Hq as [Hq _].
  apply (num_unique _ _ q 1 Hq); [|rewrite Eq; exact E1]. unfold f_1. apply (int_float 1). lia.
Qed.

(* nobody won anything and every equity is NaN *)
Definition no_pots (r : results) : Prop :=
  Forall (fun w => w = 0) (r_wins r) /\ Forall (fun t => t = f_zero) (r_ties r) /\ Forall (fun e => f_is_nan e = true) (get_equity (r_wins r) (r_ties r)).

Lemma nth_combine_map {A B C} (f : A * B -> C) (la : list A) (lb : list B) a b c k : (k < length la)%nat -> (k < length lb)%nat -> nth k (map f (combine la lb)) c = f (nth k la a, nth k lb b).
Proof.
  revert lb k. induction la as [|x la IH]; intros [|y lb] [|k] Ha Hb; cbn [length] in *; try lia; [reflexivity|]. cbn [combine map nth]. apply IH; lia.
Qed.
Lemma never_zero p ranges board dead k bs r : (length ranges <= 9)%nat -> Forall (counts p ranges board dead) bs -> hist p (length ranges) bs r -> (k < length ranges)%nat ->
  never_wins ranges board dead k -> no_pots r \/ nth k (get_equity (r_wins r) (r_ties r)) f_1 = f_zero.
Proof.
  intros H9 HC HH Hk Hnw. destruct (hist_range p _ bs r H9 HH) as [H|H]; [left; exact H|right].
  destruct (never_counters p ranges board dead k bs r HC Hnw HH Hk) as [E1 E2]. destruct (entries_upto p _ bs r H9 HH) as (vs & F2).
  unfold get_equity in *. set (es := map (fun '(w, t) => f_add (f_add f_zero (f_of_N w)) t) (combine (r_wins r) (r_ties r))) in *.
  assert (Hlen : length es = length ranges) by (unfold es; rewrite map_length, combine_length, (h_wins _ _ _ _ HH), (h_ties _ _ _ _ HH); lia).
  destruct (sum_upto es vs 119 f_zero 0 F2 ltac:(lia) ltac:(lia) (upto_zero 119)) as (z & Hz & _).
  assert (Ek : nth k es f_zero = f_zero).
  { unfold es. rewrite (nth_combine_map _ _ _ 0 f_zero) by (rewrite ?(h_wins _ _ _ _ HH), ?(h_ties _ _ _ _ HH); exact Hk). rewrite E1, E2. reflexivity. }
  rewrite Forall_forall in H. specialize (H (nth k (map (fun e => f_div e (fold_left f_add es f_zero)) es) f_1) ltac:(apply nth_In; rewrite map_length; lia)).
  rewrite (nth_indep _ f_1 (f_div f_zero (fold_left f_add es f_zero))) in * by (rewrite map_length; lia).
  rewrite (map_nth (fun e => f_div e (fold_left f_add es f_zero))), Ek in *.
  destruct Hz as [[[E _]|[(m & e & E & _) _]] _]; rewrite E in *; [destruct H as [H _]; discriminate|reflexivity].
Qed.

Lemma fold_single (es : list f64) k : (k < length es)%nat -> (exists v, upto_B 119 (nth k es f_zero) v) -> (forall j, j <> k -> nth j es f_zero = f_zero) -> fold_left f_add es f_zero = nth k es f_zero.
Proof.
  assert (HZ : forall es x, (forall v : nat, nth v es f_zero = f_zero) -> (exists v, upto_B 119 x v) -> fold_left f_add es x = x).
  { clear. induction es as [|y es IH]; intros x H Hx; [reflexivity|]. cbn [fold_left]. pose proof (H 0%nat) as H0. cbn [nth] in H0. rewrite H0.
    assert (E : f_add x f_zero = x) by (destruct Hx as (v & [[[-> _]|[Nx _]] _]); [reflexivity|eapply add_zero_r; exact Nx]). rewrite E. apply IH; [|exact Hx]. intros v. exact (H (S v)). }
  revert k. induction es as [|y es IH]; intros k Hk Hx H; cbn [length] in Hk; [lia|]. cbn [fold_left]. destruct k as [|k].
  - cbn [nth] in *. assert (E : f_add f_zero y = y) by (destruct Hx as (v & [[[-> _]|[Nx _]] _]); [reflexivity|eapply num_add; exact Nx]). rewrite E. apply HZ; [|exact Hx].
    intros v. exact (H (S v) ltac:(lia)).
  - pose proof (H 0%nat ltac:(lia)) as H0. cbn [nth] in H0. rewrite H0. change (f_add f_zero f_zero) with f_zero. cbn [nth]. apply IH; [lia|exact Hx|]. intros j Hj. exact (H (S j) ltac:(lia)).
Qed.
Lemma always_one p ranges board dead k bs r : (length ranges <= 9)%nat -> Forall (counts p ranges board dead) bs -> hist p (length ranges) bs r -> (k < length ranges)%nat ->
  always_wins ranges board dead k -> no_pots r \/ get_equity (r_wins r) (r_ties r) = map (fun j => if (j =? k)%nat then f_1 else f_zero) (seq 0 (length ranges)).
Proof.
  intros H9 HC HH Hk Haw. destruct (hist_range p _ bs r H9 HH) as [H|H]; [left; exact H|right].
  assert (Hnw : forall j, j <> k -> never_wins ranges board dead j).
  { intros j Hj d l Hd Hl Hin. rewrite (Haw d l Hd Hl) in Hin. destruct Hin as [->|[]]. contradiction. }
  destruct (entries_upto p _ bs r H9 HH) as (vs & F2).
  unfold get_equity in *. set (es := map (fun '(w, t) => f_add (f_add f_zero (f_of_N w)) t) (combine (r_wins r) (r_ties r))) in *.
  assert (Hlen : length es = length ranges) by (unfold es; rewrite map_length, combine_length, (h_wins _ _ _ _ HH), (h_ties _ _ _ _ HH); lia).
  assert (Eo : forall j, j <> k -> nth j es f_zero = f_zero).
  { intros j Hj. destruct (Nat.lt_ge_cases j (length ranges)) as [Hl|Hl]; [|apply nth_overflow; lia].
    destruct (never_counters p ranges board dead j bs r HC (Hnw j Hj) HH Hl) as [E1 E2]. unfold es.
    rewrite (nth_combine_map _ _ _ 0 f_zero) by (rewrite ?(h_wins _ _ _ _ HH), ?(h_ties _ _ _ _ HH); exact Hl). rewrite E1, E2. reflexivity. }
  assert (Hx : exists v, upto_B 119 (nth k es f_zero) v).
  { clear - F2 Hlen Hk. assert (Hk' : (k < length es)%nat) by lia. clear Hk Hlen. revert k Hk'. induction F2 as [|x v es vs Hx _ IH]; intros [|k] Hk; cbn [length] in Hk; try lia; [exists v; exact Hx|]. cbn [nth]. apply IH. lia. }
  assert (Hs : fold_left f_add es f_zero = nth k es f_zero) by (apply fold_single; [lia|exact Hx|exact Eo]).
  rewrite Hs in *. destruct Hx as (v & Hx).
  assert (Hd : f_div (nth k es f_zero) (nth k es f_zero) = f_1).
  { destruct (self_div 119 _ v ltac:(lia) Hx) as [E|E]; [|exact E]. exfalso. rewrite Forall_forall in H.
    specialize (H (f_div (nth k es f_zero) (nth k es f_zero)) ltac:(apply (in_map (fun e => f_div e (nth k es f_zero))), nth_In; lia)). rewrite E in H. destruct H as [H _]. discriminate. }
  assert (Hz : f_div f_zero (nth k es f_zero) = f_zero).
  { destruct Hx as [[[E _]|[(m & e & E & _) _]] _]; rewrite E in *; [discriminate Hd|reflexivity]. }
  apply (nth_ext_map f_zero (fun j => if (j =? k)%nat then f_1 else f_zero) _ _ (fun x => x)); [rewrite map_length; exact Hlen|].
  intros j Hj. rewrite (nth_indep _ f_zero (f_div f_zero (nth k es f_zero))) by (rewrite map_length; lia). rewrite (map_nth (fun e => f_div e (nth k es f_zero))).
  destruct (Nat.eqb_spec j k) as [->|Hne]; [exact Hd|]. rewrite (Eo j Hne). exact Hz.
Qed.

Lemma always_pots p ranges board dead k bs r : (length ranges <= 9)%nat -> Forall (counts p ranges board dead) bs -> hist p (length ranges) bs r -> (k < length ranges)%nat ->
  always_wins ranges board dead k -> no_pots r -> pots (r_wins_by_mask r) = 0.
Proof.
  intros H9 HC HH Hk Haw (Hw & _). assert (HZ : forall i, (1 <= i < 2 ^ length ranges)%nat -> nth i (r_wins_by_mask r) 0 = 0).
  { intros i Hi. pose proof (h_masks _ _ _ _ HH i ltac:(lia)) as Hm. destruct (Nat.eq_dec (N.to_nat (wmask [k])) i) as [E|E].
    - assert (Ei : i = (2 ^ k)%nat).
      { subst i. change (wmask [k]) with (N.lor 0 (trunc 8 (2 ^ N.of_nat k))) in *. rewrite N.lor_0_l in *.
        destruct (Nat.eq_dec k 8) as [->|Hk8]; [cbn in Hi; lia|]. unfold trunc in *. rewrite N.mod_small by (apply N.pow_lt_mono_r; lia).
        rewrite N2Nat.inj_pow, Nat2N.id. reflexivity. }
      subst i. rewrite Ei in *. rewrite (agr_fun p _ _ _ Hm (h_single _ _ _ _ HH k Hk)). apply (proj1 (Forall_nth _ _) Hw). rewrite (h_wins _ _ _ _ HH). exact Hk.
    - unfold msum in Hm. rewrite sumf_zero in Hm; [apply (agr_exact p _ 0 Hm); reflexivity|]. intros b Hb. rewrite Forall_forall in HC. apply (eff_zero p ranges board dead); [exact (HC b Hb)|].
      intros d l Hd Hl. rewrite (Haw d l Hd Hl). exact E. }
  pose proof (h_wbm _ _ _ _ HH) as HL. unfold pots. destruct (r_wins_by_mask r) as [|x wbm]; [reflexivity|]. cbn [tl length] in *.
  change (sum_of (fun x => x) wbm) with (sumf (fun x => x) wbm). apply sumf_zero. intros y Hy. apply (In_nth _ _ 0) in Hy as (j & Hj & <-). apply (HZ (S j)). lia.
Qed.

Lemma exact_never p ranges board dead threads cancelled sched o k : usable ranges -> exact_equity p ranges board dead threads cancelled sched = Ret (ROk o) ->
  never_wins ranges board dead k -> (k < length ranges)%nat -> no_pots (o_results o) \/ nth k (r_equities (o_results o)) f_1 = f_zero.
Proof.
  intros Hu H Hn Hk. destruct (exact_counts _ _ _ _ _ _ _ _ Hu H) as (bs & HH & HC & -> & Hv). apply validate_none in Hv. eapply never_zero; try eassumption. lia.
Qed.
Lemma approx_never p ranges board dead threads target cancelled shuf rngs fuel sched o k : Forall range_ok ranges -> permutes shuf ->
  approx_equity p ranges board dead threads target cancelled shuf rngs fuel sched = Ret (ROk o) ->
  never_wins ranges board dead k -> (k < length ranges)%nat -> no_pots (o_results o) \/ nth k (r_equities (o_results o)) f_1 = f_zero.
Proof.
  intros Hr Hs H Hn Hk. destruct (approx_counts _ _ _ _ _ _ _ _ _ _ _ _ Hr Hs H) as (bs & HH & HC & -> & Hv). apply validate_none in Hv. eapply never_zero; try eassumption. lia.
Qed.
Lemma exact_always p ranges board dead threads cancelled sched o k : usable ranges -> exact_equity p ranges board dead threads cancelled sched = Ret (ROk o) ->
  always_wins ranges board dead k -> (k < length ranges)%nat -> 0 < pots (r_wins_by_mask (o_results o)) ->
  r_equities (o_results o) = map (fun j => if (j =? k)%nat then f_1 else f_zero) (seq 0 (length ranges)).
Proof.
  intros Hu H Hn Hk Hp. destruct (exact_counts _ _ _ _ _ _ _ _ Hu H) as (bs & HH & HC & -> & Hv). apply validate_none in Hv.
  destruct (always_one p ranges board dead k bs (o_results o) ltac:(lia) HC HH Hk Hn) as [E|E]; [|exact E].
  pose proof (always_pots p ranges board dead k bs _ ltac:(lia) HC HH Hk Hn E). lia.
Qed.
Lemma approx_always p ranges board dead threads target cancelled shuf rngs fuel sched o k : Forall range_ok ranges -> permutes shuf ->
  approx_equity p ranges board dead threads target cancelled shuf rngs fuel sched = Ret (ROk o) ->
  always_wins ranges board dead k -> (k < length ranges)%nat -> 0 < pots (r_wins_by_mask (o_results o)) ->
  r_equities (o_results o) = map (fun j => if (j =? k)%nat then f_1 else f_zero) (seq 0 (length ranges)).
Proof.
  intros Hr Hs H Hn Hk Hp. destruct (approx_counts _ _ _ _ _ _ _ _ _ _ _ _ Hr Hs H) as (bs & HH & HC & -> & Hv). apply validate_none in Hv.
  destruct (always_one p ranges board dead k bs (o_results o) ltac:(lia) HC HH Hk Hn) as [E|E]; [|exact E].
  pose proof (always_pots p ranges board dead k bs _ ltac:(lia) HC HH Hk Hn E). lia.
Qed.

(* ------------------------------------------------------------------------- *)
(** * A run: aces against kings on a board without an ace, a king or a flush *)

Lemma wit_always : always_wins wit_ranges wit_board 0 0.
Proof.
  intros d l Hd Hl. assert (Ed : deals wit_ranges wit_board 0 = [wit_deal]) by (vm_compute; reflexivity). rewrite Ed in Hd. destruct Hd as [<-|[]].
  assert (Eb : boards wit_board 0 wit_deal = [mask_cards wit_board]) by (vm_compute; reflexivity). rewrite Eb in Hl. destruct Hl as [<-|[]]. vm_compute. reflexivity.
Qed.
Lemma sure_witness : exists o, approx_equity Debug wit_ranges wit_board 0 1 wit_target false wit_shuffle wit_rngs 0 wit_schedule = Ret (ROk o) /\ 0 < pots (r_wins_by_mask (o_results o)).
Proof.
  destruct witness as (o & msg & H & _ & Hc & _). exists o. split; [exact H|].
  destruct (samples_legal _ _ _ _ _ _ _ _ _ _ _ _ wit_ok wit_permutes H) as (E & HL & (HM & _ & HE) & _). rewrite Hc in HE. cbn [counter] in HE.
  specialize (HM 1 ltac:(reflexivity)). cbn [counter] in HM. unfold pots. change (N.to_nat 1) with 1%nat in HM.
  destruct (r_wins_by_mask (o_results o)) as [|x [|y wbm]]; cbn [nth tl] in *.
  1, 2: exfalso.
  3: change (sum_of (fun x => x) (y :: wbm)) with (y + sum_of (fun x => x) wbm).
  all: enough (0 < sampled E (fun d l => nats_eqb (first_eight (winners d l)) (players_of (length wit_ranges) 1))) by (clear HE; lia).
  all: destruct E as [|[d l] E]; [discriminate HE|]; inversion HL as [|? ? Hs HL']; subst; destruct Hs as (H1 & (added & H2 & _) & H3 & _);
    assert (Hd : d = wit_deal) by (inversion H1 as [|? ? ? ? I1 J1]; subst; inversion J1 as [|? ? ? ? I2 J2]; subst; inversion J2; subst; destruct I1 as [<-|[]]; destruct I2 as [<-|[]]; reflexivity);
    assert (E5 : length (mask_cards wit_board) = 5%nat) by (vm_compute; reflexivity); rewrite H2, app_length, E5 in H3;
    destruct added as [|c added]; [|cbn [length] in H3; lia]; rewrite app_nil_r in H2; subst d l;
    unfold sampled; cbn [sum_of fold_right fst snd];
    (replace (nats_eqb (first_eight (winners wit_deal (mask_cards wit_board))) (players_of (length wit_ranges) 1)) with true by (vm_compute; reflexivity));
    change (deal_weight wit_deal) with 1; lia.
Qed.
