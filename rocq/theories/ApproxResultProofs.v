(* Approximate results: legal samples, consistency of the counters, the walk. *)
From Verif Require Import Base BaseProofs SumFacts Ghost Float64 Hand FastDivide Range Combined Sim Approx SpecPoker ListFacts PokerFacts IndexProofs
  HandProofs HandExprProofs SpecNames SpecHand SpecRange SpecEquity SpecResults SpecRun SpecApprox EnumProofs ShowdownProofs BoardProofs CombinedProofs PositionProofs MergeProofs
  MachineProofs SetupProofs WeightProofs FinalProofs ExactProofs ResultProofs CombineRunProofs RunProofs ConsistProofs WalkProofs ApproxProofs ApproxRunProofs.
From Coq Require Import Permutation.
Local Open Scope N_scope.

#[local] Opaque NUM_HANDS.

(* ------------------------------------------------------------------------- *)
(** * Samples *)

Lemma good_legal ranges board dead s : (length ranges <= 9)%nat -> (length (mask_cards board) <= 5)%nat ->
  good_sample (filtered board dead ranges) board dead s -> legal_sample ranges board dead s.
Proof.
  intros H9 H5 (Hd & cs & El & Hl & Hnd & Hcs). destruct s as [d l]. cbn [fst snd] in *. unfold legal_sample. rewrite deals_filtered in Hd.
  apply filter_In in Hd as [Hp Hposs]. apply possible_spec in Hposs as [_ Hoff].
  split; [|split; [exists cs; auto|split; [exact Hl|split; [exact Hnd|]]]].
  - clear - Hp. revert d Hp. induction ranges as [|r rs IH]; intros d Hp; cbn [picks] in Hp.
    + destruct Hp as [<-|[]]. constructor.
    + apply in_flat_map in Hp as (h & Hh & Hp). apply in_map_iff in Hp as (d' & <- & Hd'). constructor; [exact Hh|apply IH; exact Hd'].
  - apply Forall_forall. intros c Hc. specialize (Hoff c Hc). unfold on_table in Hoff. apply orb_false_iff in Hoff. tauto.
Qed.

Lemma sampled_sumf E what : sampled E what = sumf (fun s => if what (fst s) (snd s) then deal_weight (fst s) else 0) E.
Proof. symmetry. apply sumf_sum_of. Qed.
Lemma sampled_parts {K} E (what : K -> list whand -> list N -> bool) ks :
  (forall s, In s E -> sumf (fun k => if what k (fst s) (snd s) then 1 else 0) ks = 1) ->
  sumf (fun k => sampled E (what k)) ks = sampled E (fun _ _ => true).
Proof.
  intros H. rewrite (sumf_ext _ (fun k => sumf (fun s => if what k (fst s) (snd s) then deal_weight (fst s) else 0) E)) by (intros; apply sampled_sumf).
  rewrite sumf_swap, sampled_sumf. apply sumf_ext. intros s Hs.
  rewrite (sumf_ext _ (fun k => deal_weight (fst s) * (if what k (fst s) (snd s) then 1 else 0))).
  - rewrite sumf_mul, (H s Hs). lia.
  - intros k _. destruct (what k (fst s) (snd s)); lia.
Qed.
Lemma sampled_two E what what' all : (forall d l, (what d l = true -> all d l = true /\ what' d l = false) /\ (what' d l = true -> all d l = true)) ->
  sampled E what + sampled E what' <= sampled E all.
Proof.
  intros H. rewrite !sampled_sumf, <- sumf_add. apply sumf_le. intros s _. destruct (H (fst s) (snd s)) as [H1 H2]. destruct (what (fst s) (snd s)).
  - destruct (H1 eq_refl) as [-> ->]. lia.
  - destruct (what' (fst s) (snd s)); [rewrite (H2 eq_refl)|]; lia.
Qed.
Lemma sampled_bound ranges board dead E what : Forall (good_sample (filtered board dead ranges) board dead) E ->
  sampled E what <= N.of_nat (length E) * heaviest ranges.
Proof.
  intros HE. rewrite sampled_sumf. apply sum_bounded. eapply Forall_impl; [|exact HE]. intros s Hs.
  pose proof (good_heavy ranges board dead s Hs) as H1. pose proof (deal_weight_le (fst s)) as H2. destruct (what (fst s) (snd s)); lia.
Qed.
Lemma sampled_eq E what what' : (forall s, In s E -> what (fst s) (snd s) = what' (fst s) (snd s)) -> sampled E what = sampled E what'.
Proof. intros H. rewrite !sampled_sumf. apply sumf_ext. intros s Hs. rewrite (H s Hs). reflexivity. Qed.

(* ------------------------------------------------------------------------- *)
(** * Self-consistency *)

Section Consistent.
  Variables (p : profile) (ranges : list (list whand)) (board dead : N) (E : list sample_of) (r : results).
  Hypothesis Hr : Forall range_ok ranges.
  Hypothesis Hn : (2 <= length ranges <= 9)%nat.
  Hypothesis HE : Forall (good_sample (filtered board dead ranges) board dead) E.
  Hypothesis Hrep : areport p ranges E r.
  Hypothesis Hex : p = Debug \/ N.of_nat (length E) * heaviest ranges < 2 ^ 64.

  Lemma acounter what x : counter p x (sampled E what) -> x = sampled E what.
  Proof.
    destruct Hex as [->|Hfit]; intros H; [exact H|]. destruct p; [exact H|]. cbn [counter] in H. rewrite N.mod_small in H; [exact H|].
    eapply N.le_lt_trans; [|exact Hfit]. eapply sampled_bound. exact HE.
  Qed.
  Lemma ashape s : In s E -> length (fst s) = length ranges /\ Forall hole_hand (fst s).
  Proof. intros Hs. rewrite Forall_forall in HE. eapply good_shape; [exact Hr|apply HE; exact Hs]. Qed.

  Lemma amasks_total : sumf (fun x => x) (r_wins_by_mask r) = sampled E (fun _ _ => true).
  Proof.
    rewrite <- (sum_upto_list (fun x => x) (r_wins_by_mask r) 0), (ar_wbm _ _ _ _ Hrep).
    assert (HN : N.of_nat (2 ^ length ranges) = 2 ^ N.of_nat (length ranges)) by (rewrite Nat2N.inj_pow; reflexivity). rewrite HN.
    rewrite <- (sampled_parts E (fun m d l => nats_eqb (seen (winners d l)) (players_of (length ranges) m)) (upto (2 ^ N.of_nat (length ranges)))).
    - apply sumf_ext. intros m Hm. apply upto_In in Hm. apply acounter. exact (ar_masks _ _ _ _ Hrep m Hm).
    - intros [d l] Hs. destruct (ashape _ Hs) as [Hl _]. cbn [fst snd] in *.
      assert (Hw : wmask (winners d l) < 2 ^ N.of_nat (length ranges)).
      { destruct (N.ltb_spec (wmask (winners d l)) (2 ^ N.of_nat (length ranges))) as [Hlt|Hge]; [exact Hlt|exfalso].
        assert (Hne : wmask (winners d l) <> 0) by (intros E0; rewrite E0 in Hge; assert (0 < 2 ^ N.of_nat (length ranges)) by (apply N.neq_0_lt_0, N.pow_nonzero; lia); lia).
        pose proof (N.bit_log2 _ Hne) as Hb. apply (N.log2_le_mono) in Hge. rewrite N.log2_pow2 in Hge by lia.
        rewrite <- (N2Nat.id (N.log2 (wmask (winners d l)))), wmask_bit in Hb. apply existsb_exists in Hb as (j & Hj & Ej). apply Nat.eqb_eq in Ej. subst j.
        unfold seen in Hj. apply filter_In in Hj as [Hj _]. apply winners_lt in Hj. lia. }
      rewrite (sumf_ext _ (fun m => if m =? wmask (winners d l) then 1 else 0)); [apply one_of; exact Hw|].
      intros m Hm. apply upto_In in Hm. rewrite <- (wmask_players d l (length ranges) m Hl Hm).
      destruct (Nat.eqb_spec (N.to_nat (wmask (winners d l))) (N.to_nat m)), (N.eqb_spec m (wmask (winners d l))); try reflexivity; lia.
  Qed.

  Lemma ahands_total i : (i < length ranges)%nat ->
    sumf (fun k => u_total (unth (1326 * i + N.to_nat k) (r_hand_results r))) (upto 1326) = sampled E (fun _ _ => true).
  Proof.
    intros Hi.
    rewrite <- (sampled_parts E (fun k d l => N.of_nat (idx p (first_card (holding d i)) (second_card (holding d i))) =? k) (upto 1326)).
    - apply sumf_ext. intros k Hk. apply upto_In in Hk. destruct (index_onto p k Hk) as (a & b & Hab & Ek). destruct (idx_spec p a b Hab) as [Ek2 _].
      rewrite Ek in Ek2. injection Ek2 as ->.
      rewrite (sampled_eq E _ (fun d _ => holds i a b d)).
      + rewrite Nat2N.id. change 1326%nat with NUM_HANDS. apply acounter. exact (ar_total _ _ _ _ Hrep i a b Hi Hab).
      + intros [d l] Hs. destruct (ashape _ Hs) as [Hl Hh]. cbn [fst snd] in *. assert (Hhole : hole_hand (holding d i)) by (apply (proj1 (Forall_nth _ d) Hh); lia).
        unfold holds. rewrite <- (idx_eq p) by assumption.
        destruct (N.eqb_spec (N.of_nat (idx p (first_card (holding d i)) (second_card (holding d i)))) (N.of_nat (idx p a b))),
          (Nat.eqb_spec (idx p (first_card (holding d i)) (second_card (holding d i))) (idx p a b)); try reflexivity; lia.
    - intros [d l] Hs. destruct (ashape _ Hs) as [Hl Hh]. cbn [fst snd] in *. assert (Hhole : hole_hand (holding d i)) by (apply (proj1 (Forall_nth _ d) Hh); lia).
      destruct (idx_spec p _ _ Hhole) as [_ Hlt]. change NUM_HANDS with 1326%nat in Hlt.
      rewrite (sumf_ext _ (fun k => if k =? N.of_nat (idx p (first_card (holding d i)) (second_card (holding d i))) then 1 else 0)) by (intros; rewrite N.eqb_sym; reflexivity).
      apply one_of. lia.
  Qed.

  Lemma ahand_shares k u : nth_error (r_hand_results r) k = Some u -> u_wins u + u_ties u <= u_total u.
  Proof.
    intros Hk. assert (Hlt : (k < length (r_hand_results r))%nat) by (apply nth_error_Some; congruence). rewrite (ar_hands _ _ _ _ Hrep) in Hlt.
    destruct (entry_exists p k _ Hlt) as (i & a & b & Hi & Hab & Ek). apply (nth_error_nth _ _ unit_default) in Hk. rewrite Ek in Hk. fold (entry_of p r i a b) in Hk.
    rewrite <- Hk.
    rewrite (acounter _ _ (ar_win _ _ _ _ Hrep i a b Hi Hab)), (acounter _ _ (ar_tie _ _ _ _ Hrep i a b Hi Hab)), (acounter _ _ (ar_total _ _ _ _ Hrep i a b Hi Hab)).
    apply sampled_two. intros d l. unfold wins_with, ties_with. destruct (holds i a b d); [|split; discriminate]. cbn [andb]. split; [|reflexivity].
    intros H. apply nats_eqb_eq in H. rewrite H. split; [reflexivity|]. cbn [length Nat.leb]. apply andb_false_r.
  Qed.

  Lemma areport_consistent :
    (forall i, (i < length ranges)%nat -> sum_of (fun x => x) (r_wins_by_mask r) = sum_of u_total (firstn 1326 (skipn (1326 * i) (r_hand_results r)))) /\
    (forall u, In u (r_hand_results r) -> u_wins u + u_ties u <= u_total u) /\
    (forall j, (j < length ranges)%nat -> exists x, nth_error (r_wins r) j = Some x /\ nth_error (r_wins_by_mask r) (2 ^ j) = Some x).
  Proof.
    split; [|split].
    - intros i Hi. etransitivity; [symmetry; apply sumf_sum_of|]. rewrite amasks_total. rewrite <- (ahands_total i Hi). etransitivity; [|apply sumf_sum_of].
      assert (Hlen : length (firstn 1326 (skipn (1326 * i) (r_hand_results r))) = 1326%nat).
      { rewrite firstn_length, skipn_length, (ar_hands _ _ _ _ Hrep). change NUM_HANDS with 1326%nat. lia. }
      rewrite <- (sum_upto_list u_total _ unit_default), Hlen. change (N.of_nat 1326) with 1326. apply sumf_ext. intros k Hk. apply upto_In in Hk. f_equal.
      rewrite nth_firstn by lia. rewrite nth_skipped. reflexivity.
    - intros u Hin. apply In_nth_error in Hin as (k & Hk). eapply ahand_shares. exact Hk.
    - intros j Hj. exists (nth j (r_wins r) 0). split; [apply nth_error_nth'; rewrite (ar_wins _ _ _ _ Hrep); exact Hj|].
      rewrite (ar_single _ _ _ _ Hrep j Hj). apply nth_error_nth'. rewrite (ar_wbm _ _ _ _ Hrep). apply Nat.pow_lt_mono_r; lia.
  Qed.
End Consistent.

(* ------------------------------------------------------------------------- *)
(** * Runs *)

Lemma approx_valid p ranges board dead threads target cancelled shuf rngs fuel sched o :
  approx_equity p ranges board dead threads target cancelled shuf rngs fuel sched = Ret (ROk o) -> validate (@length (list whand) ranges) board dead = None.
Proof. unfold approx_equity. intros H. change (@length (list whand) ranges) with (@length (list combo) ranges). destruct (validate _ _ _); [discriminate|reflexivity]. Qed.

Lemma some_approx p ranges board dead threads target cancelled shuf rngs fuel sched o : Forall range_ok ranges -> permutes shuf ->
  approx_equity p ranges board dead threads target cancelled shuf rngs fuel sched = Ret (ROk o) ->
  (2 <= length ranges <= 9)%nat /\ (length (mask_cards board) <= 5)%nat /\
  exists E, Forall (good_sample (filtered board dead ranges) board dead) E /\ (length E <= length sched)%nat /\ areport p ranges E (o_results o).
Proof.
  intros Hr Hs H. pose proof (approx_valid _ _ _ _ _ _ _ _ _ _ _ _ H) as Hval.
  split; [apply (arun_n ranges board dead Hval)|]. split; [apply (arun_board ranges board dead Hval)|].
  destruct (approx_ok p ranges board dead Hr Hval shuf target Hs threads cancelled rngs fuel sched) as [[E _]|Hrun]; [congruence|].
  destruct (runs_holds _ _ _ _ _ _ Hrun H) as (o' & E & Eo & H1 & H2 & H3). inversion Eo; subst o'. eauto.
Qed.

Lemma samples_legal p ranges board dead threads target cancelled shuf rngs fuel sched o : Forall range_ok ranges -> permutes shuf ->
  approx_equity p ranges board dead threads target cancelled shuf rngs fuel sched = Ret (ROk o) ->
  exists E, Forall (legal_sample ranges board dead) E /\ counts_samples p (length ranges) E (o_results o) /\ (length E <= length sched)%nat.
Proof.
  intros Hr Hs H. destruct (some_approx _ _ _ _ _ _ _ _ _ _ _ _ Hr Hs H) as (Hn & Hb & E & HE & Hl & Hrep). exists E.
  split; [eapply Forall_impl; [|exact HE]; intros s; apply good_legal; lia|]. split; [|exact Hl].
  split; [exact (ar_masks _ _ _ _ Hrep)|]. split; [|exact (ar_count _ _ _ _ Hrep)].
  intros i a b k Hi Hab Hk. exists (entry_of p (o_results o) i a b). destruct (idx_spec p a b Hab) as [Ek Hlt].
  rewrite Hk in Ek. injection Ek as ->. rewrite Nat2N.id.
  split; [|split; [exact (ar_win _ _ _ _ Hrep i a b Hi Hab)|split; [exact (ar_tie _ _ _ _ Hrep i a b Hi Hab)|exact (ar_total _ _ _ _ Hrep i a b Hi Hab)]]].
  unfold entry_of. change 1326%nat with NUM_HANDS. apply nth_error_nth'. rewrite (ar_hands _ _ _ _ Hrep).
  clear - Hi Hlt. change (idx p a b < 1326)%nat in Hlt. change NUM_HANDS with 1326%nat. nia.
Qed.

Lemma approx_consistent p ranges board dead threads target cancelled shuf rngs fuel sched o : Forall range_ok ranges -> permutes shuf ->
  approx_equity p ranges board dead threads target cancelled shuf rngs fuel sched = Ret (ROk o) ->
  p = Debug \/ N.of_nat (length sched) * heaviest ranges < 2 ^ 64 ->
  let r := o_results o in
  (forall i, (i < length ranges)%nat -> sum_of (fun x => x) (r_wins_by_mask r) = sum_of u_total (firstn 1326 (skipn (1326 * i) (r_hand_results r)))) /\
  (forall u, In u (r_hand_results r) -> u_wins u + u_ties u <= u_total u) /\
  (forall j, (j < length ranges)%nat -> exists x, nth_error (r_wins r) j = Some x /\ nth_error (r_wins_by_mask r) (2 ^ j) = Some x).
Proof.
  intros Hr Hs H Hex. destruct (some_approx _ _ _ _ _ _ _ _ _ _ _ _ Hr Hs H) as (Hn & Hb & E & HE & Hl & Hrep).
  apply (areport_consistent p ranges board dead E); try assumption.
  destruct Hex as [Hp|Hfit]; [left; exact Hp|right]. eapply N.le_lt_trans; [|exact Hfit]. apply N.mul_le_mono_r. lia.
Qed.

Lemma approx_outcome p ranges board dead threads target cancelled shuf rngs fuel sched : Forall range_ok ranges -> permutes shuf ->
  accepted (length ranges) board dead -> board < 2 ^ 64 -> dead < 2 ^ 64 ->
  let run := approx_equity p ranges board dead threads target cancelled shuf rngs fuel sched in
  (run = Ret (RErr ConflictingRanges) /\ deals ranges board dead = []) \/ (exists o, run = Ret (ROk o)) \/
  (p = Debug /\ run = Fail Overflow /\ ~ N.of_nat (length sched) * heaviest ranges < 2 ^ 64) \/ run = Fail OutOfFuel.
Proof.
  intros Hr Hs Ha Hb Hd. cbv zeta. assert (Hval : validate (length ranges) board dead = None) by (apply accepted_ok; assumption).
  destruct (approx_ok p ranges board dead Hr Hval shuf target Hs threads cancelled rngs fuel sched) as [H|[[(a & E & o & L & -> & _)|(Hp & E & HB)]|[_ E]]].
  - left. exact H.
  - right. left. exists o. exact E.
  - right. right. left. auto.
  - right. right. right. exact E.
Qed.

(* ------------------------------------------------------------------------- *)
(** * The walk *)

Lemma alaunched p ranges board dead threads target cancelled shuf rngs m flag y0 : Forall range_ok ranges -> permutes shuf ->
  alaunch p ranges board dead threads target cancelled shuf rngs m flag y0 ->
  exists pss crs r0, astarted p ranges board dead shuf target pss crs m r0 flag /\ ainit (m_n_players m) threads cancelled rngs r0 = Ret y0.
Proof.
  intros Hr Hs (Hval & hrs & crs & r0 & E1 & E2 & E3 & E4).
  destruct (astart p ranges board dead Hr Hval shuf target Hs) as [[E _]|(pss & crs' & m' & r0' & flag' & HS)]; [congruence|].
  destruct (as_launch _ _ _ _ _ _ _ _ _ _ _ HS) as (crs0 & Ec & Ecrs). assert (E : ROk (hrs, crs) = ROk (filtered board dead ranges, crs0) :> result _ sim_error) by congruence.
  inversion E; subst hrs crs0. rewrite <- Ecrs in E2. pose proof (as_new _ _ _ _ _ _ _ _ _ _ _ HS) as E2'. rewrite E2 in E2'. inversion E2'; subst m'.
  pose proof (as_prepare _ _ _ _ _ _ _ _ _ _ _ HS) as E3'. rewrite E3 in E3'. inversion E3'; subst r0' flag'. exists pss, crs', r0. auto.
Qed.

Lemma walk_goes_on p ranges board dead threads target cancelled shuf rngs m flag y0 fuel sched y t : Forall range_ok ranges -> permutes shuf ->
  alaunch p ranges board dead threads target cancelled shuf rngs m flag y0 -> foldM (aevent p m fuel) sched y0 = Ret y ->
  In t (ay_threads y) -> a_phase t = AWalk ->
  mask_exact m board dead (a_walk t) /\
  exists r' w' i, walk_step p m (a_rng t) (a_walk t) = Ret (r', w') /\ steps_down m (a_walk t) w' i /\ mask_exact m board dead w'.
Proof.
  intros Hr Hs HL Hf Ht Hph. pose proof (proj1 HL) as Hval. destruct (alaunched _ _ _ _ _ _ _ _ _ _ _ _ Hr Hs HL) as (pss & crs & r0 & HS & Ey0).
  destruct (athreads_ok p ranges board dead Hr Hval shuf target pss crs m r0 flag HS threads cancelled rngs fuel sched) as (y0' & Ey0' & Hrun).
  rewrite Ey0 in Ey0'. inversion Ey0'; subst y0'. destruct (runs_holds _ _ _ _ _ _ Hrun Hf) as (_ & Hw & _).
  destruct (Hw t Ht (or_intror (or_intror Hph))) as (parts & Hp).
  destruct (arun_n ranges board dead Hval) as [Hfn [Hn2 Hn9]]. assert (Hfr9 : (length (filtered board dead ranges) <= 9)%nat) by lia.
  assert (Hhole : Forall (Forall hole_hand) (filtered board dead ranges)) by (apply filtered_ok, run_hole; exact Hr).
  destruct HS as [_ S1 S2 S3 S4 S5 S6 S7 S8 S9 S10 S11 S12 S13 S14 S15 S16 S17].
  assert (Hexact : forall w parts, holds_deal p (filtered board dead ranges) pss crs board dead w parts -> mask_exact m board dead w).
  { intros w ps Hps. exact (holds_exact p _ pss crs board dead m Hfr9 S2 (proj2 S4) S6 S7 S8 w ps Hps). }
  split; [eapply Hexact; exact Hp|].
  destruct (walk_step_ok p (filtered board dead ranges) pss crs board dead m Hhole Hfr9 S1 S2 (proj2 S4) S6 S7 S8 (a_rng t) (a_walk t) parts Hp (proj1 S4))
    as (r' & w' & i & parts' & E & Hp' & Hd & _).
  exists r', w', i. split; [exact E|]. split; [exact Hd|]. eapply Hexact. exact Hp'.
Qed.
