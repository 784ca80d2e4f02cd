(* Exact results: consistency of the counters, legal deals, permuted seats. *)
From Verif Require Import Base BaseProofs SumFacts ListFacts Ghost Float64 Hand Range FastDivide Combined Sim SpecPoker SpecNames SpecHand SpecRange SpecEquity SpecResults SpecRun
  PokerFacts IndexProofs EnumProofs ShowdownProofs BoardProofs CombinedProofs PositionProofs MergeProofs MachineProofs SetupProofs WeightProofs FinalProofs ExactProofs ResultProofs
  CombineRunProofs RunProofs HandExprProofs.
From Coq Require Import Permutation Sorted.
Local Open Scope N_scope.
#[local] Opaque NUM_HANDS.

(* ------------------------------------------------------------------------- *)
(** * Sums over deals and boards *)

Lemma nth_skipped {A} k j (l : list A) d : nth j (skipn k l) d = nth (k + j) l d.
Proof. revert l. induction k as [|k IH]; intros l; [reflexivity|]. destruct l; cbn [skipn Nat.add nth]; [destruct j; reflexivity|apply IH]. Qed.

Lemma sum_over_sumf board dead D what : sum_over board dead D what = sumf (fun d => deal_weight d * sumf (fun l => if what d l then 1 else 0) (boards board dead d)) D.
Proof.
  unfold sum_over. etransitivity; [symmetry; apply sumf_sum_of|]. apply sumf_ext. intros d _. apply (f_equal (N.mul (deal_weight d))). symmetry. apply sumf_sum_of.
Qed.
Lemma sum_over_parts {K} board dead D (what : K -> list whand -> list N -> bool) ks :
  (forall d l, In d D -> In l (boards board dead d) -> sumf (fun k => if what k d l then 1 else 0) ks = 1) ->
  sumf (fun k => sum_over board dead D (what k)) ks = sum_over board dead D (fun _ _ => true).
Proof.
  intros H. rewrite (sumf_ext _ (fun k => sumf (fun d => deal_weight d * sumf (fun l => if what k d l then 1 else 0) (boards board dead d)) D)) by (intros; apply sum_over_sumf).
  rewrite sumf_swap, sum_over_sumf. apply sumf_ext. intros d Hd. rewrite sumf_mul. f_equal. rewrite sumf_swap. apply sumf_ext. intros l Hl. apply H; assumption.
Qed.
Lemma sum_over_two board dead D what what' all : (forall d l, In d D -> In l (boards board dead d) -> (what d l = true -> all d l = true /\ what' d l = false) /\ (what' d l = true -> all d l = true)) ->
  sum_over board dead D what + sum_over board dead D what' <= sum_over board dead D all.
Proof.
  intros H. rewrite !sum_over_sumf, <- sumf_add. apply sumf_le. intros d Hd. rewrite <- N.mul_add_distr_l. apply N.mul_le_mono_l. rewrite <- sumf_add. apply sumf_le.
  intros l Hl. destruct (H d l Hd Hl) as [H1 H2]. destruct (what d l).
  - destruct (H1 eq_refl) as [-> ->]. lia.
  - destruct (what' d l); [rewrite (H2 eq_refl)|]; lia.
Qed.
Lemma sum_over_bound ranges board dead D left what : Permutation (D ++ left) (deals ranges board dead) -> weights_fit ranges board -> sum_over board dead D what < 2 ^ 64.
Proof.
  intros HP Hfit. eapply N.le_lt_trans; [|exact Hfit]. rewrite sum_over_sumf.
  apply N.le_trans with (sumf (fun d => max_boards board * big_weight d) D).
  - apply sumf_le. intros d _. pose proof (deal_weight_le d) as H1. pose proof (boards_le board dead d) as H2.
    assert (H3 : sumf (fun l => if what d l then 1 else 0) (boards board dead d) <= N.of_nat (length (boards board dead d))) by (apply sum_one_le; intros l; destruct (what d l); lia). nia.
  - rewrite sumf_mul. apply N.mul_le_mono; [lia|]. eapply N.le_trans; [|apply (sum_deals_le ranges board dead)].
    rewrite <- (sumf_perm _ _ _ HP), sumf_app. lia.
Qed.

Lemma one_of k w : w < k -> sumf (fun m => if m =? w then 1 else 0) (upto k) = 1.
Proof.
  intros H. rewrite (sumf_perm _ _ (w :: filter (fun m => negb (m =? w)) (upto k))).
  - rewrite sumf_cons, N.eqb_refl, sumf_zero; [reflexivity|]. intros m Hm. apply filter_In in Hm as [_ Hm]. destruct (m =? w); [discriminate|reflexivity].
  - apply NoDup_Permutation.
    + apply nseq_NoDup.
    + constructor; [rewrite filter_In, N.eqb_refl; intros [_ Hf]; discriminate|]. apply NoDup_filter, nseq_NoDup.
    + intros x. cbn [In]. rewrite filter_In, !upto_In, negb_true_iff, N.eqb_neq. destruct (N.eq_dec w x) as [->|Hne]; split; intros; try tauto.
      right. split; [assumption|congruence].
Qed.

(* ------------------------------------------------------------------------- *)
(** * Self-consistency *)

Lemma exact_counter p ranges board dead D left what x : Permutation (D ++ left) (deals ranges board dead) -> p = Debug \/ weights_fit ranges board ->
  counter p x (sum_over board dead D what) -> x = sum_over board dead D what.
Proof.
  intros HP [->|Hfit] H; [exact H|]. destruct p; [exact H|]. cbn [counter] in H. rewrite N.mod_small in H; [exact H|]. eapply sum_over_bound; eassumption.
Qed.

Section Consistent.
  Variables (p : profile) (ranges : list (list whand)) (board dead : N) (D left : list (list whand)) (e : N) (r : results).
  Hypothesis Hr : Forall range_ok ranges.
  Hypothesis Hn : (2 <= length ranges <= 9)%nat.
  Hypothesis HP : Permutation (D ++ left) (deals ranges board dead).
  Hypothesis Hrep : report p ranges board dead D e r.
  Hypothesis Hex : p = Debug \/ weights_fit ranges board.

  Lemma made_shape d : In d D -> length d = length ranges /\ Forall hole_hand d.
  Proof.
    intros Hd. apply (deals_shape ranges board dead); [eapply run_hole; exact Hr|]. eapply Permutation_in; [exact HP|]. apply in_or_app. auto.
  Qed.

  Lemma masks_total : sumf (fun x => x) (r_wins_by_mask r) = sum_over board dead D (fun _ _ => true).
  Proof.
    rewrite <- (sum_upto_list (fun x => x) (r_wins_by_mask r) 0), (rp_wbm _ _ _ _ _ _ _ Hrep).
    assert (HN : N.of_nat (2 ^ length ranges) = 2 ^ N.of_nat (length ranges)) by (rewrite Nat2N.inj_pow; reflexivity). rewrite HN.
    rewrite <- (sum_over_parts board dead D (fun m d l => nats_eqb (seen (winners d l)) (players_of (length ranges) m)) (upto (2 ^ N.of_nat (length ranges)))).
    - apply sumf_ext. intros m Hm. apply upto_In in Hm. eapply exact_counter; [exact HP|exact Hex|]. exact (rp_masks _ _ _ _ _ _ _ Hrep m Hm).
    - intros d l Hd _. destruct (made_shape d Hd) as [Hl _].
      assert (Hw : wmask (winners d l) < 2 ^ N.of_nat (length ranges)).
      { destruct (N.ltb_spec (wmask (winners d l)) (2 ^ N.of_nat (length ranges))) as [Hlt|Hge]; [exact Hlt|exfalso].
        assert (Hne : wmask (winners d l) <> 0) by (intros E0; rewrite E0 in Hge; assert (0 < 2 ^ N.of_nat (length ranges)) by (apply N.neq_0_lt_0, N.pow_nonzero; lia); lia).
        pose proof (N.bit_log2 _ Hne) as Hb. apply (N.log2_le_mono) in Hge. rewrite N.log2_pow2 in Hge by lia.
        rewrite <- (N2Nat.id (N.log2 (wmask (winners d l)))), wmask_bit in Hb. apply existsb_exists in Hb as (j & Hj & Ej). apply Nat.eqb_eq in Ej. subst j.
        unfold seen in Hj. apply filter_In in Hj as [Hj _]. apply winners_lt in Hj. lia. }
      rewrite (sumf_ext _ (fun m => if m =? wmask (winners d l) then 1 else 0)); [apply one_of; exact Hw|].
      intros m Hm. apply upto_In in Hm. rewrite <- (wmask_players d l (length ranges) m Hl Hm).
      destruct (Nat.eqb_spec (N.to_nat (wmask (winners d l))) (N.to_nat m)), (N.eqb_spec m (wmask (winners d l))); try reflexivity; lia.
  Qed.

  Lemma hands_total i : (i < length ranges)%nat ->
    sumf (fun k => u_total (unth (1326 * i + N.to_nat k) (r_hand_results r))) (upto 1326) = sum_over board dead D (fun _ _ => true).
  Proof.
    intros Hi.
    rewrite <- (sum_over_parts board dead D (fun k d l => N.of_nat (idx p (first_card (holding d i)) (second_card (holding d i))) =? k) (upto 1326)).
    - apply sumf_ext. intros k Hk. apply upto_In in Hk. destruct (index_onto p k Hk) as (a & b & Hab & Ek). destruct (idx_spec p a b Hab) as [Ek2 _].
      rewrite Ek in Ek2. injection Ek2 as ->.
      rewrite (sum_over_ext board dead D _ (fun d _ => holds i a b d)).
      + rewrite Nat2N.id. change 1326%nat with NUM_HANDS. eapply exact_counter; [exact HP|exact Hex|]. exact (rp_total _ _ _ _ _ _ _ Hrep i a b Hi Hab).
      + intros d l Hd _. destruct (made_shape d Hd) as [Hl Hh]. assert (Hhole : hole_hand (holding d i)) by (apply (proj1 (Forall_nth _ d) Hh); lia).
        unfold holds. rewrite <- (idx_eq p) by assumption.
        destruct (N.eqb_spec (N.of_nat (idx p (first_card (holding d i)) (second_card (holding d i)))) (N.of_nat (idx p a b))),
          (Nat.eqb_spec (idx p (first_card (holding d i)) (second_card (holding d i))) (idx p a b)); try reflexivity; lia.
    - intros d l Hd _. destruct (made_shape d Hd) as [Hl Hh]. assert (Hhole : hole_hand (holding d i)) by (apply (proj1 (Forall_nth _ d) Hh); lia).
      destruct (idx_spec p _ _ Hhole) as [_ Hlt]. change NUM_HANDS with 1326%nat in Hlt.
      rewrite (sumf_ext _ (fun k => if k =? N.of_nat (idx p (first_card (holding d i)) (second_card (holding d i))) then 1 else 0)) by (intros; rewrite N.eqb_sym; reflexivity).
      apply one_of. lia.
  Qed.

  Lemma hand_shares k u : nth_error (r_hand_results r) k = Some u -> u_wins u + u_ties u <= u_total u.
  Proof.
    intros Hk. assert (Hlt : (k < length (r_hand_results r))%nat) by (apply nth_error_Some; congruence). rewrite (rp_hands _ _ _ _ _ _ _ Hrep) in Hlt.
    destruct (entry_exists p k _ Hlt) as (i & a & b & Hi & Hab & Ek). apply (nth_error_nth _ _ unit_default) in Hk. rewrite Ek in Hk. fold (entry_of p r i a b) in Hk.
    rewrite <- Hk.
    rewrite (exact_counter _ _ _ _ _ _ _ _ HP Hex (rp_win _ _ _ _ _ _ _ Hrep i a b Hi Hab)), (exact_counter _ _ _ _ _ _ _ _ HP Hex (rp_tie _ _ _ _ _ _ _ Hrep i a b Hi Hab)),
      (exact_counter _ _ _ _ _ _ _ _ HP Hex (rp_total _ _ _ _ _ _ _ Hrep i a b Hi Hab)).
    apply sum_over_two. intros d l _ _. unfold wins_with, ties_with. destruct (holds i a b d); [|split; discriminate]. cbn [andb]. split; [|reflexivity].
    intros H. apply nats_eqb_eq in H. rewrite H. split; [reflexivity|]. cbn [length Nat.leb]. apply andb_false_r.
  Qed.
End Consistent.

Lemma consistent p ranges board dead threads cancelled sched o : usable ranges -> exact_equity p ranges board dead threads cancelled sched = Ret (ROk o) ->
  p = Debug \/ weights_fit ranges board ->
  let r := o_results o in
  (forall i, (i < length ranges)%nat -> sum_of (fun x => x) (r_wins_by_mask r) = sum_of u_total (firstn 1326 (skipn (1326 * i) (r_hand_results r)))) /\
  (forall u, In u (r_hand_results r) -> u_wins u + u_ties u <= u_total u) /\
  (forall j, (j < length ranges)%nat -> exists x, nth_error (r_wins r) j = Some x /\ nth_error (r_wins_by_mask r) (2 ^ j) = Some x).
Proof.
  intros Hu H Hex. cbv zeta. destruct (some_run p ranges board dead threads cancelled sched o Hu H) as (D & left & e & HP & Hn & Hrep). destruct Hu as [Hr _].
  split; [|split].
  - intros i Hi. etransitivity; [symmetry; apply sumf_sum_of|]. rewrite (masks_total p ranges board dead D left e (o_results o)) by assumption.
    rewrite <- (hands_total p ranges board dead D left e (o_results o)) with (i := i) by assumption. etransitivity; [|apply sumf_sum_of].
    assert (Hlen : length (firstn 1326 (skipn (1326 * i) (r_hand_results (o_results o)))) = 1326%nat).
    { rewrite firstn_length, skipn_length, (rp_hands _ _ _ _ _ _ _ Hrep). change NUM_HANDS with 1326%nat. lia. }
    rewrite <- (sum_upto_list u_total _ unit_default), Hlen. change (N.of_nat 1326) with 1326. apply sumf_ext. intros k Hk. apply upto_In in Hk. f_equal.
    rewrite nth_firstn by lia. rewrite nth_skipped. reflexivity.
  - intros u Hin. apply In_nth_error in Hin as (k & Hk). eapply hand_shares; eassumption.
  - intros j Hj. exists (nth j (r_wins (o_results o)) 0). split; [apply nth_error_nth'; rewrite (rp_wins _ _ _ _ _ _ _ Hrep); exact Hj|].
    rewrite (rp_single _ _ _ _ _ _ _ Hrep j Hj). apply nth_error_nth'. rewrite (rp_wbm _ _ _ _ _ _ _ Hrep). apply Nat.pow_lt_mono_r; lia.
Qed.

(* ------------------------------------------------------------------------- *)
(** * Legal deals *)

Lemma legal_lists (B U D l : list N) (board dead : N) k : NoDup B -> NoDup U -> NoDup D ->
  (forall c, In c B -> c < 52 /\ N.testbit board c = true) -> (forall c, In c U -> c < 52 /\ on_table board dead c = false /\ ~ In c D) ->
  (forall c, In c D -> on_table board dead c = false) -> In l (map (app B) (choose k U)) ->
  NoDup (D ++ l) /\ length l = (length B + k)%nat /\ Forall (fun c => c < 52 /\ (N.testbit board c = true \/ N.testbit dead c = false)) l /\
  Forall (fun c => N.testbit board c = false /\ N.testbit dead c = false) D /\ incl B l.
Proof.
  intros HB HU HD Hm Hun Hoff Hl. apply in_map_iff in Hl as (s & <- & Hs). pose proof (choose_incl _ _ _ Hs) as Hincl.
  split; [|split; [|split; [|split]]].
  - apply NoDup_app_intro; [exact HD| |].
    + apply NoDup_app_intro; [exact HB|exact (choose_NoDup U _ _ HU Hs)|]. intros c Hc Hcs. destruct (Hm c Hc) as [_ Hb]. destruct (Hun c (Hincl c Hcs)) as (_ & Hb2 & _).
      unfold on_table in Hb2. rewrite Hb in Hb2. discriminate.
    + intros c Hc Hcs. apply in_app_or in Hcs as [Hcs|Hcs].
      * specialize (Hoff c Hc). destruct (Hm c Hcs) as [_ Hb]. unfold on_table in Hoff. rewrite Hb in Hoff. discriminate.
      * destruct (Hun c (Hincl c Hcs)) as (_ & _ & Hni). contradiction.
  - rewrite app_length, (choose_length _ _ _ Hs). reflexivity.
  - apply Forall_app. split; apply Forall_forall; intros c Hc.
    + destruct (Hm c Hc). auto.
    + destruct (Hun c (Hincl c Hc)) as (H1 & H2 & _). unfold on_table in H2. apply orb_false_iff in H2 as [_ H2]. auto.
  - apply Forall_forall. intros c Hc. specialize (Hoff c Hc). unfold on_table in Hoff. apply orb_false_iff in Hoff. exact Hoff.
  - intros c Hc. apply in_or_app. left. exact Hc.
Qed.
Lemma unseen_NoDup board dead d : NoDup (unseen board dead d).
Proof. unfold unseen. apply NoDup_filter. apply nseq_NoDup. Qed.
Lemma boards_eq board dead d : boards board dead d = map (app (mask_cards board)) (choose (5 - length (mask_cards board)) (unseen board dead d)).
Proof. unfold boards. reflexivity. Qed.
Lemma legal board dead d l : possible board dead d = true -> In l (boards board dead d) -> (length (mask_cards board) <= 5)%nat -> (length d <= 9)%nat ->
  NoDup (dealt d ++ l) /\ length l = 5%nat /\ Forall (fun c => c < 52 /\ (N.testbit board c = true \/ N.testbit dead c = false)) l /\
  Forall (fun c => N.testbit board c = false /\ N.testbit dead c = false) (dealt d) /\ incl (mask_cards board) l.
Proof.
  intros Hp Hl H5 H9. apply possible_spec in Hp as [Hnd Hoff].
  destruct (legal_lists (mask_cards board) (unseen board dead d) (dealt d) l board dead (5 - length (mask_cards board))) as (H1 & H2 & H3 & H4 & H6).
  - apply mask_cards_ok.
  - apply unseen_NoDup.
  - exact Hnd.
  - intros c. exact (proj1 (in_board board d H9 H5 c)).
  - intros c. exact (proj1 (in_unseen board dead d H9 H5 c)).
  - exact Hoff.
  - rewrite <- boards_eq. exact Hl.
  - split; [exact H1|]. split; [|split; [exact H3|split; [exact H4|exact H6]]]. rewrite H2. clear - H5. lia.
Qed.
