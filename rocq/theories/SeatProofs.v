(* Permuting the ranges permutes the exact results. *)
From Verif Require Import Base BaseProofs SumFacts ListFacts Ghost Float64 Hand Range FastDivide Combined Sim SpecPoker SpecNames SpecHand SpecRange SpecEquity SpecResults SpecRun
  PokerFacts IndexProofs EnumProofs ShowdownProofs BoardProofs CombinedProofs PositionProofs MergeProofs MachineProofs SetupProofs WeightProofs FinalProofs ExactProofs ResultProofs
  CombineRunProofs RunProofs ConsistProofs.
From Coq Require Import Permutation Sorted.
Local Open Scope N_scope.
#[local] Opaque NUM_HANDS.

Lemma forallb_ext_in {A} (f g : A -> bool) l : (forall x, In x l -> f x = g x) -> forallb f l = forallb g l.
Proof. induction l as [|x l IH]; intros H; [reflexivity|]. cbn [forallb]. rewrite (H x (or_introl eq_refl)), IH; [reflexivity|]. intros y Hy. apply H. right. exact Hy. Qed.

Section Seats.
  Variables (ranges : list (list whand)) (ks : list nat).
  Hypothesis Hks : Permutation ks (seq 0 (length ranges)).
  Let n := length ranges.

  (* the deal d with the players in the order ks *)
  Definition reseat (d : list whand) : list whand := map (holding d) ks.

  Lemma ks_NoDup : NoDup ks.
  Proof. eapply Permutation_NoDup; [symmetry; exact Hks|apply seq_NoDup]. Qed.
  Lemma ks_length : length ks = n.
  Proof. rewrite (Permutation_length Hks). apply seq_length. Qed.
  Lemma ks_lt k : In k ks -> (k < n)%nat.
  Proof. intros H. apply (Permutation_in _ Hks) in H. apply in_seq in H. lia. Qed.
  Lemma map_holding d : map (holding d) (seq 0 (length d)) = d.
  Proof.
    apply (nth_ext _ _ (0, 0, 0) (0, 0, 0)); [rewrite map_length, seq_length; reflexivity|]. intros k Hk. rewrite map_length, seq_length in Hk.
    rewrite (nth_indep _ _ (holding d 0)) by (rewrite map_length, seq_length; exact Hk). rewrite map_nth, seq_nth by exact Hk. reflexivity.
  Qed.
  Lemma reseat_perm d : length d = n -> Permutation (reseat d) d.
  Proof. intros H. unfold reseat. rewrite <- (map_holding d) at 2. apply Permutation_map. rewrite H. exact Hks. Qed.
  Lemma reseat_holding d j : (j < n)%nat -> holding (reseat d) j = holding d (nth j ks 0%nat).
  Proof.
    intros H. unfold reseat, holding at 1. rewrite (nth_indep _ _ (holding d 0)) by (rewrite map_length, ks_length; exact H). apply map_nth.
  Qed.

  Lemma sum_reseat G : sumf G (picks (map (range_at ranges) ks)) = sumf (fun d => G (reseat d)) (picks ranges).
  Proof.
    change (map (range_at ranges) ks) with (map (range_of ranges) ks).
    pose proof (sum_permuted ranges ks (seq 0 n) Hks (fun l => G (reseat (assemble n l)))) as H.
    unfold n in H at 4. rewrite map_range_of in H.
    etransitivity; [etransitivity; [|apply H]|]; clear H.
    - apply sumf_ext. intros a Ha. apply picks_length in Ha. rewrite map_length in Ha. f_equal.
      unfold reseat. apply (nth_ext _ _ (0, 0, 0) (0, 0, 0)); [rewrite map_length; exact Ha|]. intros k Hk.
      rewrite (nth_indep (map _ ks) _ (holding (assemble n (combine ks a)) 0)) by (rewrite map_length, <- Ha; exact Hk). rewrite map_nth.
      assert (Hkk : (nth k ks 0 < n)%nat) by (apply ks_lt, nth_In; rewrite <- Ha; exact Hk). unfold holding, assemble.
      rewrite (nth_indep (map (seat (combine ks a)) (seq 0 n)) _ (seat (combine ks a) 0)) by (rewrite map_length, seq_length; exact Hkk). rewrite map_nth, seq_nth by exact Hkk. cbn [Nat.add].
      symmetry. apply seat_in; [rewrite combine_fst by (symmetry; exact Ha); exact ks_NoDup|].
      pose proof (combine_nth ks a k 0%nat (0, 0, 0) (eq_sym Ha)) as Ec. refine (eq_ind _ (fun z => In z (combine ks a)) _ _ Ec). apply nth_In. rewrite combine_length, <- Ha. apply Nat.min_glb_lt; exact Hk.
    - intros l l' Hl HPl. f_equal. f_equal. apply assemble_perm; [|exact HPl]. eapply Permutation_NoDup; [symmetry; exact Hl|exact ks_NoDup].
    - apply sumf_ext. intros d Hd. apply picks_length in Hd. f_equal. f_equal. unfold n. rewrite <- Hd. apply assemble_seq.
  Qed.

  Lemma weight_perm d d' : Permutation d d' -> deal_weight d = deal_weight d'.
  Proof. unfold deal_weight. induction 1; cbn [fold_right]; lia. Qed.
  Lemma unseen_perm board dead d d' : Permutation d d' -> unseen board dead d = unseen board dead d'.
  Proof.
    intros H. unfold unseen. apply filter_ext. intros c.
    assert (E : existsb (N.eqb c) (dealt d) = existsb (N.eqb c) (dealt d')); [|rewrite E; reflexivity]. apply eq_true_iff_eq.
    rewrite !existsb_exists. apply dealt_perm in H. split; intros (x & Hx & E); exists x; (split; [|exact E]); eapply Permutation_in; try exact Hx; [exact H|symmetry; exact H].
  Qed.
  Lemma boards_perm board dead d d' : Permutation d d' -> boards board dead d = boards board dead d'.
  Proof. intros H. rewrite !boards_eq, (unseen_perm board dead d d' H). reflexivity. Qed.
  Lemma total_reseat board dead what what' : (forall d l, In d (deals ranges board dead) -> what' (reseat d) l = what d l) ->
    total_of (map (range_at ranges) ks) board dead what' = total_of ranges board dead what.
  Proof.
    intros H. rewrite <- !sum_over_total, !sum_over_sumf. unfold deals. rewrite !sumf_filter, sum_reseat. apply sumf_ext. intros d Hd.
    assert (HP : Permutation (reseat d) d) by (apply reseat_perm; unfold n; apply picks_length; exact Hd).
    rewrite (possible_perm _ _ _ _ HP). destruct (possible board dead d) eqn:Hp; [|reflexivity].
    rewrite (weight_perm _ _ HP), (boards_perm _ _ _ _ HP). f_equal. apply sumf_ext. intros l _. rewrite H; [reflexivity|]. unfold deals. apply filter_In. auto.
  Qed.

  (* the winners of a reseated deal *)
  Definition is_winner (d : list whand) (l : list N) (i : nat) : bool :=
    forallb (fun h => not_better (best (two_cards h ++ l)) (best (two_cards (holding d i) ++ l))) d.
  Lemma winners_is d l : winners d l = filter (is_winner d l) (seq 0 (length d)). Proof. reflexivity. Qed.
  Lemma winner_reseat d l j : length d = n -> (j < n)%nat -> is_winner (reseat d) l j = is_winner d l (nth j ks 0%nat).
  Proof.
    intros Hd Hj. unfold is_winner. rewrite (reseat_holding d j Hj). pose proof (reseat_perm d Hd) as HP.
    apply eq_true_iff_eq. rewrite !forallb_forall. split; intros H h Hh; apply H; eapply Permutation_in; try exact Hh; [symmetry; exact HP|exact HP].
  Qed.

  Lemma filters_eqb f g m : nats_eqb (filter f (seq 0 m)) (filter g (seq 0 m)) = forallb (fun i => Bool.eqb (f i) (g i)) (seq 0 m).
  Proof.
    apply eq_true_iff_eq. rewrite nats_eqb_eq, forallb_forall. split.
    - intros E i Hi. apply eqb_true_iff. pose proof (filter_seq_in f m i) as H1. pose proof (filter_seq_in g m i) as H2. rewrite E in H1. rewrite H1 in H2.
      apply in_seq in Hi. replace (i <? m)%nat with true in H2 by (symmetry; apply Nat.ltb_lt; lia). exact H2.
    - intros H. apply filter_ext_in. intros i Hi. apply eqb_prop, H, Hi.
  Qed.
  Lemma forallb_ks f : forallb f (seq 0 n) = forallb (fun j => f (nth j ks 0%nat)) (seq 0 n).
  Proof.
    apply eq_true_iff_eq. rewrite !forallb_forall. split; intros H i Hi.
    - apply H. apply (Permutation_in _ Hks), nth_In. apply in_seq in Hi. rewrite ks_length. lia.
    - apply (Permutation_in _ (Permutation_sym Hks)) in Hi. apply (In_nth _ _ 0%nat) in Hi as (j & Hj & <-). rewrite ks_length in Hj. apply H, in_seq. lia.
  Qed.
  Lemma winners_reseat d l m m' : length d = n -> (forall j, (j < n)%nat -> N.testbit m' (N.of_nat j) = N.testbit m (N.of_nat (nth j ks 0%nat))) ->
    nats_eqb (winners (reseat d) l) (players_of n m') = nats_eqb (winners d l) (players_of n m).
  Proof.
    intros Hd Hm. rewrite !winners_is. unfold players_of. assert (Hl : length (reseat d) = n) by (unfold reseat; rewrite map_length; apply ks_length).
    rewrite Hl, Hd, !filters_eqb. rewrite (forallb_ks (fun i => Bool.eqb (is_winner d l i) (N.testbit m (N.of_nat i)))).
    apply forallb_ext_in. intros j Hj. apply in_seq in Hj. rewrite winner_reseat, Hm by lia. reflexivity.
  Qed.
  Lemma nth_ks_eq i j : (i < n)%nat -> (j < n)%nat -> (nth i ks 0 =? nth j ks 0)%nat = (i =? j)%nat.
  Proof.
    intros Hi Hj. apply eq_true_iff_eq. rewrite !Nat.eqb_eq. split; [|congruence]. intros E. apply (proj1 (NoDup_nth ks 0%nat) ks_NoDup); rewrite ?ks_length; assumption.
  Qed.
  Lemma single_players j : (j < n)%nat -> players_of n (2 ^ N.of_nat j) = [j].
  Proof.
    intros Hj. unfold players_of. rewrite (filter_ext _ (fun i => (i =? j)%nat)).
    2:{ intros i. rewrite N.pow2_bits_eqb. destruct (N.eqb_spec (N.of_nat j) (N.of_nat i)), (Nat.eqb_spec i j); try reflexivity; lia. }
    revert Hj. generalize n. clear. intros m Hm. replace m with (j + (1 + (m - j - 1)))%nat by lia. rewrite !seq_app, !filter_app. cbn [seq filter Nat.add]. rewrite Nat.eqb_refl.
    assert (H1 : filter (fun i => (i =? j)%nat) (seq 0 j) = []). { apply filter_none. intros i Hi. apply in_seq in Hi. apply Nat.eqb_neq. lia. }
    assert (H2 : filter (fun i => (i =? j)%nat) (seq (j + 1) (m - j - 1)) = []). { apply filter_none. intros i Hi. apply in_seq in Hi. apply Nat.eqb_neq. lia. }
    rewrite H1, H2. reflexivity.
  Qed.
  Lemma alone_reseat d l j : length d = n -> (j < n)%nat -> nats_eqb (winners (reseat d) l) [j] = nats_eqb (winners d l) [nth j ks 0%nat].
  Proof.
    intros Hd Hj. assert (Hk : (nth j ks 0 < n)%nat) by (apply ks_lt, nth_In; rewrite ks_length; exact Hj).
    rewrite <- (single_players j Hj), <- (single_players _ Hk). apply winners_reseat; [exact Hd|]. intros i Hi. rewrite !N.pow2_bits_eqb.
    pose proof (nth_ks_eq j i Hj Hi) as E. destruct (Nat.eqb_spec (nth j ks 0%nat) (nth i ks 0%nat)), (N.eqb_spec (N.of_nat j) (N.of_nat i)),
      (N.eqb_spec (N.of_nat (nth j ks 0%nat)) (N.of_nat (nth i ks 0%nat))); try reflexivity; symmetry in E; try apply Nat.eqb_eq in E; try apply Nat.eqb_neq in E; lia.
  Qed.
  Lemma count_reseat d l : length d = n -> length (winners (reseat d) l) = length (winners d l).
  Proof.
    intros Hd. rewrite !winners_is. assert (Hl : length (reseat d) = n) by (unfold reseat; rewrite map_length; apply ks_length). rewrite Hl, Hd.
    assert (HP : Permutation (filter (is_winner d l) ks) (filter (is_winner d l) (seq 0 n))) by (apply perm_filter; exact Hks).
    rewrite <- (Permutation_length HP). rewrite (filter_ext_in (is_winner (reseat d) l) (fun j => is_winner d l (nth j ks 0%nat))).
    2:{ intros j Hj. apply in_seq in Hj. apply winner_reseat; [exact Hd|lia]. }
    assert (Hmap : map (fun j => nth j ks 0%nat) (seq 0 n) = ks).
    { rewrite <- ks_length. apply (nth_ext _ _ 0%nat 0%nat); [rewrite map_length, seq_length; reflexivity|]. intros k Hk. rewrite map_length, seq_length in Hk.
      rewrite (nth_indep _ _ (nth 0 ks 0%nat)) by (rewrite map_length, seq_length; exact Hk). rewrite (map_nth (fun j => nth j ks 0%nat)), seq_nth by exact Hk. reflexivity. }
    replace (filter (is_winner d l) ks) with (filter (is_winner d l) (map (fun j => nth j ks 0%nat) (seq 0 n))) by (rewrite Hmap; reflexivity). generalize (seq 0 n). intros s. induction s as [|x s IH]; [reflexivity|]. cbn [map filter]. destruct (is_winner d l (nth x ks 0%nat)); cbn [length]; rewrite IH; reflexivity.
  Qed.
  Lemma among_reseat d l j : length d = n -> (j < n)%nat -> existsb (Nat.eqb j) (winners (reseat d) l) = existsb (Nat.eqb (nth j ks 0%nat)) (winners d l).
  Proof.
    intros Hd Hj. rewrite !winners_is, !filter_seq_in. assert (Hl : length (reseat d) = n) by (unfold reseat; rewrite map_length; apply ks_length). rewrite Hl, Hd.
    assert (Hk : (nth j ks 0 < n)%nat) by (apply ks_lt, nth_In; rewrite ks_length; exact Hj).
    replace (j <? n)%nat with true by (symmetry; apply Nat.ltb_lt; exact Hj). replace (nth j ks 0 <? n)%nat with true by (symmetry; apply Nat.ltb_lt; exact Hk).
    cbn [andb]. apply winner_reseat; assumption.
  Qed.
  Lemma holds_reseat d j a b : (j < n)%nat -> holds j a b (reseat d) = holds (nth j ks 0%nat) a b d.
  Proof. intros Hj. unfold holds. rewrite reseat_holding by exact Hj. reflexivity. Qed.

  Lemma won_by_reseat board dead m m' : (forall j, (j < n)%nat -> N.testbit m' (N.of_nat j) = N.testbit m (N.of_nat (nth j ks 0%nat))) ->
    won_by (map (range_at ranges) ks) board dead m' = won_by ranges board dead m.
  Proof.
    intros Hm. unfold won_by. rewrite map_length, ks_length. apply total_reseat. intros d l Hd. apply winners_reseat; [exact (deal_length _ _ _ _ Hd)|exact Hm].
  Qed.
  Lemma hands_reseat board dead j a b : (j < n)%nat ->
    hand_wins (map (range_at ranges) ks) board dead j a b = hand_wins ranges board dead (nth j ks 0%nat) a b /\
    hand_ties (map (range_at ranges) ks) board dead j a b = hand_ties ranges board dead (nth j ks 0%nat) a b /\
    hand_total (map (range_at ranges) ks) board dead j a b = hand_total ranges board dead (nth j ks 0%nat) a b.
  Proof.
    intros Hj. unfold hand_wins, hand_ties, hand_total. split; [|split]; apply total_reseat; intros d l Hd; apply deal_length in Hd; fold n in Hd; rewrite (holds_reseat d j a b Hj);
      rewrite ?(alone_reseat d l j Hd Hj), ?(among_reseat d l j Hd Hj), ?(count_reseat d l Hd); reflexivity.
  Qed.
End Seats.

Lemma seats p ranges ks board dead threads threads' sched sched' o o' : usable ranges -> Permutation ks (seq 0 (length ranges)) ->
  exact_equity p ranges board dead threads false sched = Ret (ROk o) -> ~ In Cancel sched -> (0 < threads)%nat ->
  exact_equity p (map (range_at ranges) ks) board dead threads' false sched' = Ret (ROk o') -> ~ In Cancel sched' -> (0 < threads')%nat ->
  ((length ranges <= 8)%nat -> forall m m', m < 2 ^ N.of_nat (length ranges) -> m' < 2 ^ N.of_nat (length ranges) ->
     (forall j, (j < length ranges)%nat -> N.testbit m' (N.of_nat j) = N.testbit m (N.of_nat (nth j ks 0%nat))) ->
     nth_error (r_wins_by_mask (o_results o')) (N.to_nat m') = nth_error (r_wins_by_mask (o_results o)) (N.to_nat m)) /\
  (forall j k, (j < length ranges)%nat -> (k < 1326)%nat -> exists u u', nth_error (r_hand_results (o_results o')) (1326 * j + k) = Some u' /\
     nth_error (r_hand_results (o_results o)) (1326 * nth j ks 0%nat + k) = Some u /\ u_wins u' = u_wins u /\ u_ties u' = u_ties u /\ u_total u' = u_total u).
Proof.
  intros Hu Hks H Hc Ht H' Hc' Ht'.
  assert (Hlk : length (map (range_at ranges) ks) = length ranges) by (rewrite map_length, (Permutation_length Hks); apply seq_length).
  assert (HPr : Permutation (map (range_at ranges) ks) ranges).
  { rewrite <- (map_range_of ranges) at 2. apply Permutation_map. exact Hks. }
  assert (Hu' : usable (map (range_at ranges) ks)).
  { destruct Hu as [Hr Hs]. split; [eapply Permutation_Forall; [symmetry; exact HPr|exact Hr]|]. replace (prod_of (fun r => N.of_nat (length r)) (map (range_at ranges) ks)) with (prod_of (fun r : list whand => N.of_nat (length r)) ranges); [exact Hs|].
    clear - HPr. induction HPr; unfold prod_of in *; cbn [fold_right]; try lia. }
  split.
  - intros H8 m m' Hm Hm' Hbits. pose proof (masks_spec p ranges board dead threads sched o Hu H Hc Ht) as [L1 M1].
    pose proof (masks_spec p _ board dead threads' sched' o' Hu' H' Hc' Ht') as [L2 M2]. rewrite Hlk in L2, M2. specialize (M1 H8 m Hm). specialize (M2 H8 m' Hm').
    rewrite (won_by_reseat ranges ks Hks board dead m m' Hbits) in M2.
    assert (HN : N.of_nat (2 ^ length ranges) = 2 ^ N.of_nat (length ranges)) by (rewrite Nat2N.inj_pow; reflexivity).
    rewrite (nth_error_nth' _ 0) by lia. rewrite (nth_error_nth' (r_wins_by_mask (o_results o)) 0) by lia. f_equal. eapply counter_fun; eassumption.
  - intros j k Hj Hk. destruct (index_onto p (N.of_nat k)) as (a & b & Hab & Ek); [lia|].
    assert (Hkj : (nth j ks 0 < length ranges)%nat).
    { apply (ks_lt ranges ks Hks), nth_In. rewrite (Permutation_length Hks), seq_length. exact Hj. }
    destruct (hands_spec p ranges board dead threads sched o Hu H Hc Ht (nth j ks 0%nat) a b _ Hkj Hab Ek) as (u & U1 & U2 & U3 & U4).
    destruct (hands_spec p _ board dead threads' sched' o' Hu' H' Hc' Ht' j a b _ ltac:(rewrite Hlk; exact Hj) Hab Ek) as (u' & V1 & V2 & V3 & V4).
    rewrite Nat2N.id in U1, V1. exists u, u'. split; [exact V1|]. split; [exact U1|].
    destruct (hands_reseat ranges ks Hks board dead j a b Hj) as (E1 & E2 & E3). rewrite E1 in V2. rewrite E2 in V3. rewrite E3 in V4.
    split; [eapply counter_fun; eassumption|]. split; eapply counter_fun; eassumption.
Qed.
