(* Players who change seats take their equities with them, if pots split evenly. *)
From Coq Require Import Permutation QArith Lqa.
From Verif Require Import Base BaseProofs SumFacts ListFacts Ghost Float64 Hand Range FastDivide Combined Sim SpecPoker SpecNames SpecHand SpecEquity SpecResults SpecRun SpecSymmetry SpecShare SpecEven SpecRates SpecScale
  EnumProofs PokerFacts IndexProofs CombinedProofs PositionProofs MachineProofs SetupProofs WeightProofs FinalProofs ExactProofs ResultProofs CombineRunProofs RunProofs LaunchProofs ConsistProofs SymmetryProofs SeatProofs
  EquityProofs ShareProofs FinalRunProofs RateProofs EvenProofs EvenSymmetryProofs QuotientProofs ScaleProofs.
Local Open Scope N_scope.

Lemma exact_true_closest p ranges board dead threads sched o : usable ranges -> (length ranges <= 8)%nat -> fits p ranges board -> even_deals ranges board dead ->
  exact_equity p ranges board dead threads false sched = Ret (ROk o) -> ~ In Cancel sched -> (0 < threads)%nat ->
  let w := dealt_pots ranges board dead in w <= 2 ^ 53 -> 0 < w ->
  forall j, (j < length ranges)%nat -> closest (nth j (r_equities (o_results o)) f_zero) (ratio (dealt_shares ranges board dead j) (2520 * w)).
Proof.
  intros Hu H8 Hw Hev H Hc Ht. cbv zeta. intros H53 H0 j Hj. pose proof (exact_closest _ _ _ _ _ _ _ _ Hu Hw Hev H) as HC. apply exact_debug in H; [|exact Hu|exact Hw].
  destruct (masks_spec _ _ _ _ _ _ _ Hu H Hc Ht) as [HL HM]. specialize (HM H8). cbn [counter] in HM.
  destruct (RunProofs.full_run _ _ _ _ _ _ _ Hu H Hc Ht) as (D & e & HP & Hn & Hrep).
  pose proof (true_pots ranges board dead _ ltac:(lia) HL HM) as EP. pose proof (true_shares ranges board dead _ ltac:(lia) HL HM) as ES.
  assert (ET : sum_of (fun x => x) (r_wins_by_mask (o_results o)) = dealt_pots ranges board dead).
  { change (sumf (fun x => x) (r_wins_by_mask (o_results o)) = dealt_pots ranges board dead).
    rewrite (masks_total Debug ranges board dead D [] e _ (proj1 Hu) Hn ltac:(rewrite app_nil_r; exact HP) Hrep (or_introl eq_refl)).
    rewrite (sum_over_perm _ _ _ _ _ HP). apply sum_over_total. }
  cbv zeta in HC. rewrite ET, EP in HC. specialize (HC H53 H0 j Hj). rewrite ES in HC. exact HC.
Qed.

Definition deal_dec : forall d d' : list whand, {d = d'} + {d <> d'}.
Proof. apply list_eq_dec. intros [[a b] w] [[a' b'] w']. decide equality; [apply N.eq_dec|decide equality; apply N.eq_dec]. Defined.
Lemma picks_reseat ranges ks d : Permutation ks (seq 0 (length ranges)) -> In d (picks (map (range_at ranges) ks)) -> exists d0, In d0 (picks ranges) /\ d = reseat ks d0.
Proof.
  intros HP Hd. pose proof (sum_reseat ranges ks HP (fun x => if deal_dec x d then 1 else 0)) as E.
  pose proof (sumf_in_le (fun x => if deal_dec x d then 1 else 0) _ d Hd) as L. cbv beta in L. destruct (deal_dec d d) as [_|X]; [|contradiction].
  rewrite E in L. destruct (existsb (fun d0 => if deal_dec (reseat ks d0) d then true else false) (picks ranges)) eqn:Ex.
  - apply existsb_exists in Ex as (d0 & Hd0 & Ed). exists d0. split; [exact Hd0|]. destruct (deal_dec (reseat ks d0) d) as [Eq|]; [symmetry; exact Eq|discriminate].
  - rewrite sumf_zero in L; [lia|]. intros d0 Hd0. destruct (deal_dec (reseat ks d0) d) as [Eq|]; [|reflexivity]. exfalso.
    assert (K : existsb (fun d0 => if deal_dec (reseat ks d0) d then true else false) (picks ranges) = true); [|congruence].
    apply existsb_exists. exists d0. split; [exact Hd0|]. rewrite Eq. destruct (deal_dec d d) as [_|X]; [reflexivity|contradiction].
Qed.
Lemma even_reseat ranges ks board dead : Permutation ks (seq 0 (length ranges)) -> even_deals ranges board dead -> even_deals (map (range_at ranges) ks) board dead.
Proof.
  intros HP He d k Hd Hk. rewrite map_length, (Permutation_length HP), seq_length in Hk. unfold deals in Hd. apply filter_In in Hd as [Hd Hp].
  destruct (picks_reseat _ _ _ HP Hd) as (d0 & Hd0 & ->). assert (HR : Permutation (reseat ks d0) d0) by (apply (reseat_perm ranges ks HP); apply picks_length; exact Hd0).
  rewrite (possible_perm _ _ _ _ HR) in Hp. rewrite (SeatProofs.weight_perm ranges _ _ HR). apply He; [|exact Hk]. apply filter_In. split; assumption.
Qed.
Lemma sum_of_ext {A} (f g : A -> N) l : (forall x, In x l -> f x = g x) -> sum_of f l = sum_of g l.
Proof. intros H. change (sumf f l = sumf g l). apply sumf_ext. exact H. Qed.
Lemma shares_reseat ranges ks board dead j : Permutation ks (seq 0 (length ranges)) -> (j < length ranges)%nat ->
  dealt_shares (map (range_at ranges) ks) board dead j = dealt_shares ranges board dead (nth j ks 0%nat).
Proof.
  intros HP Hj. unfold dealt_shares, deals. change (sumf (fun d => deal_weight d * sum_of (fun l => share_of j (winners d l)) (boards board dead d)) (filter (possible board dead) (picks (map (range_at ranges) ks))) =
    sumf (fun d => deal_weight d * sum_of (fun l => share_of (nth j ks 0%nat) (winners d l)) (boards board dead d)) (filter (possible board dead) (picks ranges))).
  rewrite !sumf_filter, (sum_reseat ranges ks HP). apply sumf_ext. intros d Hd. pose proof (picks_length _ _ Hd) as Hl. pose proof (reseat_perm ranges ks HP d Hl) as HR.
  rewrite (possible_perm _ _ _ _ HR). destruct (possible board dead d); [|reflexivity]. rewrite (SeatProofs.weight_perm ranges _ _ HR), (boards_perm _ _ _ _ HR). apply f_equal.
  apply sum_of_ext. intros l _.
  unfold share_of. rewrite (among_reseat ranges ks HP d l j Hl Hj), (count_reseat ranges ks HP d l Hl). reflexivity.
Qed.
Lemma equities_seats p q ranges ks board dead o o' : let ranges' := map (range_at ranges) ks in usable ranges -> usable ranges' -> (length ranges <= 8)%nat -> Permutation ks (seq 0 (length ranges)) ->
  fits p ranges board -> fits q ranges' board -> even_deals ranges board dead -> dealt_pots ranges board dead <= 2 ^ 53 ->
  completes p ranges board dead o -> completes q ranges' board dead o' ->
  r_equities (o_results o') = map (fun k => nth k (r_equities (o_results o)) f_zero) ks.
Proof.
  intros ranges' Hu Hu' H8 HP Hf Hf' He H53 (th & sc & Ht & Hc & H) (th' & sc' & Ht' & Hc' & H').
  assert (Hl : length ranges' = length ranges) by (unfold ranges'; rewrite map_length, (Permutation_length HP); apply seq_length).
  assert (EP : dealt_pots ranges' board dead = dealt_pots ranges board dead) by (apply (total_reseat ranges ks HP); reflexivity).
  destruct (exact_even_true _ _ _ _ _ _ _ Hu H8 Hf He H Hc Ht H53) as [E _].
  destruct (exact_even_true q ranges' _ _ _ _ _ Hu' ltac:(rewrite Hl; exact H8) Hf' (even_reseat _ _ _ _ HP He) H' Hc' Ht' ltac:(rewrite EP; exact H53)) as [E' _].
  rewrite E', EP, Hl. apply (nth_ext _ _ f_zero f_zero); [rewrite !map_length, (Permutation_length HP); reflexivity|]. rewrite map_length, seq_length. intros j Hj.
  assert (Hk : (nth j ks 0 < length ranges)%nat) by (apply (ks_lt ranges ks HP), nth_In; rewrite (Permutation_length HP), seq_length; exact Hj).
  set (g := fun k => f_div (f_of_N (dealt_shares ranges board dead k / 2520)) (f_of_N (dealt_pots ranges board dead))) in *.
  rewrite (nth_indep (map (fun k => nth k _ f_zero) ks) f_zero (nth 0 (r_equities (o_results o)) f_zero)) by (rewrite map_length, (Permutation_length HP), seq_length; exact Hj).
  rewrite (map_nth (fun k => nth k (r_equities (o_results o)) f_zero) ks 0%nat j). rewrite E.
  rewrite (nth_indep (map g (seq 0 (length ranges))) f_zero (g 0%nat)) by (rewrite map_length, seq_length; exact Hk). rewrite (map_nth g), seq_nth by exact Hk. cbn [Nat.add].
  rewrite (nth_indep _ f_zero (f_div (f_of_N (dealt_shares ranges' board dead 0 / 2520)) (f_of_N (dealt_pots ranges board dead)))) by (rewrite map_length, seq_length; exact Hj).
  rewrite (map_nth (fun j => f_div (f_of_N (dealt_shares ranges' board dead j / 2520)) (f_of_N (dealt_pots ranges board dead)))), seq_nth by exact Hj. cbn [Nat.add].
  unfold ranges'. rewrite (shares_reseat ranges ks board dead j HP Hj). reflexivity.
Qed.
