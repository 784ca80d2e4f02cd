(* The ties of the hands of a player and the pots the player split. *)
From Verif Require Import Base BaseProofs SumFacts ListFacts Float64 Hand Range FastDivide Combined Sim Approx SpecPoker SpecNames SpecHand SpecEquity
  SpecResults SpecRun SpecApprox SpecFinal PokerFacts CombinedProofs PositionProofs IndexProofs BoardProofs DealProofs WeightProofs ShowdownProofs ExactProofs ResultProofs ConsistProofs RunProofs FinalProofs FinalRunProofs
  ApproxRunProofs ApproxResultProofs ShareProofs TableRateProofs SupportProofs KindProofs ComboSumProofs HandWinProofs ComboWinProofs.
From Coq Require Import Permutation.
Local Open Scope N_scope.
#[local] Opaque NUM_HANDS NUM_COMBOS.

Lemma pick_one (P : nat -> bool) K v : (v < K)%nat -> sumf (fun m => if (v =? m)%nat then 1 else 0) (filter P (seq 0 K)) = if P v then 1 else 0.
Proof.
  intros Hv. destruct (P v) eqn:E.
  - apply (KindProofs.one_of (fun m => (v =? m)%nat) (filter P (seq 0 K)) v).
    + apply NoDup_filter, seq_NoDup.
    + apply filter_In. split; [apply in_seq; lia|exact E].
    + apply Nat.eqb_refl.
    + intros m _ Hm. apply Nat.eqb_eq in Hm. congruence.
  - apply sumf_zero. intros m Hm. apply filter_In in Hm as [_ Hm]. destruct (Nat.eqb_spec v m) as [->|]; [congruence|reflexivity].
Qed.
Lemma over_pick board dead D (P : nat -> bool) (v : list whand -> list N -> nat) K : (forall d l, In d D -> (v d l < K)%nat) ->
  sumf (fun m => sum_over board dead D (fun d l => (v d l =? m)%nat)) (filter P (seq 0 K)) = sum_over board dead D (fun d l => P (v d l)).
Proof.
  intros H. rewrite (sumf_ext _ (fun m => sumf (fun d => deal_weight d * sumf (fun l => if (v d l =? m)%nat then 1 else 0) (boards board dead d)) D)) by (intros m _; apply sum_over_sumf).
  rewrite sumf_swap, sum_over_sumf. apply sumf_ext. intros d Hd. rewrite sumf_mul. f_equal. rewrite sumf_swap. apply sumf_ext. intros l _. apply pick_one. exact (H d l Hd).
Qed.
Lemma sampled_pick E (P : nat -> bool) (v : list whand -> list N -> nat) K : (forall s, In s E -> (v (fst s) (snd s) < K)%nat) ->
  sumf (fun m => sampled E (fun d l => (v d l =? m)%nat)) (filter P (seq 0 K)) = sampled E (fun d l => P (v d l)).
Proof.
  intros H. rewrite (sumf_ext _ (fun m => sumf (fun s => deal_weight (fst s) * (if (v (fst s) (snd s) =? m)%nat then 1 else 0)) E)).
  - rewrite sumf_swap, sampled_sumf. apply sumf_ext. intros s Hs. rewrite sumf_mul, (pick_one P K _ (H s Hs)). destruct (P (v (fst s) (snd s))); lia.
  - intros m _. rewrite sampled_sumf. apply sumf_ext. intros s _. destruct (v (fst s) (snd s) =? m)%nat; lia.
Qed.

Lemma wmask_below d l n : length d = n -> (N.to_nat (wmask (winners d l)) < 2 ^ n)%nat.
Proof.
  intros Hl. rewrite <- pow_nat. assert (Hw : wmask (winners d l) < 2 ^ N.of_nat n); [|lia].
  destruct (N.ltb_spec (wmask (winners d l)) (2 ^ N.of_nat n)) as [Hlt|Hge]; [exact Hlt|exfalso].
  assert (Hne : wmask (winners d l) <> 0) by (intros E0; rewrite E0 in Hge; assert (0 < 2 ^ N.of_nat n) by (apply N.neq_0_lt_0, N.pow_nonzero; lia); lia).
  pose proof (N.bit_log2 _ Hne) as Hb. apply (N.log2_le_mono) in Hge. rewrite N.log2_pow2 in Hge by lia.
  rewrite <- (N2Nat.id (N.log2 (wmask (winners d l)))), wmask_bit in Hb. apply existsb_exists in Hb as (j & Hj & Ej). apply Nat.eqb_eq in Ej. subst j.
  unfold seen in Hj. apply filter_In in Hj as [Hj _]. apply winners_lt in Hj. lia.
Qed.
Lemma seen_all d l : (length d <= 8)%nat -> seen (winners d l) = winners d l.
Proof. intros H. unfold seen. apply filter_all, forallb_forall. intros j Hj. apply winners_lt in Hj. apply Nat.ltb_lt. lia. Qed.

(* the mask stands for a pot that player i shares with others *)
Definition splits (i m : nat) : bool := N.testbit (N.of_nat m) (N.of_nat i) && negb (m =? 2 ^ i)%nat.
Lemma splits_ties d l n i : length d = n -> (n <= 8)%nat -> (i < n)%nat ->
  splits i (N.to_nat (wmask (winners d l))) = existsb (Nat.eqb i) (winners d l) && (2 <=? length (winners d l))%nat.
Proof.
  intros Hl Hn Hi. unfold splits. rewrite N2Nat.id, wmask_bit, <- pow_nat, (wmask_players d l n) by (exact Hl || apply N.pow_lt_mono_r; lia).
  rewrite (alone_seen d l n i Hl Hn Hi), seen_all by lia.
  destruct (existsb (Nat.eqb i) (winners d l)) eqn:E; [|reflexivity]. cbn [andb]. destruct (winners d l) as [|x [|y w]]; [discriminate E| |].
  - cbn [existsb] in E. rewrite orb_false_r in E. apply Nat.eqb_eq in E. subst x. assert (HT : nats_eqb [i] [i] = true) by (apply nats_eqb_eq; reflexivity). rewrite HT. reflexivity.
  - assert (HF : nats_eqb (x :: y :: w) [i] = false) by (destruct (nats_eqb (x :: y :: w) [i]) eqn:F; [apply nats_eqb_eq in F; discriminate F|reflexivity]). rewrite HF. reflexivity.
Qed.
Lemma listed_below (P : nat -> bool) n m : In m (filter P (seq 0 (2 ^ n))) -> N.of_nat m < 2 ^ N.of_nat n.
Proof. rewrite filter_In, in_seq, <- pow_nat. intros [[_ H] _]. cbn [Nat.add] in H. lia. Qed.

Lemma exact_splits p ranges board dead threads cancelled sched o : usable ranges -> exact_equity p ranges board dead threads cancelled sched = Ret (ROk o) -> p = Debug \/ weights_fit ranges board ->
  (length ranges <= 8)%nat -> forall i, (i < length ranges)%nat ->
  sum_of u_ties (firstn 1326 (skipn (1326 * i) (r_hand_results (o_results o)))) = sum_of (fun m => nth m (r_wins_by_mask (o_results o)) 0) (filter (splits i) (seq 0 (2 ^ length ranges))).
Proof.
  intros Hu H Hex H8 i Hi. destruct (some_run p ranges board dead threads cancelled sched o Hu H) as (D & left & e & HP & Hn & Hrep). destruct Hu as [Hr _].
  assert (HS : forall d, In d D -> length d = length ranges /\ Forall hole_hand d) by (intros d Hd; exact (made_shape ranges board dead D left Hr HP d Hd)).
  rewrite <- (sumf_sum_of (fun m => nth m (r_wins_by_mask (o_results o)) 0)).
  rewrite (sumf_ext _ (fun m => sum_over board dead D (fun d l => (N.to_nat (wmask (winners d l)) =? m)%nat))).
  2:{ intros m Hm. apply listed_below in Hm. pose proof (exact_counter _ _ _ _ _ _ _ _ HP Hex (rp_masks _ _ _ _ _ _ _ Hrep _ Hm)) as HM. rewrite Nat2N.id in HM. rewrite HM.
    apply sum_over_ext. intros d l Hd _. destruct (HS d Hd) as [Hl _]. rewrite <- (wmask_players d l _ _ Hl Hm), Nat2N.id. reflexivity. }
  rewrite (over_pick board dead D (splits i) (fun d l => N.to_nat (wmask (winners d l)))) by (intros d l Hd; destruct (HS d Hd) as [Hl _]; apply wmask_below; exact Hl).
  rewrite (sum_over_ext board dead D _ (fun d l => existsb (Nat.eqb i) (winners d l) && (2 <=? length (winners d l))%nat)) by (intros d l Hd _; destruct (HS d Hd) as [Hl _]; eapply splits_ties; eassumption).
  rewrite (hands_listed u_ties _ _ i (rp_hands _ _ _ _ _ _ _ Hrep) Hi).
  rewrite <- (over_split board dead D (at_place p i) (fun d l => existsb (Nat.eqb i) (winners d l) && (2 <=? length (winners d l))%nat) (upto 1326)) by (intros d Hd; destruct (HS d Hd) as [Hl Hh]; apply one_place; exact (held _ _ _ Hl Hh Hi)).
  apply sumf_ext. intros k Hk. apply upto_In in Hk. destruct (index_onto p k Hk) as (a & b & Hab & Ek). destruct (idx_spec p a b Hab) as [Ek2 _]. rewrite Ek in Ek2. injection Ek2 as ->.
  rewrite (sum_over_ext board dead D _ (ties_with i a b)) by (intros d l Hd _; destruct (HS d Hd) as [Hl Hh]; rewrite (at_holds p i a b d Hab (held _ _ _ Hl Hh Hi)); unfold ties_with; apply andb_assoc).
  rewrite Nat2N.id. change 1326%nat with NUM_HANDS. eapply exact_counter; [exact HP|exact Hex|]. exact (rp_tie _ _ _ _ _ _ _ Hrep i a b Hi Hab).
Qed.
Lemma approx_splits p ranges board dead threads target cancelled shuf rngs fuel sched o : Forall range_ok ranges -> permutes shuf ->
  approx_equity p ranges board dead threads target cancelled shuf rngs fuel sched = Ret (ROk o) -> p = Debug \/ N.of_nat (length sched) * heaviest ranges < 2 ^ 64 ->
  (length ranges <= 8)%nat -> forall i, (i < length ranges)%nat ->
  sum_of u_ties (firstn 1326 (skipn (1326 * i) (r_hand_results (o_results o)))) = sum_of (fun m => nth m (r_wins_by_mask (o_results o)) 0) (filter (splits i) (seq 0 (2 ^ length ranges))).
Proof.
  intros Hr Hs H Hex0 H8 i Hi. destruct (some_approx _ _ _ _ _ _ _ _ _ _ _ _ Hr Hs H) as (Hn & Hb & E & HE & Hl & Hrep).
  assert (Hex : p = Debug \/ N.of_nat (length E) * heaviest ranges < 2 ^ 64) by (destruct Hex0 as [Hp|Hfit]; [left; exact Hp|right]; eapply N.le_lt_trans; [|exact Hfit]; apply N.mul_le_mono_r; lia).
  assert (HX : forall what x, counter p x (sampled E what) -> x = sampled E what) by (intros what x; apply (acounter p ranges board dead E (o_results o)); assumption).
  assert (HS : forall s, In s E -> length (fst s) = length ranges /\ Forall hole_hand (fst s)) by (intros s HIn; eapply ashape; eassumption).
  rewrite <- (sumf_sum_of (fun m => nth m (r_wins_by_mask (o_results o)) 0)).
  rewrite (sumf_ext _ (fun m => sampled E (fun d l => (N.to_nat (wmask (winners d l)) =? m)%nat))).
  2:{ intros m Hm. apply listed_below in Hm. pose proof (HX _ _ (ar_masks _ _ _ _ Hrep _ Hm)) as HM. rewrite Nat2N.id in HM. rewrite HM.
    apply sampled_eq. intros s HIn. destruct (HS s HIn) as [HlS _]. rewrite <- (wmask_players _ _ _ _ HlS Hm), Nat2N.id. reflexivity. }
  rewrite (sampled_pick E (splits i) (fun d l => N.to_nat (wmask (winners d l)))) by (intros s HIn; destruct (HS s HIn) as [HlS _]; apply wmask_below; exact HlS).
  rewrite (sampled_eq E _ (fun d l => existsb (Nat.eqb i) (winners d l) && (2 <=? length (winners d l))%nat)) by (intros s HIn; destruct (HS s HIn) as [HlS _]; eapply splits_ties; eassumption).
  rewrite (hands_listed u_ties _ _ i (ar_hands _ _ _ _ Hrep) Hi).
  rewrite <- (sampled_split E (at_place p i) (fun d l => existsb (Nat.eqb i) (winners d l) && (2 <=? length (winners d l))%nat) (upto 1326)) by (intros s HIn; destruct (HS s HIn) as [HlS Hh]; apply one_place; exact (held _ _ _ HlS Hh Hi)).
  apply sumf_ext. intros k Hk. apply upto_In in Hk. destruct (index_onto p k Hk) as (a & b & Hab & Ek). destruct (idx_spec p a b Hab) as [Ek2 _]. rewrite Ek in Ek2. injection Ek2 as ->.
  rewrite (sampled_eq E _ (ties_with i a b)) by (intros s HIn; destruct (HS s HIn) as [HlS Hh]; rewrite (at_holds p i a b (fst s) Hab (held _ _ _ HlS Hh Hi)); unfold ties_with; apply andb_assoc).
  rewrite Nat2N.id. change 1326%nat with NUM_HANDS. apply HX. exact (ar_tie _ _ _ _ Hrep i a b Hi Hab).
Qed.
