(* The wins of the hands of a player and the pots the player won alone. *)
From Verif Require Import Base BaseProofs SumFacts ListFacts Float64 Hand Range FastDivide Combined Sim Approx SpecPoker SpecNames SpecHand SpecEquity
  SpecResults SpecRun SpecApprox PokerFacts CombinedProofs PositionProofs IndexProofs BoardProofs DealProofs WeightProofs ShowdownProofs ConsistProofs ExactProofs ResultProofs ConsistProofs RunProofs ApproxRunProofs ApproxResultProofs.
From Coq Require Import Permutation.
Local Open Scope N_scope.
#[local] Opaque NUM_HANDS NUM_COMBOS.

Lemma over_split {K} board dead D (key : K -> list whand -> bool) what ks : (forall d, In d D -> sumf (fun k => if key k d then 1 else 0) ks = 1) ->
  sumf (fun k => sum_over board dead D (fun d l => key k d && what d l)) ks = sum_over board dead D what.
Proof.
  intros H. rewrite (sumf_ext _ (fun k => sumf (fun d => deal_weight d * sumf (fun l => if what d l then 1 else 0) (boards board dead d) * (if key k d then 1 else 0)) D)).
  - rewrite sumf_swap, sum_over_sumf. apply sumf_ext. intros d Hd. rewrite sumf_mul, (H d Hd). lia.
  - intros k _. rewrite sum_over_sumf. apply sumf_ext. intros d _. destruct (key k d); cbn [andb]; [lia|]. rewrite (sumf_zero (fun _ => 0)) by reflexivity. lia.
Qed.
Lemma sampled_split {K} E (key : K -> list whand -> bool) what ks : (forall s, In s E -> sumf (fun k => if key k (fst s) then 1 else 0) ks = 1) ->
  sumf (fun k => sampled E (fun d l => key k d && what d l)) ks = sampled E what.
Proof.
  intros H. rewrite (sumf_ext _ (fun k => sumf (fun s => (if what (fst s) (snd s) then deal_weight (fst s) else 0) * (if key k (fst s) then 1 else 0)) E)).
  - rewrite sumf_swap, sampled_sumf. apply sumf_ext. intros s Hs. rewrite sumf_mul, (H s Hs). lia.
  - intros k _. rewrite sampled_sumf. apply sumf_ext. intros s _. destruct (key k (fst s)); cbn [andb]; destruct (what (fst s) (snd s)); lia.
Qed.

(* the hand of player i is at place k *)
Definition at_place (p : profile) (i : nat) (k : N) (d : list whand) : bool := N.of_nat (idx p (first_card (holding d i)) (second_card (holding d i))) =? k.
Lemma at_holds p i a b d : hole a b -> hole_hand (holding d i) -> at_place p i (N.of_nat (idx p a b)) d = holds i a b d.
Proof.
  intros Hab Hh. unfold at_place, holds. rewrite <- (idx_eq p) by assumption.
  destruct (N.eqb_spec (N.of_nat (idx p (first_card (holding d i)) (second_card (holding d i)))) (N.of_nat (idx p a b))),
    (Nat.eqb_spec (idx p (first_card (holding d i)) (second_card (holding d i))) (idx p a b)); try reflexivity; lia.
Qed.
Lemma one_place p i d : hole_hand (holding d i) -> sumf (fun k => if at_place p i k d then 1 else 0) (upto 1326) = 1.
Proof.
  intros Hh. destruct (idx_spec p _ _ Hh) as [_ Hlt]. change NUM_HANDS with 1326%nat in Hlt. unfold at_place.
  rewrite (sumf_ext _ (fun k => if k =? N.of_nat (idx p (first_card (holding d i)) (second_card (holding d i))) then 1 else 0)) by (intros; rewrite N.eqb_sym; reflexivity).
  apply one_of. lia.
Qed.
Lemma held (d : list whand) n i : length d = n -> Forall hole_hand d -> (i < n)%nat -> hole_hand (holding d i).
Proof. intros <- Hh Hi. apply (proj1 (Forall_nth _ d) Hh). exact Hi. Qed.

(* with at most eight players the mask of a single player stands for that player *)
Lemma alone_seen d l n i : length d = n -> (n <= 8)%nat -> (i < n)%nat -> nats_eqb (seen (winners d l)) (players_of n (2 ^ N.of_nat i)) = nats_eqb (winners d l) [i].
Proof.
  intros Hl Hn Hi. f_equal.
  - unfold seen. apply filter_all, forallb_forall. intros j Hj. apply winners_lt in Hj. apply Nat.ltb_lt. lia.
  - unfold players_of. assert (C : forallb (fun n => forallb (fun i => (n <=? i)%nat || nats_eqb (filter (fun j => N.testbit (2 ^ N.of_nat i) (N.of_nat j)) (seq 0 n)) [i]) (seq 0 8)) (seq 0 9) = true) by (vm_compute; reflexivity).
    rewrite forallb_forall in C. specialize (C n ltac:(apply in_seq; lia)). rewrite forallb_forall in C. specialize (C i ltac:(apply in_seq; lia)).
    apply orb_prop in C as [C|C]; [apply Nat.leb_le in C; lia|]. apply nats_eqb_eq in C. exact C.
Qed.
Lemma hands_listed (f : unit_results -> N) (hs : list unit_results) n i : length hs = (n * NUM_HANDS)%nat -> (i < n)%nat ->
  sum_of f (firstn 1326 (skipn (1326 * i) hs)) = sumf (fun k => f (unth (1326 * i + N.to_nat k) hs)) (upto 1326).
Proof.
  intros Hh Hi. symmetry. etransitivity; [|apply sumf_sum_of].
  assert (Hlen : length (firstn 1326 (skipn (1326 * i) hs)) = 1326%nat) by (rewrite firstn_length, skipn_length, Hh; change NUM_HANDS with 1326%nat; nia).
  rewrite <- (sum_upto_list f _ unit_default), Hlen. change (N.of_nat 1326) with 1326. apply sumf_ext. intros k Hk. apply upto_In in Hk. f_equal.
  rewrite nth_firstn by lia. rewrite nth_skipped. reflexivity.
Qed.
Lemma pow_nat i : N.to_nat (2 ^ N.of_nat i) = (2 ^ i)%nat.
Proof. rewrite N2Nat.inj_pow, Nat2N.id. reflexivity. Qed.

Lemma exact_alone p ranges board dead threads cancelled sched o : usable ranges -> exact_equity p ranges board dead threads cancelled sched = Ret (ROk o) -> p = Debug \/ weights_fit ranges board ->
  (length ranges <= 8)%nat -> forall i, (i < length ranges)%nat ->
  let won := sum_of u_wins (firstn 1326 (skipn (1326 * i) (r_hand_results (o_results o)))) in won = nth (2 ^ i) (r_wins_by_mask (o_results o)) 0 /\ won = nth i (r_wins (o_results o)) 0.
Proof.
  intros Hu H Hex H8 i Hi won. destruct (some_run p ranges board dead threads cancelled sched o Hu H) as (D & left & e & HP & Hn & Hrep). destruct Hu as [Hr _].
  rewrite (rp_single _ _ _ _ _ _ _ Hrep i Hi). enough (E : won = nth (2 ^ i) (r_wins_by_mask (o_results o)) 0) by (split; exact E).
  assert (HL : 2 ^ N.of_nat i < 2 ^ N.of_nat (length ranges)) by (apply N.pow_lt_mono_r; lia).
  pose proof (exact_counter _ _ _ _ _ _ _ _ HP Hex (rp_masks _ _ _ _ _ _ _ Hrep _ HL)) as HM. rewrite pow_nat in HM. rewrite HM.
  assert (HS : forall d, In d D -> length d = length ranges /\ Forall hole_hand d) by (intros d Hd; exact (made_shape ranges board dead D left Hr HP d Hd)).
  rewrite (sum_over_ext board dead D _ (fun d l => nats_eqb (winners d l) [i])) by (intros d l Hd _; destruct (HS d Hd) as [Hl _]; apply alone_seen; assumption).
  unfold won. rewrite (hands_listed u_wins _ _ i (rp_hands _ _ _ _ _ _ _ Hrep) Hi).
  rewrite <- (over_split board dead D (at_place p i) (fun d l => nats_eqb (winners d l) [i]) (upto 1326)) by (intros d Hd; destruct (HS d Hd) as [Hl Hh]; apply one_place; exact (held _ _ _ Hl Hh Hi)).
  apply sumf_ext. intros k Hk. apply upto_In in Hk. destruct (index_onto p k Hk) as (a & b & Hab & Ek). destruct (idx_spec p a b Hab) as [Ek2 _]. rewrite Ek in Ek2. injection Ek2 as ->.
  rewrite (sum_over_ext board dead D _ (wins_with i a b)) by (intros d l Hd _; destruct (HS d Hd) as [Hl Hh]; rewrite (at_holds p i a b d Hab (held _ _ _ Hl Hh Hi)); reflexivity).
  rewrite Nat2N.id. change 1326%nat with NUM_HANDS. eapply exact_counter; [exact HP|exact Hex|]. exact (rp_win _ _ _ _ _ _ _ Hrep i a b Hi Hab).
Qed.
Lemma approx_alone p ranges board dead threads target cancelled shuf rngs fuel sched o : Forall range_ok ranges -> permutes shuf ->
  approx_equity p ranges board dead threads target cancelled shuf rngs fuel sched = Ret (ROk o) -> p = Debug \/ N.of_nat (length sched) * heaviest ranges < 2 ^ 64 ->
  (length ranges <= 8)%nat -> forall i, (i < length ranges)%nat ->
  let won := sum_of u_wins (firstn 1326 (skipn (1326 * i) (r_hand_results (o_results o)))) in won = nth (2 ^ i) (r_wins_by_mask (o_results o)) 0 /\ won = nth i (r_wins (o_results o)) 0.
Proof.
  intros Hr Hs H Hex0 H8 i Hi won. destruct (some_approx _ _ _ _ _ _ _ _ _ _ _ _ Hr Hs H) as (Hn & Hb & E & HE & Hl & Hrep).
  assert (Hex : p = Debug \/ N.of_nat (length E) * heaviest ranges < 2 ^ 64) by (destruct Hex0 as [Hp|Hfit]; [left; exact Hp|right]; eapply N.le_lt_trans; [|exact Hfit]; apply N.mul_le_mono_r; lia).
  assert (HX : forall what x, counter p x (sampled E what) -> x = sampled E what) by (intros what x; apply (acounter p ranges board dead E (o_results o)); assumption).
  rewrite (ar_single _ _ _ _ Hrep i Hi). enough (EE : won = nth (2 ^ i) (r_wins_by_mask (o_results o)) 0) by (split; exact EE).
  assert (HL : 2 ^ N.of_nat i < 2 ^ N.of_nat (length ranges)) by (apply N.pow_lt_mono_r; lia).
  pose proof (HX _ _ (ar_masks _ _ _ _ Hrep _ HL)) as HM. rewrite pow_nat in HM. rewrite HM.
  assert (HS : forall s, In s E -> length (fst s) = length ranges /\ Forall hole_hand (fst s)) by (intros s HIn; eapply ashape; eassumption).
  rewrite (sampled_eq E _ (fun d l => nats_eqb (winners d l) [i])) by (intros s HIn; destruct (HS s HIn) as [HlS _]; apply alone_seen; assumption).
  unfold won. rewrite (hands_listed u_wins _ _ i (ar_hands _ _ _ _ Hrep) Hi).
  rewrite <- (sampled_split E (at_place p i) (fun d l => nats_eqb (winners d l) [i]) (upto 1326)) by (intros s HIn; destruct (HS s HIn) as [HlS Hh]; apply one_place; exact (held _ _ _ HlS Hh Hi)).
  apply sumf_ext. intros k Hk. apply upto_In in Hk. destruct (index_onto p k Hk) as (a & b & Hab & Ek). destruct (idx_spec p a b Hab) as [Ek2 _]. rewrite Ek in Ek2. injection Ek2 as ->.
  rewrite (sampled_eq E _ (wins_with i a b)) by (intros s HIn; destruct (HS s HIn) as [HlS Hh]; rewrite (at_holds p i a b (fst s) Hab (held _ _ _ HlS Hh Hi)); reflexivity).
  rewrite Nat2N.id. change 1326%nat with NUM_HANDS. apply HX. exact (ar_win _ _ _ _ Hrep i a b Hi Hab).
Qed.
