(* The totals of the preflop combinations of a player and the pots by winners. *)
From Verif Require Import Base BaseProofs SumFacts ListFacts Float64 TStrings Hand Range FastDivide Combined Sim Approx SpecPoker SpecHand SpecNames SpecEquity
  SpecResults SpecRun SpecApprox SpecFinal BoardProofs PositionProofs IndexProofs ExactProofs ResultProofs ConsistProofs RunProofs FinalProofs FinalRunProofs ApproxResultProofs ShareProofs TableRateProofs SupportProofs KindProofs.
From Coq Require Import Permutation.
Local Open Scope N_scope.
#[local] Opaque NUM_HANDS NUM_COMBOS.

Lemma slice {A} (l : list A) (d : A) : forall n a, (forall c, (c < n)%nat -> nth_error l (a + c) <> None) -> firstn n (skipn a l) = map (fun c => nth (a + c) l d) (seq 0 n).
Proof.
  induction n as [|n IH]; intros a H; [reflexivity|]. pose proof (H 0%nat (Nat.lt_0_succ n)) as H0. rewrite Nat.add_0_r in H0.
  destruct (nth_error l a) as [x|] eqn:E; [|congruence].
  assert (HS : skipn a l = x :: skipn (S a) l).
  { clear - E. revert l E. induction a as [|a IH]; intros [|y l] E; cbn in *; try discriminate; [congruence|apply IH; exact E]. }
  rewrite HS. cbn [firstn seq map]. rewrite Nat.add_0_r, (nth_error_nth _ _ d E). f_equal. rewrite <- seq_shift, map_map, IH.
  - apply map_ext. intros c. f_equal. lia.
  - intros c Hc. replace (S a + c)%nat with (a + S c)%nat by lia. apply H. lia.
Qed.

(* every starting hand belongs to one combination *)
Lemma one_block j : (j < 1326)%nat -> sumf (fun c => if block (N.of_nat j) =? N.of_nat c then 1 else 0) (seq 0 169) = 1.
Proof.
  intros Hj. apply (one_of (fun c => block (N.of_nat j) =? N.of_nat c) (seq 0 169) (N.to_nat (block (N.of_nat j)))).
  - apply seq_NoDup.
  - apply in_seq. split; [lia|]. assert (HB : block (N.of_nat j) < 169); [|lia]. unfold block. destruct (N.ltb_spec (N.of_nat j) 78) as [L|L].
    + apply N.le_lt_trans with (77 / 6); [apply N.div_le_mono; lia|reflexivity].
    + destruct (N.ltb_spec (N.of_nat j) 390) as [L'|L'].
      * apply N.le_lt_trans with (13 + 311 / 4); [apply N.add_le_mono_l, N.div_le_mono; lia|reflexivity].
      * apply N.le_lt_trans with (91 + 935 / 12); [apply N.add_le_mono_l, N.div_le_mono; lia|reflexivity].
  - rewrite N2Nat.id. apply N.eqb_refl.
  - intros c _ E. apply N.eqb_eq in E. rewrite E. symmetry. apply Nat2N.id.
Qed.
Lemma all_blocks (f : nat -> N) : sumf (fun c => sumf f (hands_in c)) (seq 0 169) = sumf f (seq 0 1326).
Proof.
  rewrite (sumf_ext _ (fun c => sumf (fun j => f j * (if block (N.of_nat j) =? N.of_nat c then 1 else 0)) (seq 0 1326))).
  2:{ intros c _. unfold hands_in. rewrite sumf_filter. apply sumf_ext. intros j _. destruct (block (N.of_nat j) =? N.of_nat c); lia. }
  rewrite sumf_swap. apply sumf_ext. intros j Hj. apply in_seq in Hj. rewrite sumf_mul, one_block by lia. lia.
Qed.

Lemma part_zero x : (if 0 <? x then x else 0) = x.
Proof. destruct (N.ltb_spec 0 x); lia. Qed.
Lemma add_up (nh nc : nat) (hands : nat -> list nat) (hs cs : list unit_results) (sh sc : nat) (m : N) :
  (forall f : nat -> N, sumf (fun c => sumf f (hands c)) (seq 0 nc) = sumf f (seq 0 nh)) -> (forall c j, In j (hands c) -> (j < nh)%nat) ->
  (forall j, (j < nh)%nat -> nth_error hs (sh + j) <> None /\ (u_valid (nth (sh + j) hs unit_default) = false -> u_total (nth (sh + j) hs unit_default) = 0)) ->
  (forall c, (c < nc)%nat -> exists u, nth_error cs (sc + c) = Some u /\
     let total := sum_of (fun j => u_total (nth (sh + j) hs unit_default)) (filter (fun j => dealt_hand (nth (sh + j) hs unit_default)) (hands c)) in u_total u = scaled total total) ->
  m = sum_of u_total (firstn nh (skipn sh hs)) -> m < 2 ^ 64 -> sum_of u_total (firstn nc (skipn sc cs)) = m.
Proof.
  intros HA HI HH HC Hm H64. remember (fun j => u_total (nth (sh + j) hs unit_default)) as f eqn:Ef. assert (Ef' : forall j, f j = u_total (nth (sh + j) hs unit_default)) by (intros j; rewrite Ef; reflexivity).
  assert (EM : m = sumf f (seq 0 nh)).
  { rewrite Hm, (slice _ unit_default) by (intros j Hj; apply HH; exact Hj). rewrite <- sumf_sum_of, sumf_map. apply sumf_ext. intros j _. symmetry. apply Ef'. }
  assert (EC : forall c, sumf f (filter (fun j => dealt_hand (nth (sh + j) hs unit_default)) (hands c)) = sumf f (hands c)).
  { intros c. rewrite sumf_filter. apply sumf_ext. intros j Hj. unfold dealt_hand. destruct (HH j (HI c j Hj)) as [_ HV]. rewrite Ef'.
    destruct (u_valid (nth (sh + j) hs unit_default)); [cbn [andb]; apply part_zero|]. cbn [andb]. symmetry. apply HV. reflexivity. }
  rewrite (slice _ unit_default) by (intros c Hc; destruct (HC c Hc) as (u & E & _); congruence). rewrite <- sumf_sum_of, sumf_map, EM, <- HA.
  apply sumf_ext. intros c Hc. pose proof Hc as Hc'. apply in_seq in Hc. destruct (HC c (proj2 Hc)) as (u & E & S). rewrite (nth_error_nth _ _ unit_default E). cbv zeta in S. rewrite S, <- sumf_sum_of, EC.
  assert (HB : sumf f (hands c) < 2 ^ 64).
  { eapply N.le_lt_trans; [|exact H64]. rewrite EM, <- HA. apply (in_sum_le (fun c => sumf f (hands c))). exact Hc'. }
  unfold scaled. apply N.ltb_lt in HB. rewrite HB. reflexivity.
Qed.
Lemma hands_below : forall c j, In j (hands_in c) -> (j < 1326)%nat.
Proof. intros c j. unfold hands_in. rewrite filter_In, in_seq. intros [[_ H] _]. exact H. Qed.
Lemma combos_total (r : results) (i : nat) (m : N) :
  (forall j, (j < 1326)%nat -> nth_error (r_hand_results r) (1326 * i + j) <> None /\ (u_valid (hand_entry r i j) = false -> u_total (hand_entry r i j) = 0)) ->
  (forall c, (c < 169)%nat -> exists u, nth_error (r_combo_results r) (169 * i + c) = Some u /\ sums_up r i (filter (fun j => dealt_hand (hand_entry r i j)) (hands_in c)) u) ->
  m = sum_of u_total (firstn 1326 (skipn (1326 * i) (r_hand_results r))) -> m < 2 ^ 64 -> sum_of u_total (firstn 169 (skipn (169 * i) (r_combo_results r))) = m.
Proof.
  intros HH HC. unfold sums_up, hand_entry in HC. unfold hand_entry in HH. refine (add_up 1326 169 hands_in (r_hand_results r) (r_combo_results r) (1326 * i) (169 * i) m all_blocks _ HH _).
  - exact hands_below.
  - intros c Hc. destruct (HC c Hc) as (u & E & HS). exists u. split; [exact E|]. cbv zeta in HS |- *. exact (proj2 (proj2 HS)).
Qed.

(* the entry at any place is that of a hand *)
Lemma place_hand p j : (j < 1326)%nat -> exists a b, hole a b /\ get_card_index p a b = Ret (N.of_nat j).
Proof. intros Hj. exact (index_onto p (N.of_nat j) ltac:(lia)). Qed.

(* a hand that is not valid was never dealt *)
Lemma exact_never p ranges board dead threads cancelled sched o : usable ranges -> exact_equity p ranges board dead threads cancelled sched = Ret (ROk o) ->
  forall i, (i < length ranges)%nat -> forall j, (j < 1326)%nat -> nth_error (r_hand_results (o_results o)) (1326 * i + j) <> None /\ (u_valid (hand_entry (o_results o) i j) = false -> u_total (hand_entry (o_results o) i j) = 0).
Proof.
  intros Hu H i Hi j Hj. destruct (place_hand p j Hj) as (a & b & Hab & Hk). destruct (run_entry p ranges board dead threads cancelled sched o Hu H i a b _ Hi Hab Hk) as (u & Hn & HV & _).
  rewrite Nat2N.id in Hn. split; [congruence|]. unfold hand_entry. rewrite (nth_error_nth _ _ unit_default Hn). intros HF.
  assert (HZ : hand_total ranges board dead i a b = 0) by (apply nobody_holds; [exact Hi|]; intros HX; apply HV in HX; congruence).
  destruct (cancelled_run p ranges board dead threads cancelled sched o Hu H) as (D & left & HP & (_ & HS)). destruct (HS i a b _ Hi Hab Hk) as (u' & Hn' & _ & _ & HC). rewrite Nat2N.id in Hn'. assert (u' = u) by congruence. subst u'.
  assert (HD : sum_over board dead D (fun d _ => holds i a b d) = 0).
  { unfold hand_total in HZ. rewrite <- sum_over_total in HZ. rewrite sum_over_sumf in HZ |- *. rewrite <- (sumf_perm _ _ _ HP), sumf_app in HZ. lia. }
  rewrite HD in HC. destruct p; exact HC.
Qed.
Lemma approx_never p ranges board dead threads target cancelled shuf rngs fuel sched o : Forall range_ok ranges -> permutes shuf ->
  approx_equity p ranges board dead threads target cancelled shuf rngs fuel sched = Ret (ROk o) ->
  forall i, (i < length ranges)%nat -> forall j, (j < 1326)%nat -> nth_error (r_hand_results (o_results o)) (1326 * i + j) <> None /\ (u_valid (hand_entry (o_results o) i j) = false -> u_total (hand_entry (o_results o) i j) = 0).
Proof.
  intros Hr Hs H i Hi j Hj. destruct (place_hand p j Hj) as (a & b & Hab & Hk). destruct (sampled_entry p ranges board dead threads target cancelled shuf rngs fuel sched o Hr Hs H i a b _ Hi Hab Hk) as (u & Hn & HV & _).
  destruct (approx_possible p ranges board dead threads target cancelled shuf rngs fuel sched o Hr Hs H) as [_ HA]. destruct (HA i a b _ u Hi Hab Hk Hn) as (_ & _ & HT).
  rewrite Nat2N.id in Hn. split; [congruence|]. unfold hand_entry. rewrite (nth_error_nth _ _ unit_default Hn). intros HF.
  assert (HZ : hand_total ranges board dead i a b = 0) by (apply nobody_holds; [exact Hi|]; intros HX; apply HV in HX; congruence).
  destruct (N.eq_dec (u_total u) 0) as [E|E]; [exact E|]. exfalso. exact (HT E HZ).
Qed.

Lemma exact_combos_total p ranges board dead threads cancelled sched o : usable ranges -> exact_equity p ranges board dead threads cancelled sched = Ret (ROk o) -> p = Debug \/ weights_fit ranges board ->
  let pots := sum_of (fun x => x) (r_wins_by_mask (o_results o)) in pots < 2 ^ 64 ->
  forall i, (i < length ranges)%nat -> sum_of u_total (firstn 169 (skipn (169 * i) (r_combo_results (o_results o)))) = pots.
Proof.
  intros Hu H Hp pots H64 i Hi. destruct (consistent p ranges board dead threads cancelled sched o Hu H Hp) as (HM & _).
  apply combos_total; [| |exact (HM i Hi)|exact H64].
  - exact (exact_never p ranges board dead threads cancelled sched o Hu H i Hi).
  - intros c Hc. destruct (run_combos p ranges board dead threads cancelled sched o Hu H Hp i c Hi Hc) as (u & Hn & HS & _). exists u. split; [exact Hn|exact HS].
Qed.
Lemma approx_combos_total p ranges board dead threads target cancelled shuf rngs fuel sched o : Forall range_ok ranges -> permutes shuf ->
  approx_equity p ranges board dead threads target cancelled shuf rngs fuel sched = Ret (ROk o) -> p = Debug \/ N.of_nat (length sched) * heaviest ranges < 2 ^ 64 ->
  let pots := sum_of (fun x => x) (r_wins_by_mask (o_results o)) in pots < 2 ^ 64 ->
  forall i, (i < length ranges)%nat -> sum_of u_total (firstn 169 (skipn (169 * i) (r_combo_results (o_results o)))) = pots.
Proof.
  intros Hr Hs H Hp pots H64 i Hi. destruct (approx_consistent p ranges board dead threads target cancelled shuf rngs fuel sched o Hr Hs H Hp) as (HM & _).
  apply combos_total; [| |exact (HM i Hi)|exact H64].
  - exact (approx_never p ranges board dead threads target cancelled shuf rngs fuel sched o Hr Hs H i Hi).
  - intros c Hc. destruct (sampled_combos p ranges board dead threads target cancelled shuf rngs fuel sched o Hr Hs H Hp i c Hi Hc) as (u & Hn & HS & _). exists u. split; [exact Hn|exact HS].
Qed.
