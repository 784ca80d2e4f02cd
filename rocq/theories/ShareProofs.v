(* The reported equities are the players' shares of the pots, up to what integer division loses. *)
From Coq Require Import Floats.SpecFloat QArith Qabs Qpower Lqa.
From Verif Require Import Base BaseProofs SumFacts Ghost Float64 FloatProofs FloatSumProofs EquityFloatProofs Hand FastDivide Range Combined Sim Approx SpecPoker ListFacts PokerFacts
  SpecNames SpecHand SpecRange SpecEquity SpecResults SpecRun SpecApprox SpecShare EnumProofs ShowdownProofs BoardProofs CombinedProofs PositionProofs MergeProofs
  MachineProofs SetupProofs WeightProofs FinalProofs ExactProofs ResultProofs CombineRunProofs RunProofs LaunchProofs ConsistProofs WalkProofs ApproxProofs ApproxRunProofs ApproxResultProofs ConvergeProofs EquityProofs ProfileProofs.
Local Open Scope N_scope.

#[local] Opaque NUM_HANDS.

(* ------------------------------------------------------------------------- *)
(** * Masks *)

Definition masks_check : bool :=
  forallb (fun n => forallb (fun i => (N.of_nat (length (players_of n (N.of_nat i))) =? count_ones (N.of_nat i)) &&
    forallb (fun k => Bool.eqb (N.testbit (N.of_nat i) (N.of_nat k) && (count_ones (N.of_nat i) =? 1)) (i =? 2 ^ k)%nat) (seq 0 n)) (seq 0 (2 ^ n))) (seq 0 10).
Lemma masks_checked : masks_check = true. Proof. vm_compute. reflexivity. Qed.
Lemma masks_fact n i : (n <= 9)%nat -> (i < 2 ^ n)%nat -> N.of_nat (length (players_of n (N.of_nat i))) = count_ones (N.of_nat i) /\
  forall k, (k < n)%nat -> N.testbit (N.of_nat i) (N.of_nat k) && (count_ones (N.of_nat i) =? 1) = (i =? 2 ^ k)%nat.
Proof.
  intros Hn Hi. pose proof masks_checked as H. unfold masks_check in H. rewrite forallb_forall in H. specialize (H n ltac:(apply in_seq; lia)).
  rewrite forallb_forall in H. specialize (H i ltac:(apply in_seq; lia)). apply andb_true_iff in H as [H1 H2]. split; [apply N.eqb_eq; exact H1|].
  intros k Hk. rewrite forallb_forall in H2. apply eqb_prop. apply H2. apply in_seq. lia.
Qed.
Lemma players_in n m j : existsb (Nat.eqb j) (players_of n m) = (j <? n)%nat && N.testbit m (N.of_nat j).
Proof.
  apply eq_true_iff_eq. rewrite existsb_exists, andb_true_iff, Nat.ltb_lt. unfold players_of. split.
  - intros (x & Hx & E). apply Nat.eqb_eq in E. subst x. apply filter_In in Hx as [Hx Hb]. apply in_seq in Hx. split; [lia|exact Hb].
  - intros [Hj Hb]. exists j. split; [apply filter_In; split; [apply in_seq; lia|exact Hb]|apply Nat.eqb_refl].
Qed.
Lemma share_mask n j i : (n <= 9)%nat -> (i < 2 ^ n)%nat -> (j < n)%nat ->
  share_of j (players_of n (N.of_nat i)) = if N.testbit (N.of_nat i) (N.of_nat j) then 2520 / count_ones (N.of_nat i) else 0.
Proof.
  intros Hn Hi Hj. unfold share_of. rewrite players_in. apply Nat.ltb_lt in Hj. rewrite Hj. cbn [andb]. destruct (masks_fact n i Hn Hi) as [E _]. rewrite E. reflexivity.
Qed.
Lemma lcm_check : forallb (fun c => (c * (2520 / c) =? 2520)) (nseq 1 9) = true. Proof. reflexivity. Qed.
Lemma lcm_fact c : 1 <= c <= 9 -> c * (2520 / c) = 2520.
Proof. intros H. pose proof lcm_check as K. rewrite forallb_forall in K. apply N.eqb_eq, K. apply nseq_In. lia. Qed.
Lemma count_range n i : (n <= 9)%nat -> (i < 2 ^ n)%nat -> i <> 0%nat -> 1 <= count_ones (N.of_nat i) <= 9.
Proof.
  intros Hn Hi H0. destruct (masks_fact n i Hn Hi) as [E _]. split.
  - destruct (N.of_nat i) as [|q] eqn:Ei; [lia|]. clear. cbn [count_ones]. induction q; cbn [pos_ones]; lia.
  - rewrite <- E. unfold players_of. pose proof (filter_length_le (fun k => N.testbit (N.of_nat i) (N.of_nat k)) (seq 0 n)) as H. rewrite seq_length in H. lia.
Qed.

(* ------------------------------------------------------------------------- *)
(** * The integer shares *)

(* what player k gets of the batch's pots with the mask i *)
Definition part (b : list N) (k i : nat) : N := if N.testbit (N.of_nat i) (N.of_nat k) then nth i b 0 / count_ones (N.of_nat i) else 0.
Definition tpart (b : list N) (k i : nat) : N := if negb (count_ones (N.of_nat i) =? 1) then part b k i else 0.
Definition taken (n k : nat) (bs : list (list N)) : N := sumf (fun b => sumf (part b k) (seq 0 (2 ^ n))) bs.
Definition tied (n k : nat) (bs : list (list N)) : N := sumf (fun b => sumf (tpart b k) (seq 0 (2 ^ n))) bs.
Definition weights (n : nat) (bs : list (list N)) : N := sumf (fun b => sumf (fun i => nth i b 0) (seq 0 (2 ^ n))) bs.

Lemma part_le b k i : part b k i <= nth i b 0.
Proof.
  unfold part. destruct (N.testbit _ _) eqn:Eb; [|lia]. destruct (N.eq_dec (count_ones (N.of_nat i)) 0) as [E|E]; [|apply N.div_le_upper_bound; nia].
  rewrite E. destruct (nth i b 0); cbn; lia.
Qed.
Lemma tpart_le b k i : tpart b k i <= part b k i.
Proof. unfold tpart. destruct (negb _); lia. Qed.

Lemma fold_ties b k l : forall t, t + sumf (tpart b k) l <= 2 ^ 53 -> fold_left (tie_step b k) l (f_of_N t) = f_of_N (t + sumf (tpart b k) l).
Proof.
  induction l as [|i l IH]; intros t H; cbn [fold_left]; [rewrite sumf_nil, N.add_0_r; reflexivity|]. rewrite sumf_cons in *.
  assert (E : tie_step b k (f_of_N t) i = f_of_N (t + tpart b k i)).
  { unfold tie_step, tpart, part in *. destruct (N.testbit _ _), (negb _); cbn [andb]; rewrite ?N.add_0_r; try reflexivity. apply add_int. lia. }
  rewrite E, IH by lia. f_equal. lia.
Qed.
Lemma tied_taken n k bs : tied n k bs <= taken n k bs.
Proof. apply sumf_le. intros b _. apply sumf_le. intros i _. apply tpart_le. Qed.
Lemma taken_le n k bs : taken n k bs <= weights n bs.
Proof. apply sumf_le. intros b _. apply sumf_le. intros i _. apply part_le. Qed.
Lemma tie_int n k bs : weights n bs <= 2 ^ 53 -> tie_total n k bs = f_of_N (tied n k bs).
Proof.
  intros H. pose proof (tied_taken n k bs) as H1. pose proof (taken_le n k bs) as H2. unfold tie_total. change f_zero with (f_of_N 0).
  rewrite <- (N.add_0_l (tied n k bs)). assert (H3 : 0 + tied n k bs <= 2 ^ 53) by lia. clear H H1 H2. revert H3. generalize 0. unfold tied.
  induction bs as [|b bs IH]; intros t H; cbn [fold_left]; [rewrite sumf_nil, N.add_0_r; reflexivity|]. rewrite sumf_cons in *.
  rewrite fold_ties by lia. rewrite IH by lia. f_equal. lia.
Qed.

Lemma single_sum n k b : (n <= 9)%nat -> (k < n)%nat -> sumf (part b k) (seq 0 (2 ^ n)) = nth (2 ^ k) b 0 + sumf (tpart b k) (seq 0 (2 ^ n)).
Proof.
  intros Hn Hk. assert (Hp : (2 ^ k < 2 ^ n)%nat) by (apply Nat.pow_lt_mono_r; lia).
  assert (E : nth (2 ^ k) b 0 = sumf (fun i => if (i =? 2 ^ k)%nat then nth i b 0 else 0) (seq 0 (2 ^ n))).
  { revert Hp. generalize (2 ^ k)%nat, (2 ^ n)%nat. intros a m Ha.
    replace m with (a + S (m - S a))%nat by lia. rewrite seq_app, sumf_app, sumf_zero.
    - cbn [seq]. rewrite sumf_cons, Nat.add_0_l, Nat.eqb_refl, sumf_zero; [lia|]. intros x Hx. apply in_seq in Hx. destruct (Nat.eqb_spec x a); [lia|reflexivity].
    - intros x Hx. apply in_seq in Hx. destruct (Nat.eqb_spec x a); [lia|reflexivity]. }
  rewrite E, <- sumf_add. apply sumf_ext. intros i Hi. apply in_seq in Hi. destruct (masks_fact n i Hn ltac:(lia)) as [_ F]. specialize (F k Hk).
  unfold tpart, part. rewrite <- F. destruct (N.testbit _ _); cbn [andb]; [|destruct (negb _); reflexivity].
  destruct (N.eqb_spec (count_ones (N.of_nat i)) 1) as [E1|E1]; cbn [negb]; [rewrite E1, N.div_1_r; lia|lia].
Qed.
Lemma taken_split n k bs : (n <= 9)%nat -> (k < n)%nat -> taken n k bs = msum bs (2 ^ k) + tied n k bs.
Proof. intros Hn Hk. unfold taken, msum, tied. rewrite <- sumf_add. apply sumf_ext. intros b _. apply single_sum; assumption. Qed.

Lemma parts_sum n b i : (n <= 9)%nat -> (i < 2 ^ n)%nat -> sumf (fun k => part b k i) (seq 0 n) = count_ones (N.of_nat i) * (nth i b 0 / count_ones (N.of_nat i)).
Proof.
  intros Hn Hi. destruct (masks_fact n i Hn Hi) as [E _]. rewrite <- E at 1. unfold part, players_of. rewrite <- (sumf_filter (fun _ => nth i b 0 / count_ones (N.of_nat i)) (fun k => N.testbit (N.of_nat i) (N.of_nat k))).
  rewrite sumf_const. lia.
Qed.
Lemma taken_sum n bs : (n <= 9)%nat -> sumf (fun k => taken n k bs) (seq 0 n) =
  sumf (fun b => sumf (fun i => count_ones (N.of_nat i) * (nth i b 0 / count_ones (N.of_nat i))) (seq 0 (2 ^ n))) bs.
Proof.
  intros Hn. unfold taken. rewrite sumf_swap. apply sumf_ext. intros b _. rewrite sumf_swap. apply sumf_ext. intros i Hi. apply in_seq in Hi. apply parts_sum; lia.
Qed.
Lemma taken_sum_le n bs : (n <= 9)%nat -> sumf (fun k => taken n k bs) (seq 0 n) <= weights n bs.
Proof.
  intros Hn. rewrite taken_sum by exact Hn. apply sumf_le. intros b _. apply sumf_le. intros i _.
  destruct (N.eq_dec (count_ones (N.of_nat i)) 0) as [E|E]; [rewrite E; lia|]. apply N.mul_div_le. exact E.
Qed.

(* ------------------------------------------------------------------------- *)
(** * Shares in 2520ths *)

Definition chips (n k : nat) (bs : list (list N)) : N := sumf (fun b => sumf (fun i => nth i b 0 * share_of k (players_of n (N.of_nat i))) (seq 0 (2 ^ n))) bs.
(* the masks with several players, one of them a given one *)
Definition shared_masks (n : nat) : N := 2 ^ N.of_nat (n - 1) - 1.
Lemma shared_check : forallb (fun n => forallb (fun k => N.of_nat (length (filter (fun i => N.testbit (N.of_nat i) (N.of_nat k) && negb (count_ones (N.of_nat i) =? 1)) (seq 0 (2 ^ n)))) =? shared_masks n) (seq 0 n)) (seq 0 10) = true.
Proof. vm_compute. reflexivity. Qed.
Lemma shared_fact n k : (n <= 9)%nat -> (k < n)%nat ->
  sumf (fun i => if N.testbit (N.of_nat i) (N.of_nat k) && negb (count_ones (N.of_nat i) =? 1) then 1 else 0) (seq 0 (2 ^ n)) = shared_masks n.
Proof.
  intros Hn Hk. rewrite <- (sumf_filter (fun _ => 1)), sumf_1_length. pose proof shared_check as H. rewrite forallb_forall in H. specialize (H n ltac:(apply in_seq; lia)).
  rewrite forallb_forall in H. apply N.eqb_eq. apply H. apply in_seq. lia.
Qed.
Lemma bit_nonzero i k : N.testbit (N.of_nat i) (N.of_nat k) = true -> i <> 0%nat.
Proof. intros H ->. rewrite N.bits_0 in H. discriminate. Qed.
Lemma part_chips n b k i : (n <= 9)%nat -> (i < 2 ^ n)%nat -> (k < n)%nat ->
  2520 * part b k i <= nth i b 0 * share_of k (players_of n (N.of_nat i)) /\
  nth i b 0 * share_of k (players_of n (N.of_nat i)) <= 2520 * (part b k i + if N.testbit (N.of_nat i) (N.of_nat k) && negb (count_ones (N.of_nat i) =? 1) then 1 else 0).
Proof.
  intros Hn Hi Hk. rewrite (share_mask n k i Hn Hi Hk). unfold part. destruct (N.testbit _ _) eqn:Eb; cbn [andb]; [|lia].
  pose proof (count_range n i Hn Hi (bit_nonzero _ _ Eb)) as Hc. pose proof (lcm_fact _ Hc) as HL. revert Hc HL. generalize (count_ones (N.of_nat i)), (nth i b 0). intros c v Hc HL.
  destruct (N.eqb_spec c 1) as [->|Hc1]; cbn [negb]; [rewrite N.div_1_r, N.div_1_r; lia|].
  pose proof (N.div_mod v c ltac:(lia)) as Hd. pose proof (N.mod_lt v c ltac:(lia)) as Hm. set (q := v / c) in *. set (r := v mod c) in *. set (d := 2520 / c) in *.
  assert (E : v * d = 2520 * q + r * d) by (rewrite Hd at 1; nia). rewrite E. assert (r * d <= c * d) by nia. lia.
Qed.
Lemma taken_chips n k bs : (n <= 9)%nat -> (k < n)%nat ->
  2520 * taken n k bs <= chips n k bs /\ chips n k bs <= 2520 * (taken n k bs + N.of_nat (length bs) * shared_masks n).
Proof.
  intros Hn Hk. unfold taken, chips. induction bs as [|b bs [IH1 IH2]]; [cbn; lia|]. rewrite !sumf_cons. cbn [length]. rewrite Nat2N.inj_succ, N.mul_succ_l.
  assert (H : 2520 * sumf (part b k) (seq 0 (2 ^ n)) <= sumf (fun i => nth i b 0 * share_of k (players_of n (N.of_nat i))) (seq 0 (2 ^ n)) /\
    sumf (fun i => nth i b 0 * share_of k (players_of n (N.of_nat i))) (seq 0 (2 ^ n)) <= 2520 * (sumf (part b k) (seq 0 (2 ^ n)) + shared_masks n)); [|lia].
  rewrite <- (shared_fact n k Hn Hk), <- sumf_add, <- !sumf_mul.
  split; apply sumf_le; intros i Hi; apply in_seq in Hi; apply (part_chips n b k i Hn); lia.
Qed.

Lemma shares_sum n i : (n <= 9)%nat -> (i < 2 ^ n)%nat -> sumf (fun k => share_of k (players_of n (N.of_nat i))) (seq 0 n) = if (i =? 0)%nat then 0 else 2520.
Proof.
  intros Hn Hi. rewrite (sumf_ext _ (fun k => if N.testbit (N.of_nat i) (N.of_nat k) then 2520 / count_ones (N.of_nat i) else 0)) by (intros k Hk; apply in_seq in Hk; apply share_mask; lia).
  rewrite <- (sumf_filter (fun _ => 2520 / count_ones (N.of_nat i)) (fun k => N.testbit (N.of_nat i) (N.of_nat k))). rewrite sumf_const.
  destruct (masks_fact n i Hn Hi) as [E _]. unfold players_of in E. rewrite E. destruct (Nat.eqb_spec i 0) as [->|H0]; [reflexivity|].
  pose proof (lcm_fact _ (count_range n i Hn Hi H0)). lia.
Qed.
(* the weight of the pots somebody won *)
Definition won (n : nat) (bs : list (list N)) : N := sumf (fun b => sumf (fun i => if (i =? 0)%nat then 0 else nth i b 0) (seq 0 (2 ^ n))) bs.
Lemma chips_sum n bs : (n <= 9)%nat -> sumf (fun k => chips n k bs) (seq 0 n) = 2520 * won n bs.
Proof.
  intros Hn. unfold chips, won. rewrite sumf_swap, <- sumf_mul. apply sumf_ext. intros b _. rewrite sumf_swap, <- sumf_mul. apply sumf_ext. intros i Hi. apply in_seq in Hi.
  rewrite sumf_mul, (shares_sum n i Hn) by lia. destruct (i =? 0)%nat; lia.
Qed.
Lemma won_le n bs : won n bs <= weights n bs.
Proof. apply sumf_le. intros b _. apply sumf_le. intros i _. destruct (i =? 0)%nat; lia. Qed.
Lemma taken_won n bs : (n <= 9)%nat -> let S := sumf (fun k => taken n k bs) (seq 0 n) in
  S <= won n bs /\ won n bs <= S + N.of_nat n * (N.of_nat (length bs) * shared_masks n).
Proof.
  intros Hn S. pose proof (chips_sum n bs Hn) as H. set (D := N.of_nat (length bs) * shared_masks n).
  assert (H1 : sumf (fun k => 2520 * taken n k bs) (seq 0 n) <= sumf (fun k => chips n k bs) (seq 0 n)).
  { apply sumf_le. intros k Hk. apply in_seq in Hk. apply taken_chips; lia. }
  assert (H2 : sumf (fun k => chips n k bs) (seq 0 n) <= sumf (fun k => 2520 * (taken n k bs + D)) (seq 0 n)).
  { apply sumf_le. intros k Hk. apply in_seq in Hk. apply taken_chips; lia. }
  rewrite sumf_mul in H1, H2. rewrite sumf_add, sumf_const, seq_length in H2. fold S in H1, H2. lia.
Qed.

(* ------------------------------------------------------------------------- *)
(** * The reported equities *)

Lemma fold_ints l : forall t, t + sumf (fun x => x) l <= 2 ^ 53 -> fold_left f_add (map f_of_N l) (f_of_N t) = f_of_N (t + sumf (fun x => x) l).
Proof.
  induction l as [|x l IH]; intros t H; cbn [map fold_left]; [rewrite sumf_nil, N.add_0_r; reflexivity|]. rewrite sumf_cons in *.
  rewrite add_int by lia. rewrite IH by lia. f_equal. lia.
Qed.
Lemma nth_ext_map {A C} (d : A) (f : nat -> A) n (l : list A) (g : A -> C) : length l = n -> (forall j, (j < n)%nat -> nth j l d = f j) -> l = map f (seq 0 n).
Proof.
  intros Hl H. apply (nth_ext _ _ d d); [rewrite map_length, seq_length; exact Hl|]. intros j Hj. rewrite Hl in Hj. rewrite H by exact Hj.
  rewrite (nth_indep _ d (f 0%nat)) by (rewrite map_length, seq_length; exact Hj). rewrite map_nth, seq_nth by exact Hj. reflexivity.
Qed.

Lemma value_num f v : is_num f v -> number f /\ (value f == v)%Q.
Proof. intros (m & e & -> & _ & Hv). split; [exact I|]. unfold value. rewrite Hv. reflexivity. Qed.

Lemma quotient_close (x s y w d e : Q) : (0 <= x -> x <= s -> 0 < s -> s <= w -> x <= y -> y <= x + d -> w <= s + e -> d <= e -> Qabs (x / s - y / w) <= e / w)%Q.
Proof.
  intros H0 H1 H2 H3 H4 H5 H6 H7. assert (Hw : (0 < w)%Q) by lra.
  assert (Eq : (x / s * s == x)%Q) by (field; lra). assert (Et : (y / w * w == y)%Q) by (field; lra). assert (Eu : (e / w * w == e)%Q) by (field; lra).
  set (q := (x / s)%Q) in *. set (t := (y / w)%Q) in *. set (u := (e / w)%Q) in *.
  assert (Hq0 : (0 <= q)%Q) by (apply (Qmult_le_r _ _ s H2); lra). assert (Hq1 : (q <= 1)%Q) by (apply (Qmult_le_r _ _ s H2); lra).
  assert (P1 : (0 <= q * (w - s))%Q) by (apply Qmult_le_0_compat; lra). assert (P2 : (0 <= (1 - q) * (w - s))%Q) by (apply Qmult_le_0_compat; lra).
  apply Qabs_Qle_condition. split; apply (Qmult_le_r _ _ w Hw); lra.
Qed.
Lemma Z_of_le a b : a <= b -> (inject_Z (Z.of_N a) <= inject_Z (Z.of_N b))%Q.
Proof. intros H. rewrite <- Zle_Qle. lia. Qed.
Lemma Z_of_lt a b : a < b -> (inject_Z (Z.of_N a) < inject_Z (Z.of_N b))%Q.
Proof. intros H. rewrite <- Zlt_Qlt. lia. Qed.
Lemma Z_of_mul a b : (inject_Z (Z.of_N (a * b)) == inject_Z (Z.of_N a) * inject_Z (Z.of_N b))%Q.
Proof. rewrite N2Z.inj_mul, inject_Z_mult. reflexivity. Qed.
Lemma Z_of_add a b : (inject_Z (Z.of_N (a + b)) == inject_Z (Z.of_N a) + inject_Z (Z.of_N b))%Q.
Proof. rewrite N2Z.inj_add, inject_Z_plus. reflexivity. Qed.

(* the quotient of two integers, as computed *)
Lemma div_close x s : x <= s -> 0 < s -> s <= 2 ^ 53 -> let e := f_div (f_of_N x) (f_of_N s) in
  number e /\ (Qabs (value e - ratio x s) <= Qpower 2 (-53))%Q.
Proof.
  intros H1 H2 H3 e. destruct (N.eq_dec x 0) as [->|H0].
  - assert (E : e = f_zero).
    { unfold e. destruct (int_float s ltac:(lia)) as (m & k & E & _). rewrite E. reflexivity. }
    rewrite E. split; [exact I|]. unfold ratio, value, f_zero. change (inject_Z (Z.of_N 0)) with 0%Q.
    apply Z_of_lt in H2. change (inject_Z (Z.of_N 0)) with 0%Q in H2.
    assert (E0 : (0 - 0 / inject_Z (Z.of_N s) == 0)%Q) by (field; lra). rewrite E0. discriminate.
  - destruct (div_int x s ltac:(lia) H1 H3) as (v & Hv). fold e in Hv. destruct (value_num e v (proj1 Hv)) as [Hnum Ev]. split; [exact Hnum|].
    destruct (rounded_err _ _ _ Hv) as [R1 R2]. fold (ratio x s) in R1, R2. 
    assert (Hv1 : (v <= 1)%Q).
    { destruct Hv as [_ Hv]. apply (nearest_ge _ _ 1%Q Hv); [apply (F_Z 1); lia|].
      apply Z_of_lt in H2. change (inject_Z (Z.of_N 0)) with 0%Q in H2. apply Qle_shift_div_r; [exact H2|]. apply Z_of_le in H1. lra. }
    change (Qpower 2 (-53)) with (B (-53)). pose proof (B_pos (-53)) as HB.
    assert (HvB : (v * B (-53) <= B (-53))%Q). { setoid_replace (B (-53)) with (1 * B (-53))%Q at 2 by ring. apply Qmult_le_compat_r; lra. }
    rewrite Ev. apply Qabs_Qle_condition. split; lra.
Qed.

Section Equities.
  Variables (n : nat) (bs : list (list N)) (r : results).
  Hypothesis HH : hist Debug n bs r.
  Lemma masks_int i : (i < 2 ^ n)%nat -> nth i (r_wins_by_mask r) 0 = msum bs i.
  Proof. destruct HH as [H1 H2 H3 H4 H5 H6 H7 H8]. exact (H5 i). Qed.
  Lemma shares_chips j : pot_shares n j (r_wins_by_mask r) = chips n j bs.
  Proof.
    unfold pot_shares, chips. rewrite <- sumf_sum_of, sumf_swap. apply sumf_ext. intros i Hi. apply in_seq in Hi. rewrite masks_int by lia. unfold msum.
    rewrite N.mul_comm, <- sumf_mul. apply sumf_ext. intros b _. lia.
  Qed.
  Lemma list_sum (l : list N) : sumf (fun x => x) l = sumf (fun i => nth i l 0) (seq 0 (length l)).
  Proof.
    induction l as [|x l IH]; [reflexivity|]. cbn [length seq]. rewrite !sumf_cons, IH. cbn [nth]. f_equal. rewrite <- seq_shift, sumf_map. reflexivity.
  Qed.
  Lemma weights_sum : sum_of (fun x => x) (r_wins_by_mask r) = weights n bs.
  Proof.
    rewrite <- sumf_sum_of, list_sum. rewrite (h_wbm _ _ _ _ HH). unfold weights. rewrite sumf_swap. apply sumf_ext. intros i Hi. apply in_seq in Hi. apply masks_int. lia.
  Qed.
  Lemma pots_won : pots (r_wins_by_mask r) = won n bs.
  Proof.
    unfold won. rewrite sumf_swap. pose proof (h_wbm _ _ _ _ HH) as HL. pose proof masks_int as HM. unfold pots. rewrite <- sumf_sum_of.
    assert (HE : forall i, In i (seq 0 (2 ^ n)) -> sumf (fun b => if (i =? 0)%nat then 0 else nth i b 0) bs = if (i =? 0)%nat then 0 else nth i (r_wins_by_mask r) 0).
    { intros i Hi. apply in_seq in Hi. destruct (i =? 0)%nat; [apply sumf_zero; reflexivity|]. symmetry. apply HM. lia. }
    rewrite (sumf_ext _ _ _ HE). rewrite <- HL. clear. destruct (r_wins_by_mask r) as [|x l]; [reflexivity|]. cbn [tl length seq]. rewrite sumf_cons. cbn [Nat.eqb]. rewrite N.add_0_l.
    rewrite list_sum, <- seq_shift, sumf_map. reflexivity.
  Qed.

  Hypothesis Hn : (n <= 9)%nat.
  Hypothesis Hfit : weights n bs <= 2 ^ 53.
  Local Notation xs := (map (fun k => taken n k bs) (seq 0 n)).
  Local Notation S := (sumf (fun k => taken n k bs) (seq 0 n)).

  Lemma equities_int : get_equity (r_wins r) (r_ties r) = map (fun x => f_div (f_of_N x) (f_of_N S)) xs.
  Proof.
    destruct HH as [H1 H2 H3 H4 H5 H6 H7 H8].
    assert (Ew : r_wins r = map (fun k => msum bs (2 ^ k)) (seq 0 n)) by (apply (nth_ext_map 0 _ n _ (fun x : N => x)); [exact H2|exact H6]).
    assert (Et : r_ties r = map (fun k => f_of_N (tied n k bs)) (seq 0 n)).
    { apply (nth_ext_map f_zero _ n _ (fun x : f64 => x)); [exact H1|]. intros j Hj. rewrite (H7 j Hj). apply tie_int. exact Hfit. }
    assert (Ee : map (fun '(w, t) => f_add (f_add f_zero (f_of_N w)) t) (combine (r_wins r) (r_ties r)) = map f_of_N xs).
    { rewrite Ew, Et, map_map. clear Ew Et.
      assert (Hs : forall k, In k (seq 0 n) -> (k < n)%nat) by (intros k Hk; apply in_seq in Hk; lia). revert Hs. generalize (seq 0 n). intros l Hs.
      induction l as [|k l IH]; [reflexivity|]. cbn [map combine]. rewrite IH by (intros; apply Hs; right; assumption). f_equal.
      pose proof (taken_split n k bs Hn (Hs k (or_introl eq_refl))) as E. pose proof (taken_le n k bs) as HL.
      change f_zero with (f_of_N 0). rewrite add_int by lia. rewrite N.add_0_l, add_int by lia. rewrite E. reflexivity. }
    assert (ES : sumf (fun x => x) xs = S) by apply sumf_map. pose proof (taken_sum_le n bs Hn) as HL.
    unfold get_equity. rewrite Ee. change f_zero with (f_of_N 0). rewrite fold_ints by (rewrite ES; lia). rewrite ES, N.add_0_l, map_map. reflexivity.
  Qed.

  Local Notation D := (N.of_nat (length bs) * shared_masks n).

  Hypothesis Hpos : (0 < n)%nat.
  Lemma hist_accuracy : N.of_nat n * D < pots (r_wins_by_mask r) ->
    length (get_equity (r_wins r) (r_ties r)) = n /\
    forall j, (j < n)%nat -> let e := nth j (get_equity (r_wins r) (r_ties r)) f_zero in
      number e /\ (Qabs (value e - ratio (pot_shares n j (r_wins_by_mask r)) (2520 * pots (r_wins_by_mask r))) <=
                   ratio (N.of_nat n * D) (pots (r_wins_by_mask r)) + Qpower 2 (-53))%Q.
  Proof.
    intros HW. split; [rewrite equities_int, !map_length, seq_length; reflexivity|]. intros j Hj. cbv zeta.
    rewrite equities_int. rewrite pots_won in *. rewrite shares_chips.
    rewrite (nth_indep _ f_zero (f_div (f_of_N 0) (f_of_N S))) by (rewrite !map_length, seq_length; exact Hj).
    rewrite (map_nth (fun x => f_div (f_of_N x) (f_of_N S))). rewrite (nth_indep _ 0 (taken n 0 bs)) by (rewrite map_length, seq_length; exact Hj).
    rewrite (map_nth (fun k => taken n k bs)), seq_nth by exact Hj. cbn [Nat.add].
    destruct (taken_won n bs Hn) as [HS1 HS2]. pose proof (taken_sum_le n bs Hn) as HS3. destruct (taken_chips n j bs Hn Hj) as [HC1 HC2].
    assert (Hx : taken n j bs <= S) by (apply (sumf_in_le (fun k => taken n k bs)); apply in_seq; lia).
    assert (HS0 : 0 < S) by lia.
    destruct (div_close _ _ Hx HS0 ltac:(lia)) as [Hnum Hdiv]. split; [exact Hnum|].
    assert (HQ : (Qabs (ratio (taken n j bs) S - ratio (chips n j bs) (2520 * won n bs)) <= ratio (N.of_nat n * D) (won n bs))%Q).
    { set (d := N.of_nat (length bs) * shared_masks n) in *. set (x := taken n j bs) in *. set (s := S) in *. set (c := chips n j bs) in *. set (w := won n bs) in *. unfold ratio.
      assert (Hw : (0 < inject_Z (Z.of_N w))%Q) by (apply (Z_of_lt 0); lia).
      assert (E : (inject_Z (Z.of_N c) / inject_Z (Z.of_N (2520 * w)) == (inject_Z (Z.of_N c) / 2520) / inject_Z (Z.of_N w))%Q).
      { rewrite Z_of_mul. change (inject_Z (Z.of_N 2520)) with 2520%Q. field. lra. }
      rewrite E. apply Z_of_le in HC1, HC2. rewrite Z_of_mul in HC1. rewrite Z_of_mul, Z_of_add in HC2. change (inject_Z (Z.of_N 2520)) with 2520%Q in HC1, HC2.
      apply (quotient_close _ _ _ _ (inject_Z (Z.of_N d))).
      - apply (Z_of_le 0). lia.
      - apply Z_of_le. exact Hx.
      - apply (Z_of_lt 0). exact HS0.
      - apply Z_of_le. exact HS1.
      - apply Qle_shift_div_l; [reflexivity|]. lra.
      - apply Qle_shift_div_r; [reflexivity|]. lra.
      - rewrite <- Z_of_add. apply Z_of_le. exact HS2.
      - apply Z_of_le. nia. }
    apply Qabs_Qle_condition in HQ. apply Qabs_Qle_condition in Hdiv. apply Qabs_Qle_condition. destruct HQ, Hdiv. split; lra.
  Qed.
End Equities.

(* ------------------------------------------------------------------------- *)
(** * Runs *)

(* a run without overflow is a run of the checked build *)
Lemma exact_debug p ranges board dead threads cancelled sched o : usable ranges -> p = Debug \/ weights_fit ranges board ->
  exact_equity p ranges board dead threads cancelled sched = Ret (ROk o) -> exact_equity Debug ranges board dead threads cancelled sched = Ret (ROk o).
Proof.
  intros Hu [->|Hw] H; [exact H|]. destruct p; [exact H|]. destruct (exact_hist _ _ _ _ _ _ _ _ Hu H) as (_ & _ & _ & _ & Hv). destruct Hu as [Hr Hsize].
  destruct (ag_exact ranges board dead threads cancelled sched) as [E|E]; [exfalso|rewrite <- E; exact H].
  destruct (exact_ok Debug ranges board dead Hr Hv Hsize) as [(_ & _ & Hc)|(total & work & _ & _ & _ & Hrun)]; [rewrite Hc in E; discriminate|].
  destruct (Hrun threads) as [H1 _]. destruct (H1 cancelled sched) as [(E1 & _)|[(res & E1 & _)|(_ & _ & HB)]]; [rewrite E1 in E; discriminate|rewrite E1 in E; discriminate|exact (HB Hw)].
Qed.
Lemma approx_debug p ranges board dead threads target cancelled shuf rngs fuel sched o : Forall range_ok ranges -> permutes shuf ->
  p = Debug \/ N.of_nat (length sched) * heaviest ranges < 2 ^ 64 ->
  approx_equity p ranges board dead threads target cancelled shuf rngs fuel sched = Ret (ROk o) ->
  approx_equity Debug ranges board dead threads target cancelled shuf rngs fuel sched = Ret (ROk o).
Proof.
  intros Hr Hs [->|Hw] H; [exact H|]. destruct p; [exact H|]. destruct (approx_hist _ _ _ _ _ _ _ _ _ _ _ _ Hr Hs H) as (_ & _ & _ & _ & Hv).
  destruct (ag_approx ranges board dead threads target cancelled shuf rngs fuel sched) as [E|E]; [exfalso|rewrite <- E; exact H].
  destruct (approx_ok Debug ranges board dead Hr Hv shuf target Hs threads cancelled rngs fuel sched) as [[E1 _]|[[(a & E1 & _)|(_ & _ & HB)]|[_ E1]]];
    [rewrite E1 in E; discriminate|rewrite E1 in E; discriminate|exact (HB Hw)|rewrite E1 in E; discriminate].
Qed.

(* the equities of n players are close to their shares of the pots in wins_by_mask; k batches *)
Definition shares_close (n k : nat) (r : results) : Prop :=
  let w := pots (r_wins_by_mask r) in let d := N.of_nat n * (N.of_nat k * (2 ^ N.of_nat (n - 1) - 1)) in
  sum_of (fun x => x) (r_wins_by_mask r) <= 2 ^ 53 -> d < w ->
  length (r_equities r) = n /\
  forall j, (j < n)%nat -> let e := nth j (r_equities r) f_zero in
    number e /\ (Qabs (value e - ratio (pot_shares n j (r_wins_by_mask r)) (2520 * w)) <= ratio d w + Qpower 2 (-53))%Q.
Lemma hist_close n bs r k : (0 < n <= 9)%nat -> hist Debug n bs r -> length bs = k -> r_equities r = get_equity (r_wins r) (r_ties r) -> shares_close n k r.
Proof.
  intros Hn HH <- HE. unfold shares_close. intros H1 H2. rewrite HE. rewrite (weights_sum n bs r HH) in H1. apply (hist_accuracy n bs r); try assumption; lia.
Qed.
Lemma exact_close p ranges board dead threads cancelled sched o : usable ranges -> p = Debug \/ weights_fit ranges board ->
  exact_equity p ranges board dead threads cancelled sched = Ret (ROk o) -> shares_close (length ranges) (length (o_progress o)) (o_results o).
Proof.
  intros Hu Hw H. apply exact_debug in H; [|exact Hu|exact Hw]. destruct (exact_hist _ _ _ _ _ _ _ _ Hu H) as (bs & HH & HL & HE & Hv).
  apply (hist_close _ bs); try assumption. apply validate_none in Hv. lia.
Qed.
Lemma approx_close p ranges board dead threads target cancelled shuf rngs fuel sched o : Forall range_ok ranges -> permutes shuf ->
  p = Debug \/ N.of_nat (length sched) * heaviest ranges < 2 ^ 64 ->
  approx_equity p ranges board dead threads target cancelled shuf rngs fuel sched = Ret (ROk o) -> shares_close (length ranges) (length (o_progress o)) (o_results o).
Proof.
  intros Hr Hs Hw H. apply approx_debug in H; try assumption. destruct (approx_hist _ _ _ _ _ _ _ _ _ _ _ _ Hr Hs H) as (bs & HH & HL & HE & Hv).
  apply (hist_close _ bs); try assumption. apply validate_none in Hv. lia.
Qed.

(* ------------------------------------------------------------------------- *)
(** * The true equity *)

Lemma best_exists {A} (v : A -> list N) (l : list A) : l <> [] -> exists x, In x l /\ forall y, In y l -> lle (v y) (v x).
Proof.
  induction l as [|a l IH]; intros H; [congruence|]. destruct l as [|b l].
  - exists a. split; [left; reflexivity|]. intros y [->|[]]. apply lle_refl.
  - destruct IH as (x & Hx & Hmax); [discriminate|]. destruct (lex (v a) (v x)) eqn:E.
    + exists x. split; [right; exact Hx|]. intros y [->|Hy]; [unfold lle; congruence|apply Hmax; exact Hy].
    + exists x. split; [right; exact Hx|]. intros y [->|Hy]; [unfold lle; congruence|apply Hmax; exact Hy].
    + exists a. split; [left; reflexivity|]. intros y [->|Hy]; [apply lle_refl|]. apply lle_trans with (v x); [apply Hmax; exact Hy|]. unfold lle. rewrite lex_opp, E. discriminate.
Qed.
Lemma somebody_wins d l : d <> [] -> winners d l <> [].
Proof.
  intros Hd. destruct (best_exists (fun h => best (two_cards h ++ l)) d Hd) as (h & Hh & Hmax). apply (In_nth _ _ (0, 0, 0)) in Hh as (i & Hi & Eh).
  assert (HI : In i (winners d l)); [|intros E; rewrite E in HI; destruct HI].
  unfold winners. apply filter_In. split; [apply in_seq; split; [apply Nat.le_0_l|exact Hi]|]. apply forallb_forall. intros y Hy. apply not_better_lle. change (holding d i) with (nth i d (0, 0, 0) : whand). unfold whand in *. rewrite Eh. apply Hmax. exact Hy.
Qed.
Lemma mask_once d l n : length d = n -> (n <= 8)%nat -> sumf (fun m => if nats_eqb (winners d l) (players_of n m) then 1 else 0) (upto (2 ^ N.of_nat n)) = 1.
Proof.
  intros Hl H8.
  assert (Hw : wmask (winners d l) < 2 ^ N.of_nat n).
  { destruct (N.ltb_spec (wmask (winners d l)) (2 ^ N.of_nat n)) as [Hlt|Hge]; [exact Hlt|exfalso].
    assert (Hne : wmask (winners d l) <> 0) by (intros E0; rewrite E0 in Hge; assert (0 < 2 ^ N.of_nat n) by (apply N.neq_0_lt_0, N.pow_nonzero; lia); lia).
    pose proof (N.bit_log2 _ Hne) as Hb. apply (N.log2_le_mono) in Hge. rewrite N.log2_pow2 in Hge by lia.
    rewrite <- (N2Nat.id (N.log2 (wmask (winners d l)))), wmask_bit in Hb. apply existsb_exists in Hb as (j & Hj & Ej). apply Nat.eqb_eq in Ej. subst j.
    unfold seen in Hj. apply filter_In in Hj as [Hj _]. apply ResultProofs.winners_lt in Hj. lia. }
  rewrite (sumf_ext _ (fun m => if m =? wmask (winners d l) then 1 else 0)); [apply one_of; exact Hw|].
  intros m Hm. apply upto_In in Hm. rewrite <- (seen_all d l) at 1 by lia. rewrite <- (wmask_players d l n m Hl Hm).
  destruct (Nat.eqb_spec (N.to_nat (wmask (winners d l))) (N.to_nat m)), (N.eqb_spec m (wmask (winners d l))); try reflexivity; lia.
Qed.
Lemma upto_seq n : upto (2 ^ N.of_nat n) = map N.of_nat (seq 0 (2 ^ n)).
Proof.
  unfold upto. rewrite nseq_map. assert (E : 2 ^ N.of_nat n = N.of_nat (2 ^ n)) by (rewrite Nat2N.inj_pow; reflexivity). rewrite E, Nat2N.id.
  apply map_ext. intros i. lia.
Qed.
Lemma total_sumf ranges board dead what :
  total_of ranges board dead what = sumf (fun d => deal_weight d * sumf (fun l => if what d l then 1 else 0) (boards board dead d)) (deals ranges board dead).
Proof. rewrite <- sum_over_total. apply sum_over_sumf. Qed.

Section True.
  Variables (ranges : list (list whand)) (board dead : N) (wbm : list N).
  Local Notation n := (length ranges).
  Hypothesis Hn : (1 <= n <= 8)%nat.
  Hypothesis Hlen : length wbm = (2 ^ n)%nat.
  Hypothesis Hw : forall m, m < 2 ^ N.of_nat n -> nth (N.to_nat m) wbm 0 = won_by ranges board dead m.

  (* any function of the winners *)
  Lemma weighted (g : list nat -> N) : sumf (fun m => nth (N.to_nat m) wbm 0 * g (players_of n m)) (upto (2 ^ N.of_nat n)) =
    sumf (fun d => deal_weight d * sumf (fun l => g (winners d l)) (boards board dead d)) (deals ranges board dead).
  Proof.
    rewrite (sumf_ext _ (fun m => sumf (fun d => deal_weight d * sumf (fun l => (if nats_eqb (winners d l) (players_of n m) then 1 else 0) * g (winners d l)) (boards board dead d)) (deals ranges board dead))).
    2:{ intros m Hm. apply upto_In in Hm. rewrite (Hw m Hm). unfold won_by. rewrite total_sumf, N.mul_comm, <- sumf_mul. apply sumf_ext. intros d _.
        rewrite N.mul_comm, <- N.mul_assoc. f_equal. rewrite N.mul_comm, <- sumf_mul. apply sumf_ext. intros l _.
        destruct (nats_eqb (winners d l) (players_of n m)) eqn:E; [|lia]. apply nats_eqb_eq in E. rewrite E. lia. }
    rewrite sumf_swap. apply sumf_ext. intros d Hd. rewrite sumf_mul. f_equal. rewrite sumf_swap. apply sumf_ext. intros l _.
    rewrite (sumf_ext _ (fun m => g (winners d l) * (if nats_eqb (winners d l) (players_of n m) then 1 else 0))) by (intros; apply N.mul_comm).
    rewrite sumf_mul, mask_once; [lia|exact (deal_length _ _ _ _ Hd)|lia].
  Qed.
  Lemma true_shares j : pot_shares n j wbm = dealt_shares ranges board dead j.
  Proof.
    unfold pot_shares, dealt_shares. rewrite <- !sumf_sum_of.
    rewrite (sumf_ext _ (fun d => deal_weight d * sumf (fun l => share_of j (winners d l)) (boards board dead d)) (deals ranges board dead)) by (intros; rewrite <- sumf_sum_of; reflexivity).
    rewrite <- weighted, upto_seq, sumf_map. apply sumf_ext. intros i _. rewrite Nat2N.id. reflexivity.
  Qed.
  Lemma true_pots : pots wbm = dealt_pots ranges board dead.
  Proof.
    unfold pots, dealt_pots. rewrite <- sumf_sum_of, total_sumf.
    assert (E0 : nth 0 wbm 0 = 0).
    { specialize (Hw 0). change (N.to_nat 0) with 0%nat in Hw. rewrite Hw; [|apply N.neq_0_lt_0, N.pow_nonzero; lia]. unfold won_by. rewrite total_sumf. apply sumf_zero.
      intros d Hd. rewrite sumf_zero; [lia|]. intros l _. assert (EP : players_of n 0 = []).
      { unfold players_of. rewrite (filter_ext _ (fun _ => false)) by (intros; apply N.bits_0). clear. induction (seq 0 n); auto. }
      rewrite EP. destruct (nats_eqb (winners d l) []) eqn:E; [|reflexivity]. apply nats_eqb_eq in E. exfalso. revert E. apply somebody_wins.
      pose proof (deal_length _ _ _ _ Hd) as HL. intros ->. cbn in HL. lia. }
    pose proof (weighted (fun _ => 1)) as HW.
    rewrite (sumf_ext (fun m => nth (N.to_nat m) wbm 0 * 1) (fun m => nth (N.to_nat m) wbm 0)) in HW by (intros; lia).
    rewrite upto_seq, sumf_map in HW. rewrite (sumf_ext _ (fun i => nth i wbm 0)) in HW by (intros; rewrite Nat2N.id; reflexivity).
    rewrite <- Hlen, <- list_sum in HW. destruct wbm as [|x l]; [cbn in Hlen; pose proof (Nat.pow_nonzero 2 n); lia|]. cbn [nth] in E0. subst x. rewrite sumf_cons in HW. cbn [tl]. rewrite <- HW. lia.
  Qed.
End True.

Lemma exact_true p ranges board dead threads sched o : usable ranges -> (length ranges <= 8)%nat -> p = Debug \/ weights_fit ranges board ->
  exact_equity p ranges board dead threads false sched = Ret (ROk o) -> ~ In Cancel sched -> (0 < threads)%nat ->
  let n := length ranges in let w := dealt_pots ranges board dead in
  let d := N.of_nat n * (N.of_nat (length (o_progress o)) * (2 ^ N.of_nat (n - 1) - 1)) in
  w <= 2 ^ 53 -> d < w ->
  length (r_equities (o_results o)) = n /\
  forall j, (j < n)%nat -> let e := nth j (r_equities (o_results o)) f_zero in
    number e /\ (Qabs (value e - ratio (dealt_shares ranges board dead j) (2520 * w)) <= ratio d w + Qpower 2 (-53))%Q.
Proof.
  intros Hu H8 Hw H Hc Ht. cbv zeta. pose proof (exact_close _ _ _ _ _ _ _ _ Hu Hw H) as HC. apply exact_debug in H; [|exact Hu|exact Hw].
  destruct (masks_spec _ _ _ _ _ _ _ Hu H Hc Ht) as [HL HM]. specialize (HM H8). cbn [counter] in HM.
  destruct (full_run _ _ _ _ _ _ _ Hu H Hc Ht) as (D & e & HP & Hn & Hrep).
  pose proof (true_pots ranges board dead _ ltac:(lia) HL HM) as EP. pose proof (true_shares ranges board dead _ ltac:(lia) HL HM) as ES.
  assert (ET : sum_of (fun x => x) (r_wins_by_mask (o_results o)) = dealt_pots ranges board dead).
  { rewrite <- sumf_sum_of. rewrite (masks_total Debug ranges board dead D [] e _ (proj1 Hu) Hn ltac:(rewrite app_nil_r; exact HP) Hrep (or_introl eq_refl)).
    rewrite (sum_over_perm _ _ _ _ _ HP). apply sum_over_total. }
  unfold shares_close in HC. cbv zeta in HC. rewrite ET, EP in HC. intros Hb Hd. destruct (HC Hb Hd) as [HC1 HC2]. split; [exact HC1|]. intros j Hj. specialize (HC2 j Hj). rewrite ES in HC2. exact HC2.
Qed.

(* ------------------------------------------------------------------------- *)
(** * Both builds *)

Lemma exact_same p q ranges board dead threads cancelled sched o : usable ranges -> weights_fit ranges board ->
  exact_equity p ranges board dead threads cancelled sched = Ret (ROk o) -> exact_equity q ranges board dead threads cancelled sched = Ret (ROk o).
Proof.
  intros Hu Hw H. apply exact_debug in H; [|exact Hu|right; exact Hw]. destruct q; [exact H|]. destruct (ag_exact ranges board dead threads cancelled sched) as [E|E]; [rewrite E in H; discriminate H|rewrite E; exact H].
Qed.
Lemma approx_same p q ranges board dead threads target cancelled shuf rngs fuel sched o : Forall range_ok ranges -> permutes shuf -> N.of_nat (length sched) * heaviest ranges < 2 ^ 64 ->
  approx_equity p ranges board dead threads target cancelled shuf rngs fuel sched = Ret (ROk o) ->
  approx_equity q ranges board dead threads target cancelled shuf rngs fuel sched = Ret (ROk o).
Proof.
  intros Hr Hs Hw H. apply approx_debug in H; [|exact Hr|exact Hs|right; exact Hw]. destruct q; [exact H|].
  destruct (ag_approx ranges board dead threads target cancelled shuf rngs fuel sched) as [E|E]; [rewrite E in H; discriminate H|rewrite E; exact H].
Qed.
