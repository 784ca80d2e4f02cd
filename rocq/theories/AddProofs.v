(* Proofs that equities add up to 1 and that players with the same range get the same (C133, C134). *)
From Coq Require Import Floats.SpecFloat QArith Qabs Lqa Permutation Lia.
From Verif Require Import Base BaseProofs SumFacts ListFacts Ghost Float64 Hand Range FastDivide Combined Sim Approx SpecPoker SpecNames SpecHand SpecEquity SpecResults SpecRun SpecApprox SpecShare SpecEven SpecSymmetry SpecAdd
  CombinedProofs PositionProofs MachineProofs ExactProofs CombineRunProofs RunProofs ConsistProofs SymmetryProofs FloatProofs FloatSumProofs EquityFloatProofs ConvergeProofs ProfileProofs EquityProofs ShareProofs EvenProofs ScaleProofs SeatEvenProofs.
Local Open Scope N_scope.

Lemma sum_close s : 0 < s -> s <= 2 ^ 53 -> forall xs, (forall x, In x xs -> x <= s) ->
  (Qabs (sumq (map value (map (fun x => f_div (f_of_N x) (f_of_N s)) xs)) - ratio (sumf (fun x => x) xs) s) <= inject_Z (Z.of_nat (length xs)) * Qpower 2 (-53))%Q.
Proof.
  intros H0 H53. induction xs as [|x xs IH]; intros Hx.
  - rewrite sumf_nil. cbn [map length sumq fold_right]. unfold ratio. vm_compute. discriminate.
  - rewrite sumf_cons. cbn [map length sumq fold_right]. destruct (div_close x s (Hx x (or_introl eq_refl)) H0 H53) as [_ D]. specialize (IH (fun y Hy => Hx y (or_intror Hy))).
    fold (sumq (map value (map (fun x => f_div (f_of_N x) (f_of_N s)) xs))). revert IH D. generalize (sumq (map value (map (fun x => f_div (f_of_N x) (f_of_N s)) xs))), (value (f_div (f_of_N x) (f_of_N s))). intros a b IH D.
    assert (E : (ratio (x + sumf (fun x => x) xs) s == ratio x s + ratio (sumf (fun x => x) xs) s)%Q).
    { unfold ratio. rewrite Z_of_add. field. apply Z_of_lt in H0. change (inject_Z (Z.of_N 0)) with 0%Q in H0. lra. }
    rewrite E. replace (Z.of_nat (S (length xs))) with (1 + Z.of_nat (length xs))%Z by lia. rewrite inject_Z_plus.
    apply Qabs_Qle_condition in IH as [I1 I2]. apply Qabs_Qle_condition in D as [D1 D2]. apply Qabs_Qle_condition. change (inject_Z 1) with 1%Q. split; lra.
Qed.

Lemma hist_add_up n bs r : (n <= 9)%nat -> hist Debug n bs r -> sum_of (fun x => x) (r_wins_by_mask r) <= 2 ^ 53 ->
  no_credit r \/ add_up n (get_equity (r_wins r) (r_ties r)).
Proof.
  intros Hn HH Hs. rewrite (weights_sum n bs r HH) in Hs. rewrite (equities_int n bs r HH Hn Hs). set (xs := map (fun k => taken n k bs) (seq 0 n)).
  assert (ES : sumf (fun x => x) xs = sumf (fun k => taken n k bs) (seq 0 n)) by (unfold xs; now rewrite sumf_map).
  pose proof (taken_sum_le n bs Hn) as HS. set (s := sumf (fun k => taken n k bs) (seq 0 n)) in *.
  assert (Hx : forall x, In x xs -> x <= s) by (intros x Hx; rewrite <- ES; apply (sumf_in_le (fun x => x)); exact Hx).
  destruct (N.eq_dec s 0) as [Z|Hne]; [left|right].
  { assert (HZ : forall j, (j < n)%nat -> taken n j bs = 0).
    { intros j Hj. assert (H := Hx (taken n j bs) ltac:(unfold xs; apply in_map_iff; exists j; split; [reflexivity|apply in_seq; lia])). lia. }
    destruct HH as [H1 H2 H3 H4 H5 H6 H7 H8]. split; apply Forall_nth; intros j d Hj.
    - rewrite (nth_indep _ d 0 Hj). rewrite H2 in Hj. rewrite (H6 j Hj : _ = _). pose proof (taken_split n j bs Hn Hj). rewrite (HZ j Hj) in *. lia.
    - rewrite (nth_indep _ d f_zero Hj). rewrite H1 in Hj. rewrite (H7 j Hj), (tie_int n j bs Hs). pose proof (tied_taken n j bs). rewrite (HZ j Hj) in *. replace (tied n j bs) with 0 by lia. reflexivity. }
  assert (H0 : 0 < s) by lia. split; [rewrite map_length; unfold xs; rewrite map_length; apply seq_length|]. split.
  - apply Forall_map. apply Forall_forall. intros x Hin. exact (proj1 (div_close x s (Hx x Hin) H0 ltac:(lia))).
  - pose proof (sum_close s H0 ltac:(lia) xs Hx) as C. rewrite ES in C. replace (length xs) with n in C by (unfold xs; rewrite map_length, seq_length; reflexivity).
    assert (E1 : (ratio s s == 1)%Q). { unfold ratio. field. apply Z_of_lt in H0. change (inject_Z (Z.of_N 0)) with 0%Q in H0. lra. } rewrite E1 in C. exact C.
Qed.
Lemma exact_add_up p ranges board dead threads cancelled sched o : usable ranges -> p = Debug \/ weights_fit ranges board ->
  exact_equity p ranges board dead threads cancelled sched = Ret (ROk o) -> let r := o_results o in sum_of (fun x => x) (r_wins_by_mask r) <= 2 ^ 53 ->
  no_credit r \/ add_up (length ranges) (r_equities r).
Proof.
  intros Hu Hw H. cbv zeta. intros Hs. apply exact_debug in H; [|exact Hu|exact Hw]. destruct (exact_hist _ _ _ _ _ _ _ _ Hu H) as (bs & HH & _ & HE & Hv).
  rewrite HE. apply (hist_add_up _ bs); try assumption. apply validate_none in Hv. lia.
Qed.
Lemma approx_add_up p ranges board dead threads target cancelled shuf rngs fuel sched o : Forall range_ok ranges -> permutes shuf ->
  p = Debug \/ N.of_nat (length sched) * heaviest ranges < 2 ^ 64 ->
  approx_equity p ranges board dead threads target cancelled shuf rngs fuel sched = Ret (ROk o) -> let r := o_results o in sum_of (fun x => x) (r_wins_by_mask r) <= 2 ^ 53 ->
  no_credit r \/ add_up (length ranges) (r_equities r).
Proof.
  intros Hr Hp Hw H. cbv zeta. intros Hs. apply approx_debug in H; try assumption. destruct (approx_hist _ _ _ _ _ _ _ _ _ _ _ _ Hr Hp H) as (bs & HH & _ & HE & Hv).
  rewrite HE. apply (hist_add_up _ bs); try assumption. apply validate_none in Hv. lia.
Qed.

(* ------------------------------------------------------------------------- *)
(** * Players with the same range *)

Section Swap.
  Variables (n i j : nat).
  Hypothesis Hi : (i < n)%nat.
  Hypothesis Hj : (j < n)%nat.
  Definition sw (k : nat) : nat := if (k =? i)%nat then j else if (k =? j)%nat then i else k.
  Lemma sw_sw k : sw (sw k) = k.
  Proof. unfold sw. destruct (Nat.eqb_spec k i); [|destruct (Nat.eqb_spec k j)]; repeat (match goal with |- context [(?a =? ?b)%nat] => destruct (Nat.eqb_spec a b) end); lia. Qed.
  Lemma sw_lt k : (k < n)%nat -> (sw k < n)%nat.
  Proof. unfold sw. destruct (k =? i)%nat, (k =? j)%nat; lia. Qed.
  Lemma sw_perm : Permutation (map sw (seq 0 n)) (seq 0 n).
  Proof.
    apply NoDup_Permutation; [apply FinFun.Injective_map_NoDup; [|apply seq_NoDup]|apply seq_NoDup|].
    - intros x y E. rewrite <- (sw_sw x), E. apply sw_sw.
    - intros x. rewrite in_map_iff, in_seq. split.
      + intros (k & <- & Hk). apply in_seq in Hk. pose proof (sw_lt k). lia.
      + intros Hx. exists (sw x). split; [apply sw_sw|]. apply in_seq. pose proof (sw_lt x). lia.
  Qed.
End Swap.

Lemma same_range_equity p ranges board dead o i j : usable ranges -> (length ranges <= 8)%nat -> p = Debug \/ weights_fit ranges board -> even_deals ranges board dead ->
  dealt_pots ranges board dead <= 2 ^ 53 -> completes p ranges board dead o -> (i < length ranges)%nat -> (j < length ranges)%nat -> range_at ranges i = range_at ranges j ->
  nth i (r_equities (o_results o)) f_zero = nth j (r_equities (o_results o)) f_zero.
Proof.
  intros Hu H8 Hf He H53 Hc Hi Hj E. set (n := length ranges) in *. set (ks := map (sw i j) (seq 0 n)).
  assert (ER : map (range_at ranges) ks = ranges).
  { unfold ks. rewrite map_map. apply (nth_ext _ _ [] []); [rewrite map_length, seq_length; reflexivity|]. intros k Hk. rewrite map_length, seq_length in Hk.
    rewrite (nth_indep _ [] (range_at ranges (sw i j 0))) by (rewrite map_length, seq_length; exact Hk). rewrite (map_nth (fun x => range_at ranges (sw i j x))), seq_nth by exact Hk. cbn [Nat.add].
    unfold sw. destruct (Nat.eqb_spec k i) as [->|]; [symmetry; exact E|]. destruct (Nat.eqb_spec k j) as [->|]; [exact E|reflexivity]. }
  pose proof (equities_seats p p ranges ks board dead o o) as S. cbv zeta in S. rewrite ER in S. specialize (S Hu Hu H8 (sw_perm n i j Hi Hj) Hf Hf He H53 Hc Hc).
  assert (Hk : nth i ks 0%nat = j).
  { unfold ks. rewrite (nth_indep _ 0%nat (sw i j 0)) by (rewrite map_length, seq_length; exact Hi). rewrite map_nth, seq_nth by exact Hi. cbn [Nat.add]. unfold sw. now rewrite Nat.eqb_refl. }
  rewrite S at 1. rewrite (nth_indep _ f_zero (nth 0 (r_equities (o_results o)) f_zero)) by (unfold ks; rewrite !map_length, seq_length; exact Hi).
  rewrite (map_nth (fun k => nth k (r_equities (o_results o)) f_zero)), Hk. reflexivity.
Qed.
