(* Sums of natural numbers over lists. *)
From Verif Require Import Base BaseProofs SpecPoker ListFacts.
From Coq Require Import Permutation.
Local Open Scope N_scope.

Lemma NoDup_app_l {A} (l l' : list A) : NoDup (l ++ l') -> NoDup l.
Proof.
  induction l as [|x l IH]; intros H; [constructor|]. cbn [app] in H. inversion H as [|y k Hx Hl]; subst.
  constructor; [|apply IH; exact Hl]. intros Hin. apply Hx, in_or_app. left. exact Hin.
Qed.
Lemma NoDup_app_r {A} (l l' : list A) : NoDup (l ++ l') -> NoDup l'.
Proof. induction l as [|x l IH]; intros H; [exact H|]. inversion H; subst. apply IH. assumption. Qed.
Lemma NoDup_app_disj {A} (l l' : list A) x : NoDup (l ++ l') -> In x l -> ~ In x l'.
Proof.
  induction l as [|y l IH]; intros H; [contradiction|]. cbn [app] in H. inversion H as [|z k Hy Hl]; subst.
  intros [->|Hx]; [|apply IH; assumption]. intros Hin. apply Hy, in_or_app. right. exact Hin.
Qed.

Definition sumf {A} (f : A -> N) (l : list A) : N := fold_right (fun x a => f x + a) 0 l.

Lemma sumf_nil {A} (f : A -> N) : sumf f [] = 0. Proof. reflexivity. Qed.
Lemma sumf_cons {A} (f : A -> N) x l : sumf f (x :: l) = f x + sumf f l. Proof. reflexivity. Qed.
Lemma sumf_app {A} (f : A -> N) l l' : sumf f (l ++ l') = sumf f l + sumf f l'.
Proof. induction l as [|x l IH]; [reflexivity|]. cbn [app]. rewrite !sumf_cons, IH. lia. Qed.
Lemma sumf_map {A B} (f : B -> N) (g : A -> B) l : sumf f (map g l) = sumf (fun x => f (g x)) l.
Proof. induction l as [|x l IH]; [reflexivity|]. cbn [map]. rewrite !sumf_cons, IH. reflexivity. Qed.
Lemma sumf_ext {A} (f g : A -> N) l : (forall x, In x l -> f x = g x) -> sumf f l = sumf g l.
Proof.
  induction l as [|x l IH]; intros H; [reflexivity|]. rewrite !sumf_cons, (H x), IH; [reflexivity| |left; reflexivity].
  intros y Hy. apply H. right. exact Hy.
Qed.
Lemma sumf_perm {A} (f : A -> N) l l' : Permutation l l' -> sumf f l = sumf f l'.
Proof. induction 1; rewrite ?sumf_cons; try lia. Qed.
Lemma sumf_flat_map {A B} (f : B -> N) (g : A -> list B) l : sumf f (flat_map g l) = sumf (fun x => sumf f (g x)) l.
Proof. induction l as [|x l IH]; [reflexivity|]. cbn [flat_map]. rewrite sumf_app, sumf_cons, IH. reflexivity. Qed.
Lemma sumf_mul {A} (f : A -> N) k l : sumf (fun x => k * f x) l = k * sumf f l.
Proof. induction l as [|x l IH]; [cbn; lia|]. rewrite !sumf_cons, IH. lia. Qed.
Lemma sumf_add {A} (f g : A -> N) l : sumf (fun x => f x + g x) l = sumf f l + sumf g l.
Proof. induction l as [|x l IH]; [reflexivity|]. rewrite !sumf_cons, IH. lia. Qed.
Lemma sumf_zero {A} (f : A -> N) l : (forall x, In x l -> f x = 0) -> sumf f l = 0.
Proof. intros H. rewrite (sumf_ext f (fun _ => 0)) by exact H. induction l as [|x l IH]; [reflexivity|].
  rewrite sumf_cons, IH; [reflexivity|]. intros y Hy. apply H. right. exact Hy. Qed.
Lemma sumf_const {A} k (l : list A) : sumf (fun _ => k) l = k * N.of_nat (length l).
Proof. induction l as [|x l IH]; [cbn; lia|]. rewrite sumf_cons, IH. cbn [length]. lia. Qed.
Lemma sumf_le {A} (f g : A -> N) l : (forall x, In x l -> f x <= g x) -> sumf f l <= sumf g l.
Proof.
  induction l as [|x l IH]; intros H; [cbn; lia|]. rewrite !sumf_cons.
  pose proof (H x (or_introl eq_refl)). assert (sumf f l <= sumf g l) by (apply IH; intros y Hy; apply H; right; exact Hy). lia.
Qed.
Lemma sumf_in_le {A} (f : A -> N) l x : In x l -> f x <= sumf f l.
Proof. induction l as [|y l IH]; [contradiction|]. rewrite sumf_cons. intros [->|H]; [lia|]. specialize (IH H). lia. Qed.
Lemma sumf_swap {A B} (f : A -> B -> N) l k :
  sumf (fun x => sumf (fun y => f x y) k) l = sumf (fun y => sumf (fun x => f x y) l) k.
Proof.
  induction l as [|x l IH].
  - symmetry. apply sumf_zero. reflexivity.
  - rewrite sumf_cons, IH. rewrite <- sumf_add. apply sumf_ext. intros y _. rewrite sumf_cons. reflexivity.
Qed.
Lemma sumf_filter {A} (f : A -> N) (b : A -> bool) l : sumf f (filter b l) = sumf (fun x => if b x then f x else 0) l.
Proof. induction l as [|x l IH]; [reflexivity|]. cbn [filter]. rewrite sumf_cons, <- IH. destruct (b x); reflexivity. Qed.
Lemma sumf_split {A} (f : A -> N) (b : A -> bool) l :
  sumf f l = sumf f (filter b l) + sumf f (filter (fun x => negb (b x)) l).
Proof. rewrite !sumf_filter, <- sumf_add. apply sumf_ext. intros x _. destruct (b x); cbn [negb]; lia. Qed.
Lemma sumf_1_length {A} (l : list A) : sumf (fun _ => 1) l = N.of_nat (length l).
Proof. rewrite sumf_const. lia. Qed.

(* ------------------------------------------------------------------------- *)
(** * Sums over choices *)

Lemma choose_nil {A} k : (0 < k)%nat -> choose k (@nil A) = [].
Proof. destruct k; [lia|reflexivity]. Qed.

Lemma choose_cons {A} k (x : A) l : (0 < k)%nat -> choose k (x :: l) = map (cons x) (choose (k - 1) l) ++ choose k l.
Proof. destruct k; [lia|]. intros _. cbn [choose]. rewrite Nat.sub_succ, Nat.sub_0_r. reflexivity. Qed.

Lemma sum_choose_cons {A} (f : list A -> N) k x l : (0 < k)%nat ->
  sumf f (choose k (x :: l)) = sumf (fun t => f (x :: t)) (choose (k - 1) l) + sumf f (choose k l).
Proof. intros H. rewrite choose_cons, sumf_app, sumf_map by exact H. reflexivity. Qed.

Lemma sum_choose_1 {A} (f : list A -> N) l : sumf f (choose 1 l) = sumf (fun x => f [x]) l.
Proof.
  induction l as [|x l IH]; [reflexivity|]. rewrite sum_choose_cons by lia.
  rewrite Nat.sub_diag, choose_0, IH, !sumf_cons, sumf_nil. lia.
Qed.

(* choices from a concatenation: first how many from the left *)
Lemma sum_choose_app {A} (l1 l2 : list A) : forall k (f : list A -> N),
  sumf f (choose k (l1 ++ l2)) =
  sumf (fun r => sumf (fun s => sumf (fun t => f (s ++ t)) (choose (k - r) l2)) (choose r l1)) (seq 0 (S k)).
Proof.
  induction l1 as [|x l1 IH]; intros k f.
  - cbn [app seq]. rewrite sumf_cons, choose_0, Nat.sub_0_r, sumf_cons, sumf_nil, N.add_0_r.
    cbn [app]. rewrite (sumf_zero _ (seq 1 k)), N.add_0_r; [apply sumf_ext; reflexivity|].
    intros r Hr. apply in_seq in Hr. rewrite choose_nil by lia. reflexivity.
  - destruct k as [|k].
    + cbn [app seq]. rewrite sumf_cons, sumf_nil. rewrite Nat.sub_diag, !choose_0. cbn [sumf fold_right]. rewrite ?choose_0. cbn [sumf fold_right app]. lia.
    + cbn [app]. rewrite sum_choose_cons by lia. cbn [Nat.sub]. rewrite Nat.sub_0_r.
      rewrite (IH k), (IH (S k)). 
      assert (Hs : forall g : nat -> N, sumf g (seq 0 (S (S k))) = g 0%nat + sumf (fun r => g (S r)) (seq 0 (S k))).
      { intros g. change (seq 0 (S (S k))) with (0%nat :: seq 1 (S k)). rewrite sumf_cons, <- seq_shift, sumf_map. reflexivity. }
      rewrite !Hs. rewrite !choose_0. cbn [Nat.sub]. cbn [choose].
      rewrite (sumf_ext (fun r => sumf (fun s => sumf (fun t => f (s ++ t)) (choose (k - r) l2)) (map (cons x) (choose r l1) ++ choose (S r) l1))
        (fun r => sumf (fun s => sumf (fun t => f (x :: s ++ t)) (choose (k - r) l2)) (choose r l1) +
                  sumf (fun s => sumf (fun t => f (s ++ t)) (choose (k - r) l2)) (choose (S r) l1))).
      * rewrite sumf_add. lia.
      * intros r _. rewrite sumf_app, sumf_map. reflexivity.
Qed.

Lemma choose_perm_sum {A} (l l' : list A) : Permutation l l' -> forall k (f : list A -> N),
  (forall s t, Permutation s t -> In s (choose k l) -> f s = f t) -> sumf f (choose k l) = sumf f (choose k l').
Proof.
  induction 1 as [|x l l' HP IH|x y l|l l' l'' HP1 IH1 HP2 IH2]; intros k f Hf.
  - reflexivity.
  - destruct k as [|k]; [reflexivity|]. rewrite !sum_choose_cons by lia. cbn [Nat.sub]. rewrite Nat.sub_0_r.
    f_equal; apply IH; intros s t Hst Hi; apply Hf.
    + constructor. exact Hst.
    + cbn [choose]. apply in_or_app. left. apply in_map. exact Hi.
    + exact Hst.
    + cbn [choose]. apply in_or_app. right. exact Hi.
  - destruct k as [|[|k]]; [reflexivity| |].
    + rewrite !sum_choose_1, !sumf_cons. lia.
    + rewrite !sum_choose_cons by lia. cbn [Nat.sub]. rewrite ?Nat.sub_0_r.
      rewrite (sumf_ext (fun t => f (y :: x :: t)) (fun t => f (x :: y :: t))); [lia|].
      intros t Ht. apply Hf; [constructor|]. rewrite choose_cons by lia. apply in_or_app. left. apply in_map.
      rewrite choose_cons by (cbn; lia). apply in_or_app. left. apply in_map. cbn [Nat.sub]. rewrite ?Nat.sub_0_r. exact Ht.
  - rewrite IH1 by exact Hf. apply IH2. intros s t Hst Hi.
    destruct (choose_perm l' l (Permutation_sym HP1) k s Hi) as (s' & Hi' & Hs').
    rewrite <- (Hf s' s), <- (Hf s' t); try assumption; try reflexivity.
    + transitivity s; [symmetry; exact Hs'|exact Hst].
    + symmetry; exact Hs'.
Qed.

(* binomial coefficients *)
Definition binom (n k : nat) : N := N.of_nat (length (choose k (seq 0 n))).
Lemma choose_length_map {A B} (f : A -> B) l k : length (choose k (map f l)) = length (choose k l).
Proof. rewrite choose_map, map_length. reflexivity. Qed.
Lemma choose_count {A} (l : list A) k : N.of_nat (length (choose k l)) = binom (length l) k.
Proof.
  unfold binom. f_equal.
  revert k. induction l as [|x l IH]; intros k.
  - destruct k; reflexivity.
  - destruct k as [|k]; [reflexivity|]. cbn [length seq choose]. rewrite !app_length, !map_length.
    rewrite <- seq_shift, !choose_length_map, IH, IH. reflexivity.
Qed.
Lemma binom_small : forall n k, (n <= 4)%nat -> (1 <= k <= n)%nat ->
  binom n k = nth k (nth n [[0; 0; 0; 0; 0]; [0; 1; 0; 0; 0]; [1; 2; 1; 0; 0]; [1; 3; 3; 1; 0]; [1; 4; 6; 4; 1]] []) 0.
Proof.
  intros n k Hn Hk.
  assert (H : forallb (fun n => forallb (fun k => binom n k =? nth k (nth n [[0; 0; 0; 0; 0]; [0; 1; 0; 0; 0]; [1; 2; 1; 0; 0]; [1; 3; 3; 1; 0]; [1; 4; 6; 4; 1]] []) 0) (seq 1 n)) (seq 0 5) = true) by (vm_compute; reflexivity).
  pose proof (forallb_In _ _ H n) as H1. rewrite in_seq in H1. specialize (H1 ltac:(lia)). cbv beta in H1.
  pose proof (forallb_In _ _ H1 k) as H2. rewrite in_seq in H2. specialize (H2 ltac:(lia)). cbv beta in H2.
  apply N.eqb_eq in H2. exact H2.
Qed.
Lemma binom_small_le n k : (n <= 4)%nat -> binom n k <= 6.
Proof.
  intros Hn. destruct (Nat.leb_spec k n) as [Hk|Hk].
  - assert (H : forallb (fun n => forallb (fun k => binom n k <=? 6) (seq 0 (S n))) (seq 0 5) = true) by (vm_compute; reflexivity).
    pose proof (forallb_In _ _ H n) as H1. rewrite in_seq in H1. specialize (H1 ltac:(lia)). cbv beta in H1.
    pose proof (forallb_In _ _ H1 k) as H2. rewrite in_seq in H2. specialize (H2 ltac:(lia)). cbv beta in H2.
    apply N.leb_le in H2. exact H2.
  - unfold binom. destruct (choose k (seq 0 n)) as [|s u] eqn:E; [cbn; lia|].
    exfalso. pose proof (choose_nsub (seq 0 n) k s) as Hs. rewrite E in Hs. specialize (Hs (or_introl eq_refl)).
    rewrite seq_length in Hs. lia.
Qed.

(* ------------------------------------------------------------------------- *)
(** * Sums over intervals and mixed radix *)

Lemma nseq_app a n k : nseq a (n + k) = nseq a n ++ nseq (a + N.of_nat n) k.
Proof.
  revert a. induction n as [|n IH]; intros a; cbn [Nat.add nseq app].
  - rewrite N.add_0_r. reflexivity.
  - rewrite IH. do 2 f_equal. f_equal. lia.
Qed.

Definition upto (n : N) : list N := nseq 0 (N.to_nat n).
Lemma upto_In n x : In x (upto n) <-> x < n.
Proof. unfold upto. rewrite nseq_In. lia. Qed.
Definition interval (a b : N) : list N := nseq a (N.to_nat (b - a)).
Lemma interval_In a b x : In x (interval a b) <-> a <= x < b.
Proof. unfold interval. rewrite nseq_In. lia. Qed.
Lemma interval_upto n : interval 0 n = upto n.
Proof. unfold interval, upto. rewrite N.sub_0_r. reflexivity. Qed.
Lemma interval_empty a b : b <= a -> interval a b = [].
Proof. intros H. unfold interval. replace (N.to_nat (b - a)) with 0%nat by lia. reflexivity. Qed.
Lemma interval_split a b c : a <= b -> b <= c -> interval a c = interval a b ++ interval b c.
Proof.
  intros H1 H2. unfold interval. replace (N.to_nat (c - a)) with (N.to_nat (b - a) + N.to_nat (c - b))%nat by lia.
  rewrite nseq_app. do 3 f_equal. lia.
Qed.
Lemma interval_first a b : a < b -> interval a b = a :: interval (a + 1) b.
Proof.
  intros H. unfold interval. replace (N.to_nat (b - a)) with (S (N.to_nat (b - (a + 1)))) by lia.
  cbn [nseq]. do 2 f_equal. lia.
Qed.
Lemma nseq_shift a d n : nseq (a + d) n = map (fun x => x + d) (nseq a n).
Proof.
  revert a. induction n as [|n IH]; intros a; [reflexivity|]. cbn [nseq map]. f_equal.
  rewrite <- IH. f_equal. lia.
Qed.

Lemma upto_mul s q : 0 < s -> forall f : N -> N -> N,
  sumf (fun x => f (x mod s) (x / s)) (upto (s * q)) = sumf (fun b => sumf (fun a => f a b) (upto s)) (upto q).
Proof.
  intros Hs f. unfold upto. revert q. apply (N.peano_ind (fun q => _ = _)).
  - rewrite N.mul_0_r. reflexivity.
  - intros q IH. rewrite N2Nat.inj_succ. rewrite <- (Nat.add_1_r (N.to_nat q)), nseq_app, sumf_app, <- IH.
    replace (N.to_nat (s * N.succ q)) with (N.to_nat (s * q) + N.to_nat s)%nat by lia.
    rewrite nseq_app, sumf_app. f_equal. cbn [nseq]. rewrite sumf_cons, sumf_nil, N.add_0_r, !N2Nat.id.
    rewrite nseq_shift, sumf_map, !N.add_0_l.
    apply sumf_ext. intros x Hx. apply nseq_In in Hx. rewrite (N.mul_comm s q).
    rewrite N.mod_add, N.mod_small, N.div_add, N.div_small by lia. reflexivity.
Qed.

Lemma sum_upto_list {A} (f : A -> N) (l : list A) (d : A) :
  sumf (fun i => f (nth (N.to_nat i) l d)) (upto (N.of_nat (length l))) = sumf f l.
Proof.
  unfold upto. rewrite Nat2N.id, nseq_map, sumf_map.
  rewrite (sumf_ext _ (fun i => f (nth i l d))).
  - rewrite <- (sumf_map f (fun i => nth i l d)). f_equal.
    induction l as [|x l IH]; [reflexivity|]. cbn [length seq map nth]. f_equal. rewrite <- seq_shift, map_map. exact IH.
  - intros i _. rewrite N.add_0_l, Nat2N.id. reflexivity.
Qed.
