(* Lemmas about the primitives of Base.v. *)
From Verif Require Import Base.
From Coq Require Import FMapPositive FMapFacts Permutation.
Local Open Scope N_scope.

(* ------------------------------------------------------------------------- *)
(** * Outcomes *)

Lemma bind_ret {A B} (m : outcome A) (k : A -> outcome B) b :
  bind m k = Ret b -> exists a, m = Ret a /\ k a = Ret b.
Proof. destruct m as [a|f]; cbn; intros H; [eauto|discriminate]. Qed.

(* turns H : (x <- m ;; k) = Ret b into its two halves *)
Ltac binv H :=
  let a := fresh "v" in let H1 := fresh "E" in
  apply bind_ret in H; destruct H as (a & H1 & H).

Definition ok {A} (m : outcome A) : Prop := exists a, m = Ret a.

Lemma ok_ret {A} (a : A) : ok (Ret a). Proof. exists a; reflexivity. Qed.
#[export] Hint Resolve ok_ret : core.

Lemma foldM_app {A S} (f : S -> A -> outcome S) l1 l2 s :
  foldM f (l1 ++ l2) s = (s' <- foldM f l1 s ;; foldM f l2 s').
Proof.
  revert s; induction l1 as [|x l1 IH]; intros s; cbn; [reflexivity|].
  destruct (f s x) as [s'|e]; cbn; [apply IH|reflexivity].
Qed.

Lemma foldM_inv {A S} (P : S -> Prop) (f : S -> A -> outcome S) l :
  forall s s', (forall s x s', In x l -> P s -> f s x = Ret s' -> P s') ->
  P s -> foldM f l s = Ret s' -> P s'.
Proof.
  induction l as [|x l IH]; intros s s' Hf Hs H; cbn in H.
  - congruence.
  - binv H. eapply IH; [| |exact H].
    + intros; eapply Hf; eauto; right; assumption.
    + eapply Hf; eauto; left; reflexivity.
Qed.

Lemma foldM_total {A S} (P : S -> Prop) (f : S -> A -> outcome S) l :
  forall s, (forall s x, In x l -> P s -> exists s', f s x = Ret s' /\ P s') ->
  P s -> exists s', foldM f l s = Ret s' /\ P s'.
Proof.
  induction l as [|x l IH]; intros s Hf Hs; cbn; [eauto|].
  destruct (Hf s x (or_introl eq_refl) Hs) as (s1 & E & H1). rewrite E; cbn.
  apply IH; [|assumption]. intros; apply Hf; [right|]; assumption.
Qed.

Lemma foldM_ret {A S} (f : S -> A -> outcome S) (g : S -> A -> S) l :
  forall s, (forall s x, In x l -> f s x = Ret (g s x)) -> foldM f l s = Ret (fold_left g l s).
Proof.
  induction l as [|x l IH]; intros s Hf; cbn; [reflexivity|].
  rewrite Hf by (left; reflexivity); cbn. apply IH. intros; apply Hf; right; assumption.
Qed.

Lemma foldM_ext {A S} (f g : S -> A -> outcome S) l :
  (forall s x, In x l -> f s x = g s x) -> forall s, foldM f l s = foldM g l s.
Proof.
  induction l as [|x l IH]; intros Hf s; cbn; [reflexivity|].
  rewrite Hf by (left; reflexivity). destruct (g s x); cbn; [|reflexivity].
  apply IH. intros; apply Hf; right; assumption.
Qed.

Lemma mapM_length {A B} (f : A -> outcome B) l ys : mapM f l = Ret ys -> length ys = length l.
Proof.
  revert ys; induction l as [|x l IH]; intros ys H; cbn in H.
  - injection H as <-; reflexivity.
  - binv H. binv H. injection H as <-. cbn. f_equal. auto.
Qed.

Lemma mapM_Forall2 {A B} (f : A -> outcome B) l ys :
  mapM f l = Ret ys <-> Forall2 (fun x y => f x = Ret y) l ys.
Proof.
  revert ys; induction l as [|x l IH]; intros ys; cbn; split; intros H.
  - injection H as <-; constructor.
  - inversion H; reflexivity.
  - binv H. binv H. injection H as <-. constructor; [assumption|]. apply IH; assumption.
  - inversion H as [|? y ? ys' Hy Hys]; subst. rewrite Hy; cbn.
    apply IH in Hys. rewrite Hys. reflexivity.
Qed.

Lemma mapM_total {A B} (f : A -> outcome B) (g : A -> B) l :
  (forall x, In x l -> f x = Ret (g x)) -> mapM f l = Ret (map g l).
Proof.
  induction l as [|x l IH]; intros H; cbn; [reflexivity|].
  rewrite H by (left; reflexivity); cbn. rewrite IH by (intros; apply H; right; assumption).
  reflexivity.
Qed.

(* ------------------------------------------------------------------------- *)
(** * Machine arithmetic *)

Lemma add_ok w p a b : a + b < 2 ^ w -> add_ w p a b = Ret (a + b).
Proof. intros H. unfold add_. apply N.ltb_lt in H. rewrite H. reflexivity. Qed.
Lemma sub_ok w p a b : b <= a -> sub_ w p a b = Ret (a - b).
Proof. intros H. unfold sub_. apply N.leb_le in H. rewrite H. reflexivity. Qed.
Lemma mul_ok w p a b : a * b < 2 ^ w -> mul_ w p a b = Ret (a * b).
Proof. intros H. unfold mul_. apply N.ltb_lt in H. rewrite H. reflexivity. Qed.
Lemma shl_ok w p a s : s < w -> shl_ w p a s = Ret (N.shiftl a s mod 2 ^ w).
Proof. intros H. unfold shl_. apply N.ltb_lt in H. rewrite H. reflexivity. Qed.
Lemma shr_ok w p a s : s < w -> shr_ w p a s = Ret (N.shiftr a s).
Proof. intros H. unfold shr_. apply N.ltb_lt in H. rewrite H. reflexivity. Qed.
Lemma shl1_ok w p s : s < w -> shl_ w p 1 s = Ret (2 ^ s).
Proof.
  intros H. rewrite shl_ok by assumption. rewrite N.shiftl_1_l.
  rewrite N.mod_small; [reflexivity|]. apply N.pow_lt_mono_r; lia.
Qed.
Lemma shl1_ok' w p s : s < w -> shl_ w p 1 s = Ret (N.shiftl 1 s).
Proof. intros H. rewrite N.shiftl_1_l. apply shl1_ok; assumption. Qed.

(* what Release computes *)
Lemma add_release w a b : add_ w Release a b = Ret ((a + b) mod 2 ^ w).
Proof.
  unfold add_. destruct (a + b <? 2 ^ w) eqn:E; [|reflexivity].
  apply N.ltb_lt in E. rewrite N.mod_small by assumption. reflexivity.
Qed.
Lemma mul_release w a b : mul_ w Release a b = Ret ((a * b) mod 2 ^ w).
Proof.
  unfold mul_. destruct (a * b <? 2 ^ w) eqn:E; [|reflexivity].
  apply N.ltb_lt in E. rewrite N.mod_small by assumption. reflexivity.
Qed.
Lemma add_debug w a b r : add_ w Debug a b = Ret r -> r = a + b /\ a + b < 2 ^ w.
Proof.
  unfold add_. destruct (a + b <? 2 ^ w) eqn:E; cbn; intros H; [|discriminate].
  injection H as <-. apply N.ltb_lt in E. auto.
Qed.
Lemma mul_debug w a b r : mul_ w Debug a b = Ret r -> r = a * b /\ a * b < 2 ^ w.
Proof.
  unfold mul_. destruct (a * b <? 2 ^ w) eqn:E; cbn; intros H; [|discriminate].
  injection H as <-. apply N.ltb_lt in E. auto.
Qed.
Lemma sub_debug w a b r : sub_ w Debug a b = Ret r -> r = a - b /\ b <= a.
Proof.
  unfold sub_. destruct (b <=? a) eqn:E; cbn; intros H; [|discriminate].
  injection H as <-. apply N.leb_le in E. auto.
Qed.
Lemma add_bound w p a b r : add_ w p a b = Ret r -> r < 2 ^ w.
Proof.
  destruct p; intros H.
  - apply add_debug in H. lia.
  - rewrite add_release in H. injection H as <-. apply N.mod_lt, N.pow_nonzero; lia.
Qed.
Lemma mul_bound w p a b r : mul_ w p a b = Ret r -> r < 2 ^ w.
Proof.
  destruct p; intros H.
  - apply mul_debug in H. lia.
  - rewrite mul_release in H. injection H as <-. apply N.mod_lt, N.pow_nonzero; lia.
Qed.

Lemma trunc_small w a : a < 2 ^ w -> trunc w a = a.
Proof. apply N.mod_small. Qed.

(* ------------------------------------------------------------------------- *)
(** * Lists *)

Lemma get_ret {A} (l : list A) i a : get l i = Ret a <-> nth_error l i = Some a.
Proof. unfold get. destruct (nth_error l i); split; congruence. Qed.
Lemma get_nth {A} (l : list A) i d : (i < length l)%nat -> get l i = Ret (nth i l d).
Proof. intros H. apply get_ret. apply nth_error_nth'; assumption. Qed.
Lemma get_bound {A} (l : list A) i a : get l i = Ret a -> (i < length l)%nat.
Proof. rewrite get_ret. intros H. apply nth_error_Some. congruence. Qed.

Lemma set_nth_length {A} (l : list A) i v : length (set_nth l i v) = length l.
Proof. revert i; induction l as [|x l IH]; intros [|i]; cbn; auto. Qed.
Lemma set_nth_same {A} (l : list A) i v : (i < length l)%nat -> nth_error (set_nth l i v) i = Some v.
Proof.
  revert i; induction l as [|x l IH]; intros [|i]; cbn; intros H; try lia; [reflexivity|].
  apply IH; lia.
Qed.
Lemma set_nth_other {A} (l : list A) i j v : i <> j -> nth_error (set_nth l i v) j = nth_error l j.
Proof.
  revert i j; induction l as [|x l IH]; intros [|i] [|j]; cbn; intros H; try reflexivity; try lia.
  apply IH; lia.
Qed.
Lemma nth_set_nth {A} (l : list A) i j v d :
  (i < length l)%nat -> nth j (set_nth l i v) d = if (j =? i)%nat then v else nth j l d.
Proof.
  revert i j; induction l as [|x l IH]; intros [|i] [|j]; cbn; intros H; try reflexivity; try lia.
  apply IH; lia.
Qed.
Lemma upd_ret {A} (l : list A) i v l' :
  upd l i v = Ret l' -> (i < length l)%nat /\ l' = set_nth l i v.
Proof.
  unfold upd. destruct (i <? length l)%nat eqn:E; intros H; [|discriminate].
  injection H as <-. apply Nat.ltb_lt in E. auto.
Qed.
Lemma upd_ok {A} (l : list A) i v : (i < length l)%nat -> upd l i v = Ret (set_nth l i v).
Proof. intros H. unfold upd. apply Nat.ltb_lt in H. rewrite H. reflexivity. Qed.
Lemma updf_ret {A} (l : list A) i f l' :
  updf l i f = Ret l' ->
  exists x y, nth_error l i = Some x /\ f x = Ret y /\ l' = set_nth l i y /\ (i < length l)%nat.
Proof.
  unfold updf. intros H. binv H. binv H. apply upd_ret in H as [H ->].
  apply get_ret in E. eauto 6.
Qed.
Lemma updf_ok {A} (l : list A) i f x y :
  nth_error l i = Some x -> f x = Ret y -> updf l i f = Ret (set_nth l i y).
Proof.
  intros Hx Hy. unfold updf. rewrite (proj2 (get_ret _ _ _) Hx); cbn. rewrite Hy; cbn.
  apply upd_ok. apply nth_error_Some. congruence.
Qed.

Lemma nseq_length a n : length (nseq a n) = n.
Proof. revert a; induction n as [|n IH]; intros a; cbn; auto. Qed.
Lemma nseq_In a n x : In x (nseq a n) <-> a <= x < a + N.of_nat n.
Proof.
  revert a; induction n as [|n IH]; intros a; cbn [nseq In].
  - split; [tauto|lia].
  - rewrite IH. lia.
Qed.
Lemma nseq_map a n : nseq a n = map (fun i => a + N.of_nat i) (seq 0 n).
Proof.
  revert a; induction n as [|n IH]; intros a; cbn [nseq seq map]; [reflexivity|].
  f_equal; [lia|]. rewrite IH. rewrite <- seq_shift, map_map. apply map_ext. intros; lia.
Qed.
Lemma nseq_NoDup a n : NoDup (nseq a n).
Proof.
  rewrite nseq_map. apply FinFun.Injective_map_NoDup; [|apply seq_NoDup].
  intros x y H. lia.
Qed.
Lemma nseq_nth a n i : (i < n)%nat -> nth_error (nseq a n) i = Some (a + N.of_nat i).
Proof.
  revert a i; induction n as [|n IH]; intros a [|i] H; cbn [nseq nth_error]; try lia.
  - f_equal; lia.
  - rewrite IH by lia. f_equal; lia.
Qed.

Lemma forallb_In {A} (f : A -> bool) l : forallb f l = true -> forall x, In x l -> f x = true.
Proof. intros H. apply forallb_forall. exact H. Qed.

(* ------------------------------------------------------------------------- *)
(** * Tables *)

Lemma table_from_find {A} (l : list A) i t j :
  PositiveMap.find (N.succ_pos j) (table_from l i t) =
  if (i <=? j) && (j <? i + N.of_nat (length l)) then nth_error l (N.to_nat (j - i))
  else PositiveMap.find (N.succ_pos j) t.
Proof.
  revert i t; induction l as [|x l IH]; intros i t; cbn [table_from length].
  - destruct (N.leb_spec i j), (N.ltb_spec j (i + N.of_nat 0)); cbn; try reflexivity; lia.
  - rewrite IH.
    destruct (N.leb_spec (N.succ i) j), (N.ltb_spec j (N.succ i + N.of_nat (length l))),
      (N.leb_spec i j), (N.ltb_spec j (i + N.of_nat (S (length l)))); cbn [andb]; try lia;
      try (rewrite PositiveMap.gso; [reflexivity|]; intros E;
           apply (f_equal Npos) in E; rewrite !N.succ_pos_spec in E; lia).
    + replace (N.to_nat (j - i)) with (S (N.to_nat (j - N.succ i))) by lia. reflexivity.
    + assert (i = j) by lia; subst j. rewrite PositiveMap.gss.
      rewrite N.sub_diag. reflexivity.
Qed.

Lemma table_get_spec {A} (l : list A) i : table_get (table_of l) i = nth_error l (N.to_nat i).
Proof.
  unfold table_get, table_of. rewrite table_from_find.
  rewrite N.sub_0_r. cbn [N.leb N.compare andb].
  destruct (N.ltb_spec i (0 + N.of_nat (length l))) as [H|H].
  - destruct (0 <=? i) eqn:E; [reflexivity|]. apply N.leb_gt in E; lia.
  - rewrite andb_false_r. rewrite PositiveMap.gempty.
    symmetry. apply nth_error_None. lia.
Qed.

(* ------------------------------------------------------------------------- *)
(** * Bits *)

Lemma pow2_nonzero n : 2 ^ n <> 0.
Proof. apply N.pow_nonzero; lia. Qed.
Lemma pow2_pos n : 0 < 2 ^ n.
Proof. apply N.neq_0_lt_0, pow2_nonzero. Qed.

Lemma land_bit_zero m i : (N.land m (N.shiftl 1 i) =? 0) = negb (N.testbit m i).
Proof.
  rewrite N.shiftl_1_l.
  destruct (N.testbit m i) eqn:E; cbn [negb].
  - apply N.eqb_neq. intros H.
    assert (T : N.testbit (N.land m (2 ^ i)) i = true)
      by (rewrite N.land_spec, E, N.pow2_bits_true; reflexivity).
    rewrite H, N.bits_0 in T. discriminate.
  - apply N.eqb_eq. apply N.bits_inj_0. intros k. rewrite N.land_spec.
    destruct (N.eq_dec i k) as [->|Hne].
    + rewrite E; reflexivity.
    + rewrite N.pow2_bits_false by congruence. apply andb_false_r.
Qed.
