(* Facts about lists, counting and choosing used by the proofs. *)
From Verif Require Import Base BaseProofs SpecPoker.
From Coq Require Import Permutation.

(* ------------------------------------------------------------------------- *)
(** * choose *)

Lemma choose_0 {A} (l : list A) : choose 0 l = [[]].
Proof. destruct l; reflexivity. Qed.

Lemma choose_length {A} (l : list A) : forall k s, In s (choose k l) -> length s = k.
Proof.
  induction l as [|x l IH]; intros [|k] s H; cbn in H.
  - destruct H as [<-|[]]; reflexivity.
  - destruct H.
  - destruct H as [<-|[]]; reflexivity.
  - apply in_app_or in H as [H|H].
    + apply in_map_iff in H as (t & <- & H). cbn. f_equal. auto.
    + auto.
Qed.

Lemma choose_incl {A} (l : list A) : forall k s, In s (choose k l) -> incl s l.
Proof.
  induction l as [|x l IH]; intros [|k] s H; cbn in H.
  - destruct H as [<-|[]]; intros y [].
  - destruct H.
  - destruct H as [<-|[]]; intros y [].
  - apply in_app_or in H as [H|H].
    + apply in_map_iff in H as (t & <- & H). intros y [->|Hy]; [left; reflexivity|right].
      exact (IH _ _ H _ Hy).
    + intros y Hy. right. exact (IH _ _ H _ Hy).
Qed.

Lemma choose_NoDup {A} (l : list A) : forall k s, NoDup l -> In s (choose k l) -> NoDup s.
Proof.
  induction l as [|x l IH]; intros [|k] s Hn H; cbn in H.
  - destruct H as [<-|[]]; constructor.
  - destruct H.
  - destruct H as [<-|[]]; constructor.
  - inversion Hn; subst. apply in_app_or in H as [H|H].
    + apply in_map_iff in H as (t & <- & H). constructor; [|eauto].
      intros Hx. apply (choose_incl _ _ _ H) in Hx. contradiction.
    + eauto.
Qed.

Lemma choose_nonempty {A} (l : list A) : forall k, (k <= length l)%nat -> choose k l <> [].
Proof.
  induction l as [|x l IH]; intros [|k] H; cbn in *; try discriminate; [lia|].
  intros E. apply app_eq_nil in E as [E _]. apply map_eq_nil in E. apply (IH k); [lia|assumption].
Qed.

Lemma choose_all {A} (l : list A) : choose (length l) l = [l].
Proof.
  assert (Hbig : forall (l : list A) k, (length l < k)%nat -> choose k l = []).
  { induction l0 as [|y l0 IH]; intros [|k] H; cbn in *; try lia; try reflexivity.
    rewrite (IH k) by lia. rewrite (IH (S k)) by lia. reflexivity. }
  induction l as [|x l IH]; [reflexivity|].
  cbn. rewrite IH. rewrite Hbig by lia. reflexivity.
Qed.

Lemma choose_map {A B} (f : A -> B) (l : list A) : forall k,
  choose k (map f l) = map (map f) (choose k l).
Proof.
  induction l as [|x l IH]; intros [|k]; cbn; try reflexivity.
  rewrite map_app, !map_map. rewrite IH, map_map. f_equal.
  change (map (map f) (choose (S k) l)) with (map (map f) (choose (S k) l)).
  rewrite <- IH. destruct l; reflexivity.
Qed.

Lemma choose_perm {A} (l l' : list A) : Permutation l l' -> forall k s,
  In s (choose k l) -> exists s', In s' (choose k l') /\ Permutation s s'.
Proof.
  intros HP. induction HP as [|x l l' HP IH|x y l|l1 l2 l3 H1 IH1 H2 IH2]; intros k s Hs.
  - eauto.
  - destruct k as [|k].
    { rewrite choose_0 in *. destruct Hs as [<-|[]]. exists []. split; [left|]; auto. }
    cbn in Hs. apply in_app_or in Hs as [Hs|Hs].
    + apply in_map_iff in Hs as (t & <- & Ht). destruct (IH _ _ Ht) as (t' & Ht' & Hp).
      exists (x :: t'). split; [|constructor; assumption].
      cbn. apply in_or_app; left. apply in_map; assumption.
    + destruct (IH _ _ Hs) as (t' & Ht' & Hp). exists t'. split; [|assumption].
      cbn. apply in_or_app; right; assumption.
  - destruct k as [|k].
    { rewrite choose_0 in *. destruct Hs as [<-|[]]. exists []. split; [left|]; auto. }
    destruct k as [|k].
    + cbn in Hs. rewrite !choose_0 in Hs. cbn in Hs.
      exists s. split; [|apply Permutation_refl]. cbn. rewrite choose_0. cbn. tauto.
    + cbn in Hs. rewrite map_app, !in_app_iff in Hs.
      destruct Hs as [[Hs|Hs]|[Hs|Hs]].
      * rewrite map_map in Hs. apply in_map_iff in Hs as (t & <- & Ht).
        exists (x :: y :: t). split; [|apply perm_swap].
        cbn. rewrite map_app, !in_app_iff. left; left. rewrite map_map. apply in_map_iff. eauto.
      * apply in_map_iff in Hs as (t & <- & Ht). exists (y :: t). split; [|apply Permutation_refl].
        cbn. rewrite map_app, !in_app_iff. right; left. apply in_map; assumption.
      * apply in_map_iff in Hs as (t & <- & Ht). exists (x :: t). split; [|apply Permutation_refl].
        cbn. rewrite map_app, !in_app_iff. left; right. apply in_map; assumption.
      * exists s. split; [|apply Permutation_refl].
        cbn. rewrite map_app, !in_app_iff. right; right. assumption.
  - destruct (IH1 _ _ Hs) as (s' & Hs' & Hp). destruct (IH2 _ _ Hs') as (s'' & Hs'' & Hp').
    exists s''. split; [assumption|]. eapply Permutation_trans; eassumption.
Qed.

Lemma choose_filter {A} (f : A -> bool) (l : list A) :
  In (filter f l) (choose (length (filter f l)) l).
Proof.
  induction l as [|x l IH]; cbn [filter]; [left; reflexivity|].
  destruct (f x); cbn [length choose].
  - apply in_or_app; left. apply in_map; assumption.
  - destruct (length (filter f l)) eqn:E.
    + apply length_zero_iff_nil in E. rewrite E. left; reflexivity.
    + apply in_or_app; right. assumption.
Qed.

(* a chosen sublist all of whose elements satisfy f is chosen from the filtered list *)
Lemma choose_filter_in {A} (f : A -> bool) (l : list A) : forall k s,
  In s (choose k l) -> forallb f s = true -> In s (choose k (filter f l)).
Proof.
  induction l as [|x l IH]; intros [|k] s H Hf; cbn in H.
  - destruct H as [<-|[]]; left; reflexivity.
  - destruct H.
  - destruct H as [<-|[]]. rewrite choose_0. left; reflexivity.
  - apply in_app_or in H as [H|H].
    + apply in_map_iff in H as (t & <- & H). cbn [forallb] in Hf.
      apply andb_true_iff in Hf as [Hx Hf]. cbn [filter]. rewrite Hx.
      cbn. apply in_or_app; left. apply in_map. auto.
    + cbn [filter]. destruct (f x).
      * cbn. apply in_or_app; right. auto.
      * auto.
Qed.

Lemma choose_of_filter {A} (f : A -> bool) (l : list A) : forall k s,
  In s (choose k (filter f l)) -> In s (choose k l).
Proof.
  induction l as [|x l IH]; intros k s H; [assumption|].
  cbn [filter] in H. destruct (f x).
  - destruct k as [|k]; [rewrite choose_0 in *; assumption|].
    cbn in H |- *. apply in_app_or in H. apply in_or_app. destruct H as [H|H].
    + left. apply in_map_iff in H as (t & <- & H). apply in_map. auto.
    + right. auto.
  - destruct k as [|k]; [rewrite choose_0 in *; assumption|].
    cbn. apply in_or_app; right. auto.
Qed.

Lemma choose_app {A} (l1 l2 : list A) : forall k s, In s (choose k (l1 ++ l2)) ->
  exists i s1 s2, s = s1 ++ s2 /\ (i <= k)%nat /\ In s1 (choose i l1) /\ In s2 (choose (k - i) l2).
Proof.
  induction l1 as [|x l1 IH]; intros k s H.
  - exists 0%nat, [], s. cbn. rewrite Nat.sub_0_r. repeat split; auto; lia.
  - destruct k as [|k].
    + cbn in H. destruct H as [<-|[]]. exists 0%nat, [], []. cbn. rewrite choose_0.
      repeat split; auto; left; auto.
    + cbn in H. apply in_app_or in H as [H|H].
      * apply in_map_iff in H as (t & <- & H). apply IH in H as (i & s1 & s2 & -> & Hi & H1 & H2).
        exists (S i), (x :: s1), s2. repeat split; [lia| |].
        -- cbn. apply in_or_app; left. apply in_map; assumption.
        -- replace (S k - S i)%nat with (k - i)%nat by lia. assumption.
      * apply IH in H as (i & s1 & s2 & -> & Hi & H1 & H2).
        exists i, s1, s2. repeat split; try assumption.
        destruct i; [left; rewrite choose_0 in H1; destruct H1 as [<-|[]]; reflexivity|].
        cbn. apply in_or_app; right; assumption.
Qed.

Lemma choose_repeat {A} (x : A) n : forall i s, In s (choose i (repeat x n)) ->
  s = repeat x i /\ (i <= n)%nat.
Proof.
  induction n as [|n IH]; intros [|i] s H; cbn in H.
  - destruct H as [<-|[]]; split; [reflexivity|lia].
  - destruct H.
  - destruct H as [<-|[]]; split; [reflexivity|lia].
  - apply in_app_or in H as [H|H].
    + apply in_map_iff in H as (t & <- & H). apply IH in H as [-> H]. split; [reflexivity|lia].
    + apply IH in H as [-> H]. split; [reflexivity|lia].
Qed.

(* ------------------------------------------------------------------------- *)
(** * Counting *)

Lemma count_occ_filter (l : list N) r :
  count_occ N.eq_dec l r = length (filter (fun x => N.eqb x r) l).
Proof.
  induction l as [|x l IH]; cbn; [reflexivity|].
  destruct (N.eq_dec x r) as [->|Hne].
  - rewrite N.eqb_refl. cbn. congruence.
  - apply N.eqb_neq in Hne. rewrite Hne. assumption.
Qed.

Lemma filter_map_swap {A B} (f : A -> B) (g : B -> bool) (l : list A) :
  filter g (map f l) = map f (filter (fun x => g (f x)) l).
Proof.
  induction l as [|x l IH]; cbn; [reflexivity|]. destruct (g (f x)); cbn; congruence.
Qed.

Lemma count_occ_map (f : N -> N) l r :
  count_occ N.eq_dec (map f l) r = length (filter (fun x => N.eqb (f x) r) l).
Proof. rewrite count_occ_filter, filter_map_swap, map_length. reflexivity. Qed.

Lemma count_occ_flat_repeat (rs : list N) (f : N -> nat) x : NoDup rs ->
  count_occ N.eq_dec (flat_map (fun r => repeat r (f r)) rs) x =
  if in_dec N.eq_dec x rs then f x else 0%nat.
Proof.
  induction rs as [|r rs IH]; intros Hn; [reflexivity|].
  inversion Hn as [|? ? Hr Hn']; subst. cbn [flat_map]. rewrite count_occ_app, IH by assumption.
  destruct (N.eq_dec r x) as [->|Hne].
  - assert (Hrep : forall n, count_occ N.eq_dec (repeat x n) x = n).
    { induction n as [|n IHn]; cbn; [reflexivity|]. destruct (N.eq_dec x x); congruence. }
    rewrite Hrep. destruct (in_dec N.eq_dec x rs) as [|Hno]; [contradiction|].
    destruct (in_dec N.eq_dec x (x :: rs)) as [|Hni]; [lia|]. exfalso; apply Hni; left; reflexivity.
  - assert (Hrep : forall n, count_occ N.eq_dec (repeat r n) x = 0%nat).
    { induction n as [|n IHn]; cbn; [reflexivity|]. destruct (N.eq_dec r x); congruence. }
    rewrite Hrep. cbn [plus].
    destruct (in_dec N.eq_dec x rs) as [i|n], (in_dec N.eq_dec x (r :: rs)) as [i'|n']; try reflexivity.
    + exfalso; apply n'; right; assumption.
    + destruct i' as [->|i']; [congruence|contradiction].
Qed.

Lemma filter_length_le {A} (f : A -> bool) l : (length (filter f l) <= length l)%nat.
Proof. induction l as [|x l IH]; cbn; [lia|]. destruct (f x); cbn; lia. Qed.

Lemma choose_nsub {A} (l : list A) : forall k s, In s (choose k l) -> (k <= length l)%nat.
Proof.
  induction l as [|x l IH]; intros [|k] s H; cbn in H; cbn; try lia.
  apply in_app_or in H as [H|H].
  - apply in_map_iff in H as (t & <- & H). apply IH in H. lia.
  - apply IH in H. lia.
Qed.

Lemma count_occ_bound {A} (dec : forall a b : A, {a = b} + {a <> b}) x l :
  (count_occ dec l x <= length l)%nat.
Proof. induction l as [|y l IH]; cbn; [lia|]. destruct (dec y x); lia. Qed.

Lemma NoDup_app_intro {A} (l l' : list A) : NoDup l -> NoDup l' -> (forall x, In x l -> ~ In x l') ->
  NoDup (l ++ l').
Proof.
  induction l as [|x l IH]; intros H1 H2 H; cbn; [assumption|]. inversion H1; subst. constructor.
  - rewrite in_app_iff. intros [Hx|Hx]; [contradiction|]. apply (H x); [left; reflexivity|assumption].
  - apply IH; try assumption. intros y Hy. apply H. right; assumption.
Qed.
