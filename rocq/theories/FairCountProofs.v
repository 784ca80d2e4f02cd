(* Steps permute the legal choices; sequences of cards are equally likely; sums over all
   samples are multiples of the sums over deals and boards. *)
From Verif Require Import Base BaseProofs SumFacts Float64 Hand FastDivide Range Combined Sim Approx SpecPoker ListFacts PokerFacts
  SpecNames SpecHand SpecRange SpecEquity SpecResults SpecRun SpecApprox SpecFair CombinedProofs MachineProofs WalkProofs FairProofs FairWalkProofs.
From Coq Require Import Permutation.
Local Open Scope N_scope.

(* ------------------------------------------------------------------------- *)
(** * A step is a permutation *)

Lemma find_least {A} (f : A -> bool) (g : nat -> A) n : forall a, (exists k, (a <= k < a + n)%nat /\ f (g k) = true) ->
  exists k, (a <= k < a + n)%nat /\ find f (map g (seq a n)) = Some (g k) /\ f (g k) = true /\ forall k', (a <= k' < k)%nat -> f (g k') = false.
Proof.
  induction n as [|n IH]; intros a (k & Hk & Ht); [lia|]. cbn [seq map find]. destruct (f (g a)) eqn:Ea.
  - exists a. split; [lia|]. split; [reflexivity|]. split; [exact Ea|]. intros k' Hk'. lia.
  - destruct (IH (S a)) as (k1 & K1 & K2 & K3 & K4).
    + exists k. split; [|exact Ht]. assert (k <> a) by (intros ->; congruence). lia.
    + exists k1. split; [lia|]. split; [exact K2|]. split; [exact K3|]. intros k' Hk'. destruct (Nat.eq_dec k' a) as [->|Hne]; [exact Ea|]. apply K4. lia.
Qed.
Lemma mod_down sz j k : (j < sz)%nat -> (1 <= k <= sz)%nat -> ((j + sz - k) mod sz = down sz j k)%nat.
Proof.
  intros Hj Hk. unfold down. destruct (Nat.leb_spec k j) as [H|H]; [|apply Nat.mod_small; lia].
  replace (j + sz - k)%nat with (j - k + 1 * sz)%nat by lia. rewrite Nat.mod_add by lia. apply Nat.mod_small. lia.
Qed.
Lemma set_nth_twice {A} (l : list A) i x y : set_nth (set_nth l i x) i y = set_nth l i y.
Proof. revert i. induction l as [|a l IH]; intros [|i]; cbn [set_nth]; [reflexivity..|]. f_equal. apply IH. Qed.

Section Step.
  Variable m : simulator.
  Variable board dead : N.
  Variable i : nat.
  Variable cr : crange.
  Hypothesis Hcr : nth_error (m_combined m) i = Some cr.
  Notation legal := (legal_choice m board dead).
  Notation L := (legal_choices m board dead).
  Notation size := (length (cr_combos cr)).

  Lemma legal_in v : In v L -> exists j, nth_error v i = Some j /\ (j < size)%nat /\ (i < length v)%nat.
  Proof.
    intros H. apply filter_In in H as [H _]. apply choices_in in H as [Hl H]. assert (Hi : (i < length v)%nat) by (rewrite Hl; apply nth_error_Some; congruence).
    destruct (nth_error v i) as [j|] eqn:E; [|apply nth_error_None in E; lia]. exists j. split; [reflexivity|]. split; [exact (H i cr j Hcr E)|exact Hi].
  Qed.
  Lemma legal_set v x : In v L -> (x < size)%nat -> legal (set_nth v i x) = true -> In (set_nth v i x) L.
  Proof.
    intros H Hx Ht. apply filter_In. split; [|exact Ht]. destruct (legal_in v H) as (j & _ & _ & Hi). apply filter_In in H as [H _]. apply choices_in in H as [Hl H].
    apply choices_in. rewrite set_nth_length. split; [exact Hl|]. intros i1 cr1 j1 E1 E2. destruct (Nat.eq_dec i i1) as [<-|Hne].
    - rewrite set_nth_same in E2 by exact Hi. inversion E2; subst j1. rewrite Hcr in E1. inversion E1; subst cr1. exact Hx.
    - rewrite set_nth_other in E2 by exact Hne. exact (H i1 cr1 j1 E1 E2).
  Qed.
  Lemma step_form v j : In v L -> nth_error v i = Some j -> exists k, (1 <= k <= size)%nat /\ step_choice m board dead v i = set_nth v i (down size j k) /\
    legal (set_nth v i (down size j k)) = true /\ forall k', (1 <= k' < k)%nat -> legal (set_nth v i (down size j k')) = false.
  Proof.
    intros H Ej. destruct (legal_in v H) as (j0 & Ej0 & Hj & Hi). rewrite Ej in Ej0. inversion Ej0; subst j0. clear Ej0.
    assert (Hmod : forall k, (1 <= k <= size)%nat -> ((j + size - k) mod size = down size j k)%nat) by (intros k Hk; apply mod_down; [exact Hj|exact Hk]).
    destruct (find_least legal (fun k => set_nth v i ((j + size - k) mod size)%nat) size 1%nat) as (k & K1 & K2 & K3 & K4).
    { exists size. split; [lia|]. rewrite Hmod by lia. replace (down size j size) with j by (unfold down; destruct (Nat.leb_spec size j); lia).
      rewrite set_nth_id by exact Ej. apply filter_In in H. apply H. }
    assert (Hk : (1 <= k <= size)%nat) by lia. exists k. split; [exact Hk|]. unfold step_choice. rewrite Hcr, Ej. cbv zeta. rewrite K2. cbv beta in *. rewrite (Hmod k Hk) in *.
    split; [reflexivity|]. split; [exact K3|]. intros k' Hk'. rewrite <- (Hmod k') by lia. apply K4. lia.
  Qed.
  Lemma step_in v : In v L -> In (step_choice m board dead v i) L.
  Proof.
    intros H. destruct (legal_in v H) as (j & Ej & Hj & Hi). destruct (step_form v j H Ej) as (k & Hk & -> & Ht & _). apply legal_set; [exact H| |exact Ht].
    unfold down. destruct (Nat.leb_spec k j); lia.
  Qed.
  Lemma step_inj v1 v2 : In v1 L -> In v2 L -> step_choice m board dead v1 i = step_choice m board dead v2 i -> v1 = v2.
  Proof.
    assert (Hle : forall v1 v2 j1 j2 k1 k2, In v1 L -> In v2 L -> nth_error v1 i = Some j1 -> nth_error v2 i = Some j2 -> (j1 < size)%nat -> (j2 < size)%nat ->
      (1 <= k1 <= k2)%nat -> (k2 <= size)%nat -> set_nth v1 i (down size j1 k1) = set_nth v2 i (down size j2 k2) -> down size j1 k1 = down size j2 k2 ->
      (forall k', (1 <= k' < k2)%nat -> legal (set_nth v2 i (down size j2 k')) = false) -> v1 = v2).
    { clear v1 v2. intros v1 v2 j1 j2 k1 k2 H1 H2 E1 E2 Hj1 Hj2 Hk Hk2 E Ed Hmin.
      assert (Ev : v1 = set_nth v2 i j1).
      { rewrite <- (set_nth_id v1 i j1 E1). rewrite <- (set_nth_twice v1 i (down size j1 k1) j1), E, set_nth_twice. reflexivity. }
      destruct (Nat.eq_dec k1 k2) as [<-|Hne].
      - assert (j1 = j2) by (unfold down in Ed; destruct (Nat.leb_spec k1 j1), (Nat.leb_spec k1 j2); lia). subst j2. rewrite Ev. apply set_nth_id. exact E2.
      - exfalso. specialize (Hmin (k2 - k1)%nat ltac:(lia)).
        replace (down size j2 (k2 - k1)) with j1 in Hmin by (unfold down in *; destruct (Nat.leb_spec k1 j1), (Nat.leb_spec k2 j2), (Nat.leb_spec (k2 - k1) j2); lia).
        rewrite <- Ev in Hmin. apply filter_In in H1 as [_ H1]. congruence. }
    intros H1 H2 E. destruct (legal_in v1 H1) as (j1 & E1 & Hj1 & Hi1). destruct (legal_in v2 H2) as (j2 & E2 & Hj2 & Hi2).
    destruct (step_form v1 j1 H1 E1) as (k1 & Hk1 & F1 & _ & M1). destruct (step_form v2 j2 H2 E2) as (k2 & Hk2 & F2 & _ & M2). rewrite F1, F2 in E.
    assert (Ed : down size j1 k1 = down size j2 k2).
    { assert (nth_error (set_nth v1 i (down size j1 k1)) i = nth_error (set_nth v2 i (down size j2 k2)) i) by (rewrite E; reflexivity). rewrite !set_nth_same in H by assumption. congruence. }
    destruct (Nat.le_ge_cases k1 k2) as [Hle12|Hle21].
    - apply (Hle v1 v2 j1 j2 k1 k2); auto; lia.
    - symmetry. apply (Hle v2 v1 j2 j1 k2 k1); auto; lia.
  Qed.
  Lemma step_perm : Permutation (map (fun v => step_choice m board dead v i) L) L.
  Proof.
    assert (Hnd : NoDup L) by (apply NoDup_filter, choices_NoDup).
    apply NoDup_Permutation_bis.
    - assert (H : forall l, incl l L -> NoDup l -> NoDup (map (fun v => step_choice m board dead v i) l)).
      { intros l Hincl Hl. induction Hl as [|v l Hv _ IH]; cbn [map]; constructor.
        - intros Hin. apply in_map_iff in Hin as (v' & E & Hv'). apply Hv. rewrite (step_inj v v'); [exact Hv'|apply Hincl; left; reflexivity|apply Hincl; right; exact Hv'|symmetry; exact E].
        - apply IH. intros x Hx. apply Hincl. right. exact Hx. }
      apply H; [apply incl_refl|exact Hnd].
    - rewrite map_length. apply Nat.le_refl.
    - intros v Hv. apply in_map_iff in Hv as (v' & <- & Hv'). apply step_in. exact Hv'.
  Qed.
End Step.

Lemma walk_perm m board dead is : Forall (fun i => (i < length (m_combined m))%nat) is ->
  Permutation (map (fun v => walk_choice m board dead v is) (legal_choices m board dead)) (legal_choices m board dead).
Proof.
  intros H. unfold walk_choice. induction is as [|i is IH]; cbn [fold_left]; [rewrite map_id; reflexivity|]. inversion H as [|? ? Hi H']; subst.
  destruct (nth_error (m_combined m) i) as [cr|] eqn:E; [|apply nth_error_None in E; lia].
  transitivity (map (fun v => fold_left (step_choice m board dead) is v) (map (fun v => step_choice m board dead v i) (legal_choices m board dead))); [rewrite map_map; reflexivity|].
  rewrite (step_perm m board dead i cr E). apply IH. exact H'.
Qed.

Lemma walk_ways m board dead t v : In v (legal_choices m board dead) ->
  length (filter (fun x => choice_eqb (walk_choice m board dead (fst x) (snd x)) v) (list_prod (legal_choices m board dead) (paths m t))) = (length (m_combined m) ^ t)%nat.
Proof.
  intros Hv. set (L := legal_choices m board dead) in *. assert (Hnd : NoDup L) by (apply NoDup_filter, choices_NoDup).
  assert (Hlen : length (paths m t) = (length (m_combined m) ^ t)%nat).
  { unfold paths. induction t as [|t IH]; [reflexivity|]. cbn [repeat picks Nat.pow]. rewrite <- IH. set (P := picks _). clearbody P.
    assert (E : forall l : list nat, length (flat_map (fun x => map (cons x) P) l) = (length l * length P)%nat).
    { induction l as [|x l IHl]; [reflexivity|]. cbn [flat_map length]. rewrite app_length, map_length, IHl. lia. }
    rewrite E, seq_length. reflexivity. }
  assert (Hp : Forall (Forall (fun i => (i < length (m_combined m))%nat)) (paths m t)).
  { apply Forall_forall. intros is His. unfold paths in His. apply picks_in in His. clear - His. remember (repeat (seq 0 (length (m_combined m))) t) as R eqn:ER.
    assert (HR : Forall (fun l => l = seq 0 (length (m_combined m))) R) by (subst R; apply Forall_forall; intros l Hl; apply repeat_spec in Hl; exact Hl). clear ER.
    induction His as [|x l is R Hx _ IH]; constructor; inversion HR as [|? ? E HR']; subst; [apply in_seq in Hx; lia|apply IH; exact HR']. }
  rewrite <- Hlen. clear Hlen. apply Nat2N.inj. rewrite <- !sumf_1_length, sumf_filter.
  assert (Esum : forall (l : list (list nat)) (P : list (list nat)) (f : list nat -> list nat -> N), sumf (fun x => f (fst x) (snd x)) (list_prod l P) = sumf (fun is => sumf (fun a => f a is) l) P).
  { intros l P f. rewrite sumf_swap. induction l as [|a l IH]; [reflexivity|]. cbn [list_prod]. rewrite sumf_app, sumf_map, IH, sumf_cons. reflexivity. }
  rewrite (Esum L (paths m t) (fun a is => if choice_eqb (walk_choice m board dead a is) v then 1 else 0)).
  apply sumf_ext. intros is His. rewrite Forall_forall in Hp. specialize (Hp is His). pose proof (walk_perm m board dead is Hp) as HPm. fold L in HPm.
  rewrite <- (sumf_map (fun a => if choice_eqb a v then 1 else 0) (fun a => walk_choice m board dead a is)). rewrite (sumf_perm _ _ _ HPm). clear - Hv Hnd.
  induction Hnd as [|x l Hx Hnd IH]; [destruct Hv|]. rewrite sumf_cons. unfold choice_eqb at 1. destruct (list_eq_dec Nat.eq_dec x v) as [->|Hne].
  - rewrite sumf_zero; [reflexivity|]. intros y Hy. unfold choice_eqb. destruct (list_eq_dec Nat.eq_dec y v) as [->|]; [contradiction|reflexivity].
  - destruct Hv as [->|Hv]; [contradiction|]. rewrite (IH Hv). reflexivity.
Qed.
