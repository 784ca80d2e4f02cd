(* Facts about the poker specification. *)
From Verif Require Import Base BaseProofs SpecPoker ListFacts.
From Coq Require Import Permutation.
Local Open Scope N_scope.

(* ------------------------------------------------------------------------- *)
(** * Lexicographic order *)

Lemma lex_refl a : lex a a = Eq.
Proof. induction a as [|x a IH]; cbn; [reflexivity|]. rewrite N.compare_refl. assumption. Qed.
Lemma lex_eq a b : lex a b = Eq <-> a = b.
Proof.
  split; [|intros ->; apply lex_refl].
  revert b; induction a as [|x a IH]; intros [|y b]; cbn; try discriminate; [reflexivity|].
  destruct (N.compare_spec x y); try discriminate. intros H0. subst. f_equal. auto.
Qed.
Lemma lex_opp a b : lex b a = CompOpp (lex a b).
Proof.
  revert b; induction a as [|x a IH]; intros [|y b]; cbn; try reflexivity.
  rewrite (N.compare_antisym x y). destruct (N.compare x y); cbn; auto.
Qed.
Lemma lex_trans_lt a b c : lex a b = Lt -> lex b c = Lt -> lex a c = Lt.
Proof.
  revert b c; induction a as [|x a IH]; intros [|y b] [|z c]; cbn; try discriminate; try reflexivity.
  destruct (N.compare_spec x y), (N.compare_spec y z); try discriminate; intros H1 H2; subst.
  - rewrite N.compare_refl. eauto.
  - apply N.compare_lt_iff in H0. rewrite H0. reflexivity.
  - apply N.compare_lt_iff in H. rewrite H. reflexivity.
  - assert (Hxz : x < z) by lia. apply N.compare_lt_iff in Hxz. rewrite Hxz. reflexivity.
Qed.
Lemma lex_nil a : lex [] a <> Gt.
Proof. destruct a; discriminate. Qed.

(* a <= b *)
Definition lle (a b : list N) : Prop := lex a b <> Gt.
Lemma lle_refl a : lle a a.
Proof. unfold lle. rewrite lex_refl. discriminate. Qed.
Lemma lle_cases a b : lle a b <-> lex a b = Lt \/ a = b.
Proof.
  unfold lle. rewrite <- (lex_eq a b). destruct (lex a b); split; intuition (try discriminate).
Qed.
Lemma lle_trans a b c : lle a b -> lle b c -> lle a c.
Proof.
  rewrite !lle_cases. intros [H1|<-] [H2|<-]; auto. left; eapply lex_trans_lt; eauto.
Qed.
Lemma lle_antisym a b : lle a b -> lle b a -> a = b.
Proof.
  rewrite !lle_cases. intros [H1|<-] [H2|H2]; auto.
  rewrite lex_opp, H1 in H2. discriminate.
Qed.
Lemma lle_total a b : lle a b \/ lle b a.
Proof. unfold lle. rewrite (lex_opp a b). destruct (lex a b); cbn; intuition discriminate. Qed.

Lemma lex_max_l a b : lle a (lex_max a b).
Proof. unfold lex_max, lle. destruct (lex a b) eqn:E; rewrite ?lex_refl, ?E; discriminate. Qed.
Lemma lex_max_r a b : lle b (lex_max a b).
Proof.
  unfold lex_max, lle. destruct (lex a b) eqn:E; rewrite ?lex_refl; try discriminate.
  - rewrite lex_opp, E. discriminate.
  - rewrite lex_opp, E. discriminate.
Qed.
Lemma lex_max_case a b : lex_max a b = a \/ lex_max a b = b.
Proof. unfold lex_max. destruct (lex a b); auto. Qed.

Definition lmax (ls : list (list N)) : list N := fold_right lex_max [] ls.

Lemma lmax_ub ls x : In x ls -> lle x (lmax ls).
Proof.
  induction ls as [|y ls IH]; cbn; [tauto|]. intros [->|H].
  - apply lex_max_l.
  - eapply lle_trans; [apply IH; assumption|apply lex_max_r].
Qed.
Lemma lmax_in ls : ls <> [] -> In (lmax ls) ls.
Proof.
  induction ls as [|y ls IH]; [congruence|]. intros _. cbn.
  destruct (lex_max_case y (fold_right lex_max [] ls)) as [E|E]; rewrite E; [left; reflexivity|].
  destruct ls as [|z ls].
  - cbn in *. unfold lex_max in E. destruct y; cbn in E; [left; reflexivity|congruence].
  - right. apply IH. discriminate.
Qed.
Lemma lmax_unique ls m : In m ls -> (forall x, In x ls -> lle x m) -> lmax ls = m.
Proof.
  intros Hm Hub. apply lle_antisym.
  - apply Hub. apply lmax_in. intros ->; destruct Hm.
  - apply lmax_ub; assumption.
Qed.
Lemma lmax_ext l1 l2 : (forall x, In x l1 <-> In x l2) -> lmax l1 = lmax l2.
Proof.
  intros H. destruct l1 as [|a l1].
  - destruct l2 as [|b l2]; [reflexivity|]. destruct (proj2 (H b)). left; reflexivity.
  - apply lmax_unique.
    + apply H. apply lmax_in. intros ->. apply (H a). left; reflexivity.
    + intros x Hx. apply lmax_ub, H. assumption.
Qed.

(* ------------------------------------------------------------------------- *)
(** * Strength depends on the set only *)

Lemma held_perm k l l' : Permutation l l' -> held k l = held k l'.
Proof.
  intros H. unfold held. apply filter_ext. intros r. unfold occurs.
  rewrite (proj1 (Permutation_count_occ N.eq_dec l l') H r). reflexivity.
Qed.
Lemma straight_top_perm l l' : Permutation l l' -> straight_top l = straight_top l'.
Proof.
  intros H. unfold straight_top. rewrite (Permutation_length H).
  destruct (Nat.eqb (length l') 5); [|reflexivity].
  assert (forall ts, find (fun t => forallb (fun r => Nat.eqb (occurs r l) 1) (straight_ranks t)) ts =
                     find (fun t => forallb (fun r => Nat.eqb (occurs r l') 1) (straight_ranks t)) ts) as Hf.
  { assert (forall t, forallb (fun r => Nat.eqb (occurs r l) 1) (straight_ranks t) =
                      forallb (fun r => Nat.eqb (occurs r l') 1) (straight_ranks t)) as He.
    { intros t. induction (straight_ranks t) as [|x xs IH]; [reflexivity|]. cbn [forallb].
      rewrite IH. unfold occurs. rewrite (proj1 (Permutation_count_occ N.eq_dec l l') H x). reflexivity. }
    induction ts as [|t ts IH]; [reflexivity|]. cbn [find]. rewrite He, IH. reflexivity. }
  apply Hf.
Qed.
Lemma strength_ranks_perm f l l' : Permutation l l' -> strength_ranks f l = strength_ranks f l'.
Proof.
  intros H. unfold strength_ranks, grouped.
  rewrite (straight_top_perm _ _ H), !(held_perm _ _ _ H). reflexivity.
Qed.

Lemma forallb_perm {A} (f : A -> bool) l l' : Permutation l l' -> forallb f l = forallb f l'.
Proof.
  induction 1 as [|x l l' HP IH|x y l|l1 l2 l3 H1 IH1 H2 IH2]; cbn; try congruence.
  rewrite !andb_assoc. f_equal. apply andb_comm.
Qed.
Lemma is_flush_perm l l' : Permutation l l' -> is_flush l = is_flush l'.
Proof.
  intros H. unfold is_flush. rewrite (Permutation_length H).
  f_equal. cbn [existsb]. rewrite !(forallb_perm _ _ _ H). reflexivity.
Qed.
Lemma strength_perm l l' : Permutation l l' -> strength l = strength l'.
Proof.
  intros H. unfold strength. rewrite (is_flush_perm _ _ H).
  apply strength_ranks_perm, Permutation_map, H.
Qed.

Lemma best_perm l l' : Permutation l l' -> best l = best l'.
Proof.
  intros H. unfold best. fold (lmax (map strength (choose (Nat.min 5 (length l)) l))).
  fold (lmax (map strength (choose (Nat.min 5 (length l')) l'))).
  rewrite (Permutation_length H).
  apply lmax_ext. intros x. rewrite !in_map_iff. split.
  - intros (s & <- & Hs). destruct (choose_perm _ _ H _ _ Hs) as (s' & Hs' & Hp).
    exists s'. split; [symmetry; apply strength_perm|]; assumption.
  - intros (s & <- & Hs). destruct (choose_perm _ _ (Permutation_sym H) _ _ Hs) as (s' & Hs' & Hp).
    exists s'. split; [symmetry; apply strength_perm|]; assumption.
Qed.

(* best by ranks only *)
Definition best_ranks (f : bool) (l : list N) : list N :=
  lmax (map (strength_ranks f) (choose (Nat.min 5 (length l)) l)).

Lemma best_ranks_perm f l l' : Permutation l l' -> best_ranks f l = best_ranks f l'.
Proof.
  intros H. unfold best_ranks. rewrite (Permutation_length H).
  apply lmax_ext. intros x. rewrite !in_map_iff. split.
  - intros (s & <- & Hs). destruct (choose_perm _ _ H _ _ Hs) as (s' & Hs' & Hp).
    exists s'. split; [symmetry; apply strength_ranks_perm|]; assumption.
  - intros (s & <- & Hs). destruct (choose_perm _ _ (Permutation_sym H) _ _ Hs) as (s' & Hs' & Hp).
    exists s'. split; [symmetry; apply strength_ranks_perm|]; assumption.
Qed.

(* ------------------------------------------------------------------------- *)
(** * Cards *)

Lemma card_eq c : c = 4 * rank_of c + suit_of c.
Proof. unfold rank_of, suit_of. apply N.div_mod. lia. Qed.
Lemma suit_lt c : suit_of c < 4.
Proof. unfold suit_of. apply N.mod_lt. lia. Qed.
Lemma rank_lt c : is_card c -> rank_of c < 13.
Proof. unfold is_card, rank_of. intros H. apply N.div_lt_upper_bound; lia. Qed.
Lemma card_inj c d : rank_of c = rank_of d -> suit_of c = suit_of d -> c = d.
Proof. intros H1 H2. rewrite (card_eq c), (card_eq d). congruence. Qed.

Lemma suit_in c : In (suit_of c) [0; 1; 2; 3].
Proof.
  pose proof (suit_lt c). cbn. destruct (suit_of c) as [|q]; auto.
  destruct q as [q|q|]; auto; destruct q; auto; lia.
Qed.

(* cards of one suit have different ranks *)
Lemma suit_ranks_NoDup s l : NoDup l -> Forall (fun c => suit_of c = s) l -> NoDup (map rank_of l).
Proof.
  induction l as [|c l IH]; intros Hn Hs; cbn; [constructor|].
  inversion Hn; inversion Hs; subst. constructor; [|auto].
  rewrite in_map_iff. intros (d & Hd & Hin).
  assert (d = c); [|subst; contradiction]. apply card_inj; [assumption|].
  match goal with H : Forall _ l |- _ => rewrite Forall_forall in H; rewrite (H d Hin) end. congruence.
Qed.

Lemma occurs_rank_le4 l r : NoDup l -> (occurs r (map rank_of l) <= 4)%nat.
Proof.
  intros Hn. unfold occurs. rewrite count_occ_map.
  transitivity (length [4 * r; 4 * r + 1; 4 * r + 2; 4 * r + 3]); [|cbn; lia].
  apply NoDup_incl_length; [apply NoDup_filter; assumption|].
  intros c Hc. apply filter_In in Hc as [_ Hc]. apply N.eqb_eq in Hc.
  rewrite (card_eq c), Hc. pose proof (suit_in c) as Hs.
  destruct Hs as [<-|[<-|[<-|[<-|[]]]]]; cbn [In]; intuition lia.
Qed.

(* how many cards of suit s *)
Definition suited (s : N) (l : list N) : list N := filter (fun c => suit_of c =? s) l.
Definition nsuit (s : N) (l : list N) : nat := length (suited s l).

Lemma nsuit_perm s l l' : Permutation l l' -> nsuit s l = nsuit s l'.
Proof.
  intros H. unfold nsuit, suited. apply Permutation_length.
  induction H as [|x l l' HP IH|x y l|l1 l2 l3 H1 IH1 H2 IH2]; cbn.
  - constructor.
  - destruct (suit_of x =? s); [constructor|]; assumption.
  - destruct (suit_of x =? s), (suit_of y =? s); try apply Permutation_refl; try apply perm_swap.
  - eapply Permutation_trans; eassumption.
Qed.

Lemma nsuit_sum l : (nsuit 0 l + nsuit 1 l + nsuit 2 l + nsuit 3 l = length l)%nat.
Proof.
  unfold nsuit, suited. induction l as [|c l IH]; [reflexivity|]. cbn [filter length].
  pose proof (suit_in c) as Hs.
  destruct Hs as [E|[E|[E|[E|[]]]]]; rewrite <- E; cbn; lia.
Qed.

Lemma suited_spec s l c : In c (suited s l) <-> In c l /\ suit_of c = s.
Proof. unfold suited. rewrite filter_In, N.eqb_eq. tauto. Qed.

(* ------------------------------------------------------------------------- *)
(** * Flush or no flush *)

Lemma nsuit_choose s l k h : In h (choose k l) -> (nsuit s h <= nsuit s l)%nat.
Proof.
  revert k h; induction l as [|c l IH]; intros [|k] h H; cbn in H.
  - destruct H as [<-|[]]. apply Nat.le_refl.
  - destruct H.
  - destruct H as [<-|[]]. apply Nat.le_0_l.
  - apply in_app_or in H as [H|H].
    + apply in_map_iff in H as (t & <- & H). apply IH in H. revert H.
      unfold nsuit, suited. cbn [filter]. destruct (suit_of c =? s); cbn [length]; lia.
    + apply IH in H. revert H. unfold nsuit, suited. cbn [filter].
      destruct (suit_of c =? s); cbn [length]; lia.
Qed.

Lemma filter_all {A} (f : A -> bool) l : forallb f l = true -> filter f l = l.
Proof.
  induction l as [|x l IH]; cbn; [reflexivity|]. intros H. apply andb_true_iff in H as [H1 H2].
  rewrite H1. f_equal. auto.
Qed.

Lemma is_flush_spec h : is_flush h = true <->
  length h = 5%nat /\ exists s, s < 4 /\ nsuit s h = 5%nat.
Proof.
  unfold is_flush. rewrite andb_true_iff, Nat.eqb_eq, existsb_exists. split.
  - intros [Hl (s & Hs & Hf)]. split; [assumption|]. exists s. split.
    + cbn in Hs. intuition lia.
    + unfold nsuit, suited. rewrite filter_all by assumption. assumption.
  - intros [Hl (s & Hs & Hf)]. split; [assumption|]. exists s. split.
    + cbn. destruct s as [|q]; auto. destruct q as [q|q|]; auto; destruct q; auto; lia.
    + unfold nsuit, suited in Hf. rewrite <- Hl in Hf.
      clear Hl. induction h as [|c h IH]; [reflexivity|].
      cbn [filter forallb length] in *. destruct (suit_of c =? s); cbn [length] in Hf.
      * apply IH. lia.
      * pose proof (filter_length_le (fun c => suit_of c =? s) h). lia.
Qed.

Lemma best_no_flush l : (forall s, s < 4 -> (nsuit s l < 5)%nat) ->
  best l = best_ranks false (map rank_of l).
Proof.
  intros H. unfold best, best_ranks. rewrite map_length, choose_map, map_map.
  fold (lmax (map strength (choose (Nat.min 5 (length l)) l))).
  f_equal. apply map_ext_in. intros h Hh. unfold strength.
  destruct (is_flush h) eqn:E; [|reflexivity].
  apply is_flush_spec in E as (_ & s & Hs & E). apply nsuit_choose with (s := s) in Hh.
  specialize (H s Hs). lia.
Qed.

(* a flush beats every five cards without one, when there are few other cards *)
Lemma held_in k l r : In r (held k l) <-> In r all_ranks /\ occurs r l = k.
Proof. unfold held. rewrite filter_In, Nat.eqb_eq. tauto. Qed.

Lemma two_ranks_few_suited h r1 r2 s : NoDup h ->
  (forall c, In c h -> rank_of c = r1 \/ rank_of c = r2) -> (nsuit s h <= 2)%nat.
Proof.
  intros Hn Hr. unfold nsuit.
  rewrite <- (map_length rank_of (suited s h)).
  transitivity (length [r1; r2]); [|cbn; lia].
  apply NoDup_incl_length.
  - apply suit_ranks_NoDup with s.
    + apply NoDup_filter; assumption.
    + apply Forall_forall. intros c Hc. apply suited_spec in Hc. tauto.
  - intros r Hin. apply in_map_iff in Hin as (c & <- & Hc). apply suited_spec in Hc as [Hc _].
    destruct (Hr c Hc) as [->| ->]; cbn; auto.
Qed.

Lemma occurs_two (l : list N) r1 r2 : r1 <> r2 -> (occurs r1 l + occurs r2 l >= length l)%nat ->
  forall x, In x l -> x = r1 \/ x = r2.
Proof.
  intros Hne. unfold occurs. induction l as [|y l IH]; [intros _ x []|].
  cbn [count_occ length]. intros H x Hx.
  assert (Hbound : forall l : list N, (count_occ N.eq_dec l r1 + count_occ N.eq_dec l r2 <= length l)%nat).
  { clear - Hne. induction l as [|z l IH]; cbn; [lia|].
    destruct (N.eq_dec z r1), (N.eq_dec z r2); subst; try contradiction; lia. }
  specialize (Hbound l).
  destruct (N.eq_dec y r1) as [E1|E1], (N.eq_dec y r2) as [E2|E2]; subst; try contradiction; try lia.
  - destruct Hx as [<-|Hx]; [auto|]. apply IH; [lia|assumption].
  - destruct Hx as [<-|Hx]; [auto|]. apply IH; [lia|assumption].
Qed.

Lemma occurs_one_other (l : list N) r : (1 + occurs r l >= length l)%nat ->
  exists r2, forall x, In x l -> x = r \/ x = r2.
Proof.
  unfold occurs. induction l as [|y l IH]; intros H.
  - exists r. intros x [].
  - cbn [count_occ length] in H. destruct (N.eq_dec y r) as [->|Hne].
    + destruct IH as [r2 IH]; [lia|]. exists r2. intros x [<-|Hx]; auto.
    + exists y. intros x [<-|Hx]; [auto|]. left.
      assert (Hall : count_occ N.eq_dec l r = length l).
      { pose proof (count_occ_bound N.eq_dec r l). lia. }
      clear - Hall Hx. revert Hall Hx. induction l as [|z l IH]; intros Hall Hx; [destruct Hx|].
      cbn in Hall. destruct (N.eq_dec z r) as [->|Hz].
      * destruct Hx as [<-|Hx]; [reflexivity|]. apply IH; [lia|assumption].
      * pose proof (count_occ_bound N.eq_dec r l). lia.
Qed.

Lemma weak_without_flush h s : NoDup h -> length h = 5%nat -> (3 <= nsuit s h)%nat ->
  match strength_ranks false (map rank_of h) with x :: _ => x <= 4 | [] => False end.
Proof.
  intros Hn Hl Hs. unfold strength_ranks.
  destruct (straight_top (map rank_of h)); [lia|].
  destruct (held 4 (map rank_of h)) as [|r4 l4] eqn:E4.
  - destruct (held 3 (map rank_of h)) as [|r3 l3] eqn:E3, (held 2 (map rank_of h)) as [|r2 l2] eqn:E2;
      try lia.
    + destruct l2; lia.
    + exfalso.
      assert (H3 : In r3 (held 3 (map rank_of h))) by (rewrite E3; left; reflexivity).
      assert (H2 : In r2 (held 2 (map rank_of h))) by (rewrite E2; left; reflexivity).
      apply held_in in H3 as [_ H3]. apply held_in in H2 as [_ H2].
      assert (Hne : r3 <> r2) by (intros ->; lia).
      assert (Hall := occurs_two (map rank_of h) r3 r2 Hne).
      rewrite map_length in Hall. specialize (Hall ltac:(lia)).
      assert (nsuit s h <= 2)%nat; [|lia].
      apply two_ranks_few_suited with r3 r2; [assumption|].
      intros c Hc. apply Hall. apply in_map; assumption.
  - exfalso.
    assert (H4 : In r4 (held 4 (map rank_of h))) by (rewrite E4; left; reflexivity).
    apply held_in in H4 as [_ H4].
    destruct (occurs_one_other (map rank_of h) r4) as [r2 Hall]; [rewrite map_length; lia|].
    assert (nsuit s h <= 2)%nat; [|lia].
    apply two_ranks_few_suited with r4 r2; [assumption|].
    intros c Hc. apply Hall. apply in_map; assumption.
Qed.

Lemma strong_with_flush l :
  match strength_ranks true l with x :: _ => 5 <= x | [] => False end.
Proof.
  unfold strength_ranks. destruct (straight_top l); [lia|].
  destruct (held 4 l), (held 3 l), (held 2 l); lia.
Qed.

(* cards left out when choosing *)
Lemma choose_left_out l k h s : In h (choose k l) ->
  (nsuit s l <= nsuit s h + (length l - k))%nat.
Proof.
  revert k h; induction l as [|c l IH]; intros [|k] h H; cbn in H.
  - destruct H as [<-|[]]. cbn. lia.
  - destruct H.
  - destruct H as [<-|[]]. unfold nsuit, suited.
    pose proof (filter_length_le (fun x => suit_of x =? s) (c :: l)). cbn [length] in *. lia.
  - apply in_app_or in H as [H|H].
    + apply in_map_iff in H as (t & <- & H). apply IH in H. revert H.
      unfold nsuit, suited. cbn [filter length]. destruct (suit_of c =? s); cbn [length]; lia.
    + pose proof H as H'. apply choose_length in H'.
      assert (S k <= length l)%nat.
      { destruct (le_lt_dec (S k) (length l)); [assumption|].
        exfalso. apply choose_incl in H as Hi.
        pose proof (choose_nsub l (S k) h H). lia. }
      apply IH in H. revert H.
      unfold nsuit, suited. cbn [filter length]. destruct (suit_of c =? s); cbn [length]; lia.
Qed.
