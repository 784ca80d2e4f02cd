(* There are 7462 values of five cards: one hand for each. *)
From Coq Require Import Permutation.
From Verif Require Import Base Hand BaseProofs SpecPoker SpecHand SpecValue ListFacts PokerFacts HandExprProofs ShowdownProofs ValueProofs.
Local Open Scope N_scope.

(* k cards of rank r *)
Definition of_rank (r : N) (k : nat) : list N := map (fun s => 4 * r + s) (nseq 0 k).

(* all ways to take n cards of the ranks rs, at most m of each *)
Fixpoint spread (m n : nat) (rs : list N) : list (list N) :=
  match rs with
  | [] => match n with O => [[]] | S _ => [] end
  | r :: rs' => flat_map (fun k => map (app (of_rank r k)) (spread m (n - k) rs')) (seq 0 (S (Nat.min n m)))
  end.

Lemma of_rank_in r k c : (k <= 4)%nat -> In c (of_rank r k) -> rank_of c = r /\ suit_of c < N.of_nat k.
Proof.
  intros Hk H. apply in_map_iff in H as (s & <- & Hs). rewrite nseq_map in Hs. apply in_map_iff in Hs as (i & <- & Hi). apply in_seq in Hi.
  assert (Hs4 : N.of_nat i < 4) by lia. unfold rank_of, suit_of. rewrite N.add_comm, (N.mul_comm 4 r). rewrite N.div_add, N.mod_add, N.div_small, N.mod_small by lia. split; lia.
Qed.
Lemma of_rank_length r k : length (of_rank r k) = k.
Proof. unfold of_rank. rewrite map_length, nseq_map, map_length, seq_length. reflexivity. Qed.
Lemma of_rank_ranks r k : (k <= 4)%nat -> map rank_of (of_rank r k) = repeat r k.
Proof.
  intros Hk. assert (HF : Forall (fun c => rank_of c = r) (of_rank r k)) by (apply Forall_forall; intros c Hc; exact (proj1 (of_rank_in r k c Hk Hc))).
  rewrite <- (of_rank_length r k) at 2. induction HF as [|c l Hc _ IH]; [reflexivity|]. cbn [map length repeat]. rewrite Hc, IH. reflexivity.
Qed.
Lemma of_rank_NoDup r k : NoDup (of_rank r k).
Proof. unfold of_rank. apply NoDup_map_in; [apply nseq_NoDup|]. intros x y _ _ H. lia. Qed.

Lemma spread_ok m n rs s : (m <= 4)%nat -> NoDup rs -> In s (spread m n rs) -> NoDup s /\ length s = n /\ forall c, In c s -> In (rank_of c) rs /\ suit_of c < N.of_nat m.
Proof.
  intros Hm. revert n s. induction rs as [|r rs IH]; intros n s HN H.
  - cbn [spread] in H. destruct n as [|n]; [|destruct H]. destruct H as [<-|[]]. split; [constructor|]. split; [reflexivity|intros c []].
  - apply NoDup_cons_iff in HN as [Hr HN]. cbn [spread] in H. apply in_flat_map in H as (k & Hk & H). apply in_seq in Hk. apply in_map_iff in H as (t & <- & Ht).
    destruct (IH (n - k)%nat t HN Ht) as (NT & LT & RT). assert (Hk4 : (k <= 4)%nat) by lia. split; [|split].
    + apply NoDup_app_intro; [apply of_rank_NoDup|exact NT|]. intros c Hc Hc'. apply (of_rank_in r k c Hk4) in Hc as [E _]. destruct (RT c Hc') as [Hi _]. congruence.
    + rewrite app_length, of_rank_length, LT. lia.
    + intros c Hc. apply in_app_or in Hc as [Hc|Hc].
      * apply (of_rank_in r k c Hk4) in Hc as [E Hs]. split; [left; congruence|lia].
      * destruct (RT c Hc) as [Hi Hs]. split; [right; exact Hi|exact Hs].
Qed.

Lemma occurs_app r a b : occurs r (a ++ b) = (occurs r a + occurs r b)%nat.
Proof. unfold occurs. apply count_occ_app. Qed.
Lemma occurs_repeat r x k : occurs r (repeat x k) = if N.eq_dec x r then k else 0%nat.
Proof. unfold occurs. induction k as [|k IH]; cbn [repeat count_occ]; destruct (N.eq_dec x r); lia. Qed.
Lemma occurs_none r l : ~ In r l -> occurs r l = 0%nat.
Proof. intros H. unfold occurs. apply count_occ_not_In. exact H. Qed.

Lemma spread_head m n r rs k t : (m <= 4)%nat -> (k <= m)%nat -> ~ In r rs -> NoDup rs -> In t (spread m n rs) -> occurs r (map rank_of (of_rank r k ++ t)) = k.
Proof.
  intros Hm Hk Hr HN Ht. rewrite map_app, occurs_app, of_rank_ranks, occurs_repeat by lia. destruct (N.eq_dec r r) as [_|E]; [|destruct (E eq_refl)].
  rewrite occurs_none; [lia|]. intros Hi. apply in_map_iff in Hi as (c & Ec & Hc). destruct (spread_ok m n rs t Hm HN Ht) as (_ & _ & HR). destruct (HR c Hc) as [Hi _]. congruence.
Qed.

Lemma spread_inj m n rs s s' : (m <= 4)%nat -> NoDup rs -> In s (spread m n rs) -> In s' (spread m n rs) -> same_ranks s s' -> s = s'.
Proof.
  intros Hm. revert n s s'. induction rs as [|r rs IH]; intros n s s' HN H H' HS.
  - cbn [spread] in H, H'. destruct n as [|n]; [|destruct H]. destruct H as [<-|[]]. destruct H' as [<-|[]]. reflexivity.
  - apply NoDup_cons_iff in HN as [Hr HN]. cbn [spread] in H, H'. apply in_flat_map in H as (k & Hk & H). apply in_seq in Hk. apply in_map_iff in H as (t & <- & Ht).
    apply in_flat_map in H' as (k' & Hk' & H'). apply in_seq in Hk'. apply in_map_iff in H' as (t' & <- & Ht').
    pose proof (HS r) as Hh. rewrite (spread_head m (n - k) r rs k t), (spread_head m (n - k') r rs k' t') in Hh by (assumption || lia). subst k'. f_equal.
    apply (IH (n - k)%nat); [exact HN|exact Ht|exact Ht'|]. intros x. specialize (HS x). rewrite !map_app, !occurs_app in HS. lia.
Qed.

Lemma NoDup_flat {A B} (f : A -> list B) l : NoDup l -> (forall x, In x l -> NoDup (f x)) -> (forall x y b, In x l -> In y l -> In b (f x) -> In b (f y) -> x = y) -> NoDup (flat_map f l).
Proof.
  induction l as [|a l IH]; intros HN HF HD; [constructor|]. apply NoDup_cons_iff in HN as [Ha HN]. cbn [flat_map]. apply NoDup_app_intro.
  - apply HF. left. reflexivity.
  - apply IH; [exact HN|intros x Hx; apply HF; right; exact Hx|]. intros x y b Hx Hy. apply HD; right; assumption.
  - intros b Hb Hb'. apply in_flat_map in Hb' as (y & Hy & Hb'). apply Ha. rewrite (HD a y b (or_introl eq_refl) (or_intror Hy) Hb Hb'). exact Hy.
Qed.

Lemma spread_NoDup m n rs : (m <= 4)%nat -> NoDup rs -> NoDup (spread m n rs).
Proof.
  intros Hm. revert n. induction rs as [|r rs IH]; intros n HN.
  - cbn [spread]. destruct n as [|n]; [|constructor]. constructor; [intros []|constructor].
  - apply NoDup_cons_iff in HN as [Hr HN]. cbn [spread]. apply NoDup_flat; [apply seq_NoDup| |].
    + intros k _. apply NoDup_map_in; [apply IH, HN|]. intros x y _ _ E. exact (app_inv_head _ _ _ E).
    + intros k k' b Hk Hk' Hb Hb'. apply in_seq in Hk, Hk'. apply in_map_iff in Hb as (t & <- & Ht). apply in_map_iff in Hb' as (t' & Et & Ht').
      pose proof (spread_head m (n - k) r rs k t Hm ltac:(lia) Hr HN Ht) as G. pose proof (spread_head m (n - k') r rs k' t' Hm ltac:(lia) Hr HN Ht') as G'. congruence.
Qed.

Lemma spread_all m n rs (f : N -> nat) : (m <= 4)%nat -> NoDup rs -> (forall r, f r <= m)%nat -> list_sum (map f rs) = n ->
  exists s, In s (spread m n rs) /\ forall r, occurs r (map rank_of s) = if in_dec N.eq_dec r rs then f r else 0%nat.
Proof.
  intros Hm HN Hf. revert n. induction rs as [|r rs IH]; intros n Hs.
  - exists []. cbn [map list_sum fold_right] in Hs. subst n. split; [left; reflexivity|]. intros r. destruct (in_dec N.eq_dec r []) as [[]|_]. reflexivity.
  - apply NoDup_cons_iff in HN as [Hr HN]. cbn [map] in Hs. change (list_sum (?a :: ?b)) with (a + list_sum b)%nat in Hs.
    destruct (IH HN (n - f r)%nat) as (t & Ht & Ho); [lia|]. exists (of_rank r (f r) ++ t). split.
    + cbn [spread]. apply in_flat_map. exists (f r). split; [apply in_seq; specialize (Hf r); lia|]. apply in_map, Ht.
    + intros x. specialize (Hf r). rewrite map_app, occurs_app, of_rank_ranks, occurs_repeat, Ho by lia.
      destruct (N.eq_dec r x) as [->|Hx]; destruct (in_dec N.eq_dec x rs) as [Hi|Hi].
      * contradiction.
      * destruct (in_dec N.eq_dec x (x :: rs)) as [_|Hj]; [lia|]. destruct Hj. left. reflexivity.
      * destruct (in_dec N.eq_dec x (r :: rs)) as [_|Hj]; [lia|]. destruct Hj. right. exact Hi.
      * destruct (in_dec N.eq_dec x (r :: rs)) as [[Hj|Hj]|_]; [contradiction|contradiction|lia].
Qed.

(* ------------------------------------------------------------------------- *)
(** * One hand for each value *)

(* change the suit of the first card if all have the same *)
Definition unflush (h : list N) : list N := match h with c :: l => if is_flush h then 4 * rank_of c + 1 :: l else h | [] => h end.
Definition one_of_each : list (list N) := map unflush (spread 4 5 all_ranks) ++ spread 1 5 all_ranks.

Lemma unflush_ranks h : map rank_of (unflush h) = map rank_of h.
Proof.
  destruct h as [|c l]; [reflexivity|]. unfold unflush. destruct (is_flush (c :: l)); [|reflexivity]. cbn [map]. f_equal. unfold rank_of. rewrite N.add_comm, (N.mul_comm 4), N.div_add by lia. reflexivity.
Qed.

Lemma in_flush s c h : is_flush h = true -> In c h -> suit_of c = s -> Forall (fun d => suit_of d = s) h.
Proof.
  intros Hf Hc Hs. unfold is_flush in Hf. apply andb_true_iff in Hf as [_ Hf]. apply existsb_exists in Hf as (s' & _ & Ha). rewrite forallb_forall in Ha.
  apply Forall_forall. intros d Hd. pose proof (Ha d Hd) as E1. pose proof (Ha c Hc) as E2. apply N.eqb_eq in E1, E2. congruence.
Qed.

Lemma two_suits c d l : suit_of c <> suit_of d -> In d l -> is_flush (c :: l) = false.
Proof.
  intros H Hd. destruct (is_flush (c :: l)) eqn:E; [|reflexivity]. destruct H. symmetry. pose proof (in_flush (suit_of c) c (c :: l) E (or_introl eq_refl) eq_refl) as HF.
  rewrite Forall_forall in HF. apply HF. right. exact Hd.
Qed.

(* the hands of [spread] hold the first suit of every rank they hold *)
Lemma spread_first m n rs s c : (m <= 4)%nat -> In s (spread m n rs) -> In c s -> In (4 * rank_of c) s.
Proof.
  intros Hm. revert n s. induction rs as [|r rs IH]; intros n s H Hc.
  - cbn [spread] in H. destruct n as [|n]; [|destruct H]. destruct H as [<-|[]]. destruct Hc.
  - cbn [spread] in H. apply in_flat_map in H as (k & Hk & H). apply in_seq in Hk. apply in_map_iff in H as (t & <- & Ht). apply in_or_app. apply in_app_or in Hc as [Hc|Hc].
    + left. assert (Hk4 : (k <= 4)%nat) by lia. destruct (of_rank_in r k c Hk4 Hc) as [-> _]. unfold of_rank. apply in_map_iff. exists 0. split; [lia|].
      destruct k as [|k]; [destruct Hc|]. left. reflexivity.
    + right. exact (IH _ _ Ht Hc).
Qed.

Lemma unflush_ok s : In s (spread 4 5 all_ranks) -> cards (unflush s) /\ length (unflush s) = 5%nat /\ is_flush (unflush s) = false.
Proof.
  intros H. destruct (spread_ok 4 5 all_ranks s (le_n _) all_distinct H) as (HN & HL & HR).
  assert (HC : forall c, In c s -> is_card c). { intros c Hc. destruct (HR c Hc) as [Hr Hs]. apply rank_listed in Hr. unfold is_card. rewrite (card_eq c). lia. }
  destruct s as [|c l]; [discriminate HL|]. unfold unflush. destruct (is_flush (c :: l)) eqn:E.
  - assert (HF : Forall (fun d => suit_of d = 0) (c :: l)).
    { apply (in_flush 0 (4 * rank_of c)); [exact E|apply (spread_first 4 5 all_ranks); [lia|exact H|left; reflexivity]|]. unfold suit_of. rewrite N.mul_comm. apply N.mod_mul. lia. }
    rewrite Forall_forall in HF. assert (Hs1 : suit_of (4 * rank_of c + 1) = 1) by (unfold suit_of; rewrite N.add_comm, (N.mul_comm 4), N.mod_add by lia; reflexivity).
    apply NoDup_cons_iff in HN as [Hc HN]. split; [split|split].
    + constructor; [|exact HN]. intros Hi. specialize (HF _ (or_intror Hi)). rewrite Hs1 in HF. discriminate.
    + constructor; [|apply Forall_forall; intros d Hd; apply HC; right; exact Hd]. pose proof (HC c (or_introl eq_refl)) as Hr. apply rank_lt in Hr. unfold is_card. lia.
    + exact HL.
    + destruct l as [|d l]; [discriminate HL|]. apply (two_suits _ d); [|left; reflexivity]. rewrite Hs1, (HF d (or_intror (or_introl eq_refl))). discriminate.
  - split; [split; [exact HN|apply Forall_forall; exact HC]|split; [exact HL|exact E]].
Qed.

Lemma flush_ok s : In s (spread 1 5 all_ranks) -> cards s /\ length s = 5%nat /\ is_flush s = true.
Proof.
  intros H. destruct (spread_ok 1 5 all_ranks s (le_S _ _ (le_S _ _ (le_S _ _ (le_n _)))) all_distinct H) as (HN & HL & HR).
  split; [split; [exact HN|]|split; [exact HL|]].
  - apply Forall_forall. intros c Hc. destruct (HR c Hc) as [Hr Hs]. apply rank_listed in Hr. unfold is_card. rewrite (card_eq c). lia.
  - unfold is_flush. rewrite HL. cbn [Nat.eqb andb existsb]. apply orb_true_iff. left. apply forallb_forall. intros c Hc. destruct (HR c Hc) as [_ Hs]. apply N.eqb_eq. lia.
Qed.

Lemma each_ok s : In s one_of_each -> cards s /\ length s = 5%nat.
Proof.
  intros H. apply in_app_or in H as [H|H].
  - apply in_map_iff in H as (t & <- & Ht). destruct (unflush_ok t Ht) as (HC & HL & _). split; assumption.
  - destruct (flush_ok s H) as (HC & HL & _). split; assumption.
Qed.

Lemma each_inj s s' : In s one_of_each -> In s' one_of_each -> same_ranks s s' -> is_flush s = is_flush s' -> s = s'.
Proof.
  intros H H' HS HF. apply in_app_or in H as [H|H]; apply in_app_or in H' as [H'|H'].
  - apply in_map_iff in H as (t & <- & Ht). apply in_map_iff in H' as (t' & <- & Ht'). f_equal. apply (spread_inj 4 5 all_ranks); [lia|exact all_distinct|exact Ht|exact Ht'|].
    intros r. specialize (HS r). rewrite !unflush_ranks in HS. exact HS.
  - apply in_map_iff in H as (t & <- & Ht). destruct (unflush_ok t Ht) as (_ & _ & E). destruct (flush_ok s' H') as (_ & _ & E'). congruence.
  - apply in_map_iff in H' as (t & <- & Ht). destruct (unflush_ok t Ht) as (_ & _ & E). destruct (flush_ok s H) as (_ & _ & E'). congruence.
  - apply (spread_inj 1 5 all_ranks); [lia|exact all_distinct|exact H|exact H'|exact HS].
Qed.

Lemma each_NoDup : NoDup one_of_each.
Proof.
  unfold one_of_each. apply NoDup_app_intro.
  - apply NoDup_map_in; [apply spread_NoDup; [lia|exact all_distinct]|]. intros x y Hx Hy E. apply (spread_inj 4 5 all_ranks); [lia|exact all_distinct|exact Hx|exact Hy|].
    intros r. rewrite <- (unflush_ranks x), E, unflush_ranks. reflexivity.
  - apply spread_NoDup; [lia|exact all_distinct].
  - intros s H H'. apply in_map_iff in H as (t & <- & Ht). destruct (unflush_ok t Ht) as (_ & _ & E). destruct (flush_ok _ H') as (_ & _ & E'). congruence.
Qed.

Lemma each_all h : cards h -> length h = 5%nat -> exists s, In s one_of_each /\ same_ranks s h /\ is_flush s = is_flush h.
Proof.
  intros HC HL. pose proof (five_cards h HC HL) as (L5 & HF & H4 & H1). set (f := fun r => occurs r (map rank_of h)).
  assert (HS : list_sum (map f all_ranks) = 5%nat) by (rewrite <- L5; exact (total_length _ HF)).
  assert (HO : forall r, (if in_dec N.eq_dec r all_ranks then f r else 0%nat) = f r).
  { intros r. destruct (in_dec N.eq_dec r all_ranks) as [_|Hn]; [reflexivity|]. symmetry. apply occurs_none. intros Hi. apply Hn, rank_listed. rewrite Forall_forall in HF. apply HF, Hi. }
  destruct (is_flush h) eqn:E.
  - destruct (spread_all 1 5 all_ranks f) as (s & Hs & Ho); [lia|exact all_distinct|exact (H1 eq_refl)|exact HS|]. exists s. split; [apply in_or_app; right; exact Hs|]. split.
    + intros r. rewrite Ho, HO. reflexivity.
    + exact (proj2 (proj2 (flush_ok s Hs))).
  - destruct (spread_all 4 5 all_ranks f) as (s & Hs & Ho); [lia|exact all_distinct|exact H4|exact HS|]. exists (unflush s). split; [apply in_or_app; left; apply in_map, Hs|]. split.
    + intros r. rewrite unflush_ranks, Ho, HO. reflexivity.
    + exact (proj2 (proj2 (unflush_ok s Hs))).
Qed.

Lemma each_length : N.of_nat (length one_of_each) = 7462.
Proof. vm_compute. reflexivity. Qed.

(* C152, second half *)
Definition value_at (p : profile) (l : list N) : N := match value_of p (add_all l) with Ret v => v | Fail _ => 0 end.

Lemma value_defined p e : hand_with 5 e -> exists v, value_of p e = Ret v.
Proof. intros H. destruct (values_compare p e e 5 5 H H) as (v & _ & E & _); [lia|lia|]. exists v. exact E. Qed.
Lemma value_at_ok p l : cards l -> length l = 5%nat -> hand_with 5 (add_all l) /\ value_of p (add_all l) = Ret (value_at p l).
Proof.
  intros HC HL. pose proof (add_all_with l HC) as H. rewrite HL in H. split; [exact H|]. unfold value_at. destruct (value_defined p _ H) as (v & ->). reflexivity.
Qed.

Lemma number_of_values p : exists vs, NoDup vs /\ N.of_nat (length vs) = 7462 /\ forall v, In v vs <-> exists e, hand_with 5 e /\ value_of p e = Ret v.
Proof.
  exists (map (value_at p) one_of_each). split; [|split].
  - apply NoDup_map_in; [exact each_NoDup|]. intros x y Hx Hy E. destruct (each_ok x Hx) as [Cx Lx]. destruct (each_ok y Hy) as [Cy Ly].
    destruct (value_at_ok p x Cx Lx) as [Wx Vx]. destruct (value_at_ok p y Cy Ly) as [Wy Vy].
    destruct (proj1 (same_value p _ _ Wx Wy)) as [HS HF]; [congruence|]. rewrite !add_all_cards in HS, HF. exact (each_inj x y Hx Hy HS HF).
  - rewrite map_length. exact each_length.
  - intros v. rewrite in_map_iff. split.
    + intros (s & <- & Hs). destruct (each_ok s Hs) as [HC HL]. exists (add_all s). exact (value_at_ok p s HC HL).
    + intros (e & He & Hv). pose proof He as (_ & HC & HL). destruct (each_all _ HC HL) as (s & Hs & HS & HF). exists s. split; [|exact Hs].
      destruct (each_ok s Hs) as [Cs Ls]. destruct (value_at_ok p s Cs Ls) as [Ws Vs].
      assert (E : value_of p (add_all s) = value_of p e) by (apply (same_value p _ _ Ws He); rewrite add_all_cards; split; assumption). congruence.
Qed.

(* C153: how many values each category has *)
Definition each_category : list N := map (fun s => hd 0 (strength s)) one_of_each.
Lemma each_categories : (fun l => map (fun c => N.of_nat (length (filter (N.eqb c) l))) [0; 1; 2; 3; 4; 5; 6; 7; 8]) each_category = [1277; 2860; 858; 858; 10; 1277; 156; 156; 10].
Proof. vm_compute. reflexivity. Qed.

Lemma length_filter_map {A B} (f : A -> B) g l : length (filter g (map f l)) = length (filter (fun x => g (f x)) l).
Proof. induction l as [|x l IH]; [reflexivity|]. cbn [map filter]. destruct (g (f x)); cbn [length]; rewrite IH; reflexivity. Qed.

Definition in_category (c : N) (s : list N) : bool := c =? hd 0 (strength s).
Lemma category_lengths : map (fun c => N.of_nat (length (filter (in_category c) one_of_each))) [0; 1; 2; 3; 4; 5; 6; 7; 8] = [1277; 2860; 858; 858; 10; 1277; 156; 156; 10].
Proof.
  rewrite <- each_categories. cbv beta. apply map_ext. intros c. f_equal. symmetry. exact (length_filter_map (fun s => hd 0 (strength s)) (N.eqb c) one_of_each).
Qed.

Lemma values_in_category p c n : nth_error [1277; 2860; 858; 858; 10; 1277; 156; 156; 10] c = Some n ->
  exists vs, NoDup vs /\ N.of_nat (length vs) = n /\
    forall v, In v vs <-> exists e, hand_with 5 e /\ category_of (cards_in e) = N.of_nat c /\ value_of p e = Ret v.
Proof.
  intros Hn. exists (map (value_at p) (filter (in_category (N.of_nat c)) one_of_each)). split; [|split].
  - apply NoDup_map_in; [apply NoDup_filter, each_NoDup|]. intros x y Hx Hy E. apply filter_In in Hx as [Hx _]. apply filter_In in Hy as [Hy _].
    destruct (each_ok x Hx) as [Cx Lx]. destruct (each_ok y Hy) as [Cy Ly].
    destruct (value_at_ok p x Cx Lx) as [Wx Vx]. destruct (value_at_ok p y Cy Ly) as [Wy Vy].
    destruct (proj1 (same_value p _ _ Wx Wy)) as [HS HF]; [congruence|]. rewrite !add_all_cards in HS, HF. exact (each_inj x y Hx Hy HS HF).
  - rewrite map_length. rewrite <- category_lengths in Hn. generalize one_of_each, Hn. intros l. clear Hn. do 9 (destruct c as [|c]; [cbn [nth_error map]; intros Hn; injection Hn as <-; reflexivity|]).
    cbn [nth_error map]. destruct c; discriminate.
  - intros v. rewrite in_map_iff. split.
    + intros (s & <- & Hs). apply filter_In in Hs as [Hs Hc]. destruct (each_ok s Hs) as [HC HL]. destruct (value_at_ok p s HC HL) as [Ws Vs]. exists (add_all s). split; [exact Ws|]. split; [|exact Vs].
      unfold category_of. rewrite add_all_cards, (best_five s HL). apply N.eqb_eq in Hc. symmetry. exact Hc.
    + intros (e & He & Hc & Hv). pose proof He as (_ & HC & HL). destruct (each_all _ HC HL) as (s & Hs & HS & HF). exists s.
      destruct (each_ok s Hs) as [Cs Ls]. destruct (value_at_ok p s Cs Ls) as [Ws Vs].
      assert (E : value_of p (add_all s) = value_of p e) by (apply (same_value p _ _ Ws He); rewrite add_all_cards; split; assumption). split; [congruence|].
      apply filter_In. split; [exact Hs|]. apply N.eqb_eq. rewrite <- Hc. unfold category_of. rewrite <- (best_five s Ls). f_equal. symmetry. apply (same_best s (cards_in e)); auto.
Qed.

Lemma values_by_category p c n : nth_error [1277; 2860; 858; 858; 10; 1277; 156; 156; 10] c = Some n ->
  exists vs, NoDup vs /\ N.of_nat (length vs) = n /\
    forall v, In v vs <-> v / 4096 = N.of_nat c + 1 /\ exists e, hand_with 5 e /\ value_of p e = Ret v.
Proof.
  intros Hn. destruct (values_in_category p c n Hn) as (vs & HN & HL & HV). exists vs. split; [exact HN|split; [exact HL|]].
  assert (G : forall e v, hand_with 5 e -> value_of p e = Ret v -> v / 4096 = category_of (cards_in e) + 1).
  { intros e v (B & C & L) Hv. destruct (hand_category p e B C) as (h & w & R & Ew & _ & Hc); [lia|]. unfold value_of in Hv. rewrite R in Hv. change (evaluate h = Ret v) in Hv. congruence. }
  intros v. rewrite HV. split.
  - intros (e & He & Hc & Hv). split; [rewrite <- Hc; exact (G e v He Hv)|]. exists e. split; assumption.
  - intros (Hc & e & He & Hv). exists e. split; [exact He|]. split; [|exact Hv]. pose proof (G e v He Hv). lia.
Qed.
