(* Random boards: the cards added are the first new ones among the samples; every sequence
   of cards comes from the same number of samples; sums over all samples. *)
From Verif Require Import Base BaseProofs SumFacts Float64 Hand FastDivide Range Combined Sim Approx SpecPoker ListFacts PokerFacts HandProofs HandExprProofs
  SpecNames SpecHand SpecRange SpecEquity SpecResults SpecRun SpecApprox SpecFair CombinedProofs ApproxProofs.
From Coq Require Import Permutation.
Local Open Scope N_scope.

(* ------------------------------------------------------------------------- *)
(** * The cards drawn *)

Lemma stream_S r t : stream r (S t) = draws r (drawn r) mod 52 :: stream {| draws := draws r; drawn := N.succ (drawn r) |} t.
Proof.
  unfold stream. cbn [seq map]. rewrite N.add_0_r. f_equal. rewrite <- seq_shift, map_map. apply map_ext. intros k. cbn [draws drawn]. do 2 f_equal. lia.
Qed.
Lemma first_new_ext : forall k seen seen' xs, (forall c, c < 52 -> seen c = seen' c) -> Forall (fun c => c < 52) xs -> first_new k seen xs = first_new k seen' xs.
Proof.
  intros k seen seen' xs H HF. revert k seen seen' H. induction HF as [|x xs Hx _ IH]; intros [|k] seen seen' H; cbn [first_new]; [reflexivity..|].
  rewrite (H x Hx). destruct (seen' x); [apply IH; exact H|]. rewrite (IH k (fun c => (c =? x) || seen c) (fun c => (c =? x) || seen' c)); [reflexivity|].
  intros c Hc. rewrite (H c Hc). reflexivity.
Qed.
Lemma stream_cards r t : Forall (fun c => c < 52) (stream r t).
Proof. apply Forall_forall. intros c Hc. apply in_map_iff in Hc as (k & <- & _). apply N.mod_lt. discriminate. Qed.

Lemma draw_new used seen k : (forall c, c < 52 -> N.testbit used c = seen c) -> forall t fuel r l, first_new (S k) seen (stream r t) = Some l -> (t <= fuel)%nat ->
  exists c r' t' l', draw_card fuel used r = Ret (c, r') /\ l = c :: l' /\ c < 52 /\ seen c = false /\
    first_new k (fun x => (x =? c) || seen x) (stream r' t') = Some l' /\ (t' <= t)%nat.
Proof.
  intros Hs. induction t as [|t IH]; intros fuel r l H Hf; [discriminate|]. destruct fuel as [|fuel]; [lia|]. rewrite stream_S in H. cbn [first_new] in H. cbn [draw_card sample].
  change CARD_COUNT with 52. rewrite land_bit_zero. set (c := draws r (drawn r) mod 52) in *. assert (Hc : c < 52) by (unfold c; apply N.mod_lt; discriminate).
  set (r1 := {| draws := draws r; drawn := N.succ (drawn r) |}) in *. rewrite (Hs c Hc). destruct (seen c) eqn:E; cbn [negb].
  - destruct (IH fuel r1 l H ltac:(lia)) as (c1 & r' & t' & l' & E1 & E2 & E3 & E4 & E5 & E6). exists c1, r', t', l'. repeat (split; [assumption|]). lia.
  - destruct (first_new k (fun x => (x =? c) || seen x) (stream r1 t)) as [l'|] eqn:El; [|discriminate]. inversion H; subst l.
    exists c, r1, t, l'. repeat (split; [reflexivity || assumption|]). lia.
Qed.

Lemma board_new p fuel : forall k used seen r bd lst t l e, (forall c, c < 52 -> N.testbit used c = seen c) -> hand_of base lst bd -> (length lst + k <= 5)%nat ->
  run p e = Ret bd -> first_new k seen (stream r t) = Some l -> (t <= fuel)%nat ->
  exists bd' r', randomize_board p fuel k used r bd = Ret (bd', r') /\ run p (fold_left (fun e c => EAdd e (ECard c)) l e) = Ret bd'.
Proof.
  induction k as [|k IH]; intros used seen r bd lst t l e Hs Hof Hl He H Ht; cbn [randomize_board].
  - assert (l = []) by (destruct (stream r t); inversion H; reflexivity). subst l. exists bd, r. split; [reflexivity|exact He].
  - destruct (draw_new used seen k Hs t fuel r l H Ht) as (c & r' & t' & l' & E & -> & Hc & Hnew & H' & Ht'). rewrite E. cbn [bind].
    destruct (CARDS_get_ok c Hc) as (x & Ex & Hx). rewrite Ex. cbn [bind].
    destruct (hand_add_card p base lst bd c x) as (bd1 & E1 & Hof1); try assumption.
    + lia.
    + cbn [length]. lia.
    + apply fits_of_length. cbn [length]. lia.
    + rewrite E1. cbn [bind fold_left]. apply (IH (N.lor used (N.shiftl 1 c)) (fun x => (x =? c) || seen x) r' bd1 (c :: lst) t' l'); try assumption.
      * intros y Hy. rewrite N.lor_spec, pow2_mask by lia. rewrite (Hs y Hy). apply orb_comm.
      * cbn [length]. lia.
      * cbn [run]. rewrite He. cbn [bind]. rewrite Ex. cbn [bind]. exact E1.
      * lia.
Qed.

(* ------------------------------------------------------------------------- *)
(** * All sequences of cards are equally likely *)

Section Ways.
  Variable U : list N.
  Hypothesis HU : NoDup U.
  Definition hits (t : nat) (seen : N -> bool) (l : list N) : N :=
    sumf (fun xs => if cards_eqb (first_new (length l) seen xs) l then 1 else 0) (picks (repeat U t)).
  Definition cnt (seen : N -> bool) : N := sumf (fun x => if seen x then 1 else 0) U.

  Lemma single c l (a : N) : NoDup l -> In c l -> sumf (fun x => if x =? c then a else 0) l = a.
  Proof.
    induction 1 as [|x l Hx Hnd IH]; [intros []|]. rewrite sumf_cons. intros [->|H].
    - rewrite N.eqb_refl, sumf_zero; [lia|]. intros y Hy. destruct (N.eqb_spec y c) as [->|]; [contradiction|reflexivity].
    - destruct (N.eqb_spec x c) as [->|]; [contradiction|]. rewrite IH by exact H. reflexivity.
  Qed.
  Lemma cnt_add seen c : In c U -> seen c = false -> cnt (fun x => (x =? c) || seen x) = 1 + cnt seen.
  Proof.
    intros Hin Hs. unfold cnt. transitivity (sumf (fun x => if x =? c then 1 else 0) U + sumf (fun x => if seen x then 1 else 0) U); [|rewrite (single c U 1 HU Hin); reflexivity].
    rewrite <- sumf_add. apply sumf_ext. intros x _. destruct (N.eqb_spec x c) as [->|]; cbn [orb]; [rewrite Hs; reflexivity|]. destruct (seen x); reflexivity.
  Qed.
  Lemma hits_S t seen c l : In c U -> seen c = false -> hits (S t) seen (c :: l) = cnt seen * hits t seen (c :: l) + hits t (fun x => (x =? c) || seen x) l.
  Proof.
    intros Hin Hs. unfold hits at 1. cbn [repeat picks length]. rewrite sumf_flat_map.
    transitivity (sumf (fun x => (if seen x then 1 else 0) * hits t seen (c :: l) + (if x =? c then hits t (fun y => (y =? c) || seen y) l else 0)) U).
    - apply sumf_ext. intros x _. rewrite sumf_map. cbn [first_new]. destruct (seen x) eqn:Ex.
      + destruct (N.eqb_spec x c) as [->|_]; [congruence|]. unfold hits. cbn [length]. lia.
      + rewrite N.mul_0_l. cbn [N.add]. destruct (N.eqb_spec x c) as [->|Hne].
        * unfold hits. apply sumf_ext. intros xs _. destruct (first_new (length l) (fun y => (y =? c) || seen y) xs) as [l1|]; [|reflexivity]. unfold cards_eqb.
          destruct (list_eq_dec N.eq_dec (c :: l1) (c :: l)) as [E|E], (list_eq_dec N.eq_dec l1 l) as [E'|E']; try reflexivity; [inversion E; contradiction|subst; contradiction].
        * apply sumf_zero. intros xs _. destruct (first_new (length l) (fun y => (y =? x) || seen y) xs) as [l1|]; [|reflexivity]. unfold cards_eqb.
          destruct (list_eq_dec N.eq_dec (x :: l1) (c :: l)) as [E|E]; [inversion E; contradiction|reflexivity].
    - rewrite sumf_add, (single c U _ HU Hin). f_equal. unfold cnt. rewrite N.mul_comm, <- sumf_mul. apply sumf_ext. intros x _. apply N.mul_comm.
  Qed.
  Lemma hits_nil t seen : hits t seen [] = N.of_nat (length (picks (repeat U t))).
  Proof. unfold hits. rewrite <- sumf_1_length. apply sumf_ext. intros xs _. cbn [length]. destruct xs; reflexivity. Qed.

  Lemma hits_equal : forall t seen seen' l l', NoDup l -> NoDup l' -> Forall (fun c => In c U /\ seen c = false) l -> Forall (fun c => In c U /\ seen' c = false) l' ->
    length l = length l' -> cnt seen = cnt seen' -> hits t seen l = hits t seen' l'.
  Proof.
    induction t as [|t IH]; intros seen seen' l l' Hn Hn' HF HF' Hl Hc.
    - destruct l as [|c l], l' as [|c' l']; try discriminate; reflexivity.
    - destruct l as [|c l], l' as [|c' l']; try discriminate; [rewrite !hits_nil; reflexivity|].
      inversion HF as [|? ? [Hi Hs] HF1]; inversion HF' as [|? ? [Hi' Hs'] HF1']; inversion Hn as [|? ? Hni Hn1]; inversion Hn' as [|? ? Hni' Hn1']; subst.
      rewrite !hits_S by assumption. rewrite Hc. f_equal; [f_equal; apply IH; assumption|]. apply IH; try assumption.
      + rewrite Forall_forall in *. intros x Hx. destruct (HF1 x Hx) as [G1 G2]. split; [exact G1|]. destruct (N.eqb_spec x c) as [->|]; [contradiction|exact G2].
      + rewrite Forall_forall in *. intros x Hx. destruct (HF1' x Hx) as [G1 G2]. split; [exact G1|]. destruct (N.eqb_spec x c') as [->|]; [contradiction|exact G2].
      + cbn in Hl. lia.
      + rewrite !cnt_add by assumption. lia.
  Qed.
End Ways.

Lemma ways_hits t seen l : N.of_nat (ways t seen l) = hits (nseq 0 52) t seen l.
Proof. unfold ways, hits, card_samples. rewrite <- sumf_1_length, sumf_filter. reflexivity. Qed.
Lemma nseq_in a k c : In c (nseq a k) <-> a <= c < a + N.of_nat k.
Proof. revert a. induction k as [|k IH]; intros a; cbn [nseq In]; [lia|]. rewrite IH. lia. Qed.
Lemma nseq_nodup a k : NoDup (nseq a k).
Proof. revert a. induction k as [|k IH]; intros a; cbn [nseq]; constructor; [|apply IH]. rewrite nseq_in. lia. Qed.

Lemma unseen_taken board dead d c : In c (unseen board dead d) -> c < 52 /\ taken_cards board dead d c = false.
Proof.
  unfold unseen. rewrite filter_In, nseq_in, <- negb_orb, negb_true_iff. intros [H1 H2]. split; [lia|exact H2].
Qed.
Lemma ways_equal_of U t seen l l' : NoDup U -> NoDup l -> NoDup l' -> Forall (fun c => In c U /\ seen c = false) l -> Forall (fun c => In c U /\ seen c = false) l' -> length l = length l' ->
  hits U t seen l = hits U t seen l'.
Proof. intros HU H1 H2 H3 H4 H5. apply hits_equal; auto. Qed.
Opaque nseq.
(* whatever has been seen: only the number of cards matters *)
Lemma ways_equal t board dead d l l' : NoDup l -> NoDup l' -> incl l (unseen board dead d) -> incl l' (unseen board dead d) -> length l = length l' ->
  ways t (taken_cards board dead d) l = ways t (taken_cards board dead d) l'.
Proof.
  intros H1 H2 H3 H4 H5. apply Nat2N.inj. rewrite !ways_hits.
  assert (HF : forall s, incl s (unseen board dead d) -> Forall (fun c => In c (nseq 0 52) /\ taken_cards board dead d c = false) s).
  { intros s Hs. apply Forall_forall. intros c Hc. destruct (unseen_taken board dead d c (Hs c Hc)) as [G1 G2]. split; [apply nseq_in; lia|exact G2]. }
  apply ways_equal_of; [apply nseq_nodup|exact H1|exact H2|apply HF; exact H3|apply HF; exact H4|exact H5].
Qed.
Transparent nseq.

(* ------------------------------------------------------------------------- *)
(** * Sums over all samples *)

Lemma sum_insert : forall (l : list N), NoDup l -> forall k (g : list N -> N), (forall s s', Permutation s s' -> g s = g s') ->
  sumf (fun x => sumf (fun c => g (x :: c)) (choose k (remove N.eq_dec x l))) l = N.of_nat (S k) * sumf g (choose (S k) l).
Proof.
  induction 1 as [|a l Ha Hnd IH]; intros k g Hg; [cbn [sumf choose fold_right]; lia|].
  assert (Hra : remove N.eq_dec a (a :: l) = l) by (cbn [remove]; destruct (N.eq_dec a a); [apply notin_remove; exact Ha|congruence]).
  assert (Hrx : forall x, In x l -> remove N.eq_dec x (a :: l) = a :: remove N.eq_dec x l).
  { intros x Hx. cbn [remove]. destruct (N.eq_dec x a) as [->|]; [contradiction|reflexivity]. }
  rewrite sumf_cons, Hra. cbn [choose]. rewrite sumf_app, sumf_map.
  rewrite (sumf_ext (fun x => sumf (fun c => g (x :: c)) (choose k (remove N.eq_dec x (a :: l)))) (fun x => sumf (fun c => g (x :: c)) (choose k (a :: remove N.eq_dec x l))));
    [|intros x Hx; rewrite (Hrx x Hx); reflexivity].
  destruct k as [|k].
  - rewrite (sumf_ext _ (fun x => sumf (fun c => g (x :: c)) (choose 0 (remove N.eq_dec x l)))); [|intros x _; rewrite !choose_0; reflexivity].
    rewrite (IH 0%nat g Hg). rewrite !choose_0. lia.
  - rewrite (sumf_ext _ (fun x => sumf (fun c => g (a :: x :: c)) (choose k (remove N.eq_dec x l)) + sumf (fun c => g (x :: c)) (choose (S k) (remove N.eq_dec x l)))).
    2:{ intros x _. cbn [choose]. rewrite sumf_app, sumf_map. f_equal. apply sumf_ext. intros c _. apply Hg. constructor. }
    rewrite sumf_add, (IH (S k) g Hg), (IH k (fun c => g (a :: c))); [lia|]. intros s s' Hs. apply Hg. constructor. exact Hs.
Qed.
Lemma sum_arrangements : forall k l (g : list N -> N), NoDup l -> (forall s s', Permutation s s' -> g s = g s') ->
  sumf g (arrangements k l) = N.of_nat (fact k) * sumf g (choose k l).
Proof.
  induction k as [|k IH]; intros l g Hnd Hg; cbn [arrangements].
  - rewrite choose_0. cbn [fact sumf fold_right]. lia.
  - rewrite sumf_flat_map. rewrite (sumf_ext _ (fun x => N.of_nat (fact k) * sumf (fun c => g (x :: c)) (choose k (remove N.eq_dec x l)))).
    + rewrite sumf_mul, (sum_insert l Hnd k g Hg). cbn [fact]. lia.
    + intros x _. rewrite sumf_map. apply (IH (remove N.eq_dec x l) (fun c => g (x :: c))).
      * clear - Hnd. induction Hnd as [|a l Ha _ IHl]; cbn [remove]; [constructor|]. destruct (N.eq_dec x a); [exact IHl|]. constructor; [|exact IHl]. intros H. apply Ha. eapply in_remove. exact H.
      * intros s s' Hs. apply Hg. constructor. exact Hs.
Qed.
