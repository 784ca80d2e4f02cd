(* The value of five cards determines their ranks and whether they are a flush. *)
From Coq Require Import Permutation.
From Verif Require Import Base Hand BaseProofs SpecPoker SpecHand SpecValue ListFacts PokerFacts HandExprProofs ShowdownProofs.
Local Open Scope N_scope.

(* ------------------------------------------------------------------------- *)
(** * Ranks and how often they are held *)

Lemma rank_listed r : In r all_ranks <-> r < 13.
Proof.
  split; [unfold all_ranks; cbn [In]; intuition lia|]. intros H. rewrite <- (N2Nat.id r). assert (G : (N.to_nat r < 13)%nat) by lia. revert G.
  generalize (N.to_nat r). intros n G. do 13 (destruct n as [|n]; [unfold all_ranks; cbn; tauto|]). lia.
Qed.

Definition total_held (rs l : list N) : nat := list_sum (map (fun r => occurs r l) rs).

Lemma total_cons rs x l : NoDup rs -> total_held rs (x :: l) = ((if in_dec N.eq_dec x rs then 1 else 0) + total_held rs l)%nat.
Proof.
  unfold total_held. induction rs as [|r rs IH]; intros HN; [reflexivity|]. apply NoDup_cons_iff in HN as [Hr HN]. specialize (IH HN).
  cbn [map]. change (list_sum (?a :: ?b)) with (a + list_sum b)%nat. rewrite IH. unfold occurs. cbn [count_occ].
  destruct (N.eq_dec x r) as [->|Hx].
  - destruct (in_dec N.eq_dec r rs) as [Hi|_]; [contradiction|]. destruct (in_dec N.eq_dec r (r :: rs)) as [_|Hi]; [lia|]. destruct Hi. left. reflexivity.
  - destruct (in_dec N.eq_dec x rs) as [Hi|Hi]; destruct (in_dec N.eq_dec x (r :: rs)) as [Hj|Hj]; try lia.
    + destruct Hj. right. exact Hi.
    + destruct Hj as [->|Hj]; contradiction.
Qed.

Lemma all_distinct : NoDup all_ranks.
Proof. unfold all_ranks. repeat (constructor; [cbn [In]; intuition lia|]). constructor. Qed.

Lemma total_length l : Forall (fun r => r < 13) l -> total_held all_ranks l = length l.
Proof.
  induction l as [|x l IH]; intros HF; [reflexivity|]. apply Forall_cons_iff in HF as [Hx HF]. rewrite (total_cons _ _ _ all_distinct), (IH HF).
  destruct (in_dec N.eq_dec x all_ranks) as [_|Hn]; [reflexivity|]. destruct Hn. apply rank_listed, Hx.
Qed.

Lemma total_groups rs l : (forall r, occurs r l <= 4)%nat ->
  let h k := length (filter (fun r => Nat.eqb (occurs r l) k) rs) in total_held rs l = (4 * h 4 + 3 * h 3 + 2 * h 2 + h 1)%nat.
Proof.
  intros H4. cbn zeta. unfold total_held. induction rs as [|r rs IH]; [reflexivity|]. cbn [map filter]. change (list_sum (?a :: ?b)) with (a + list_sum b)%nat. rewrite IH.
  specialize (H4 r). destruct (occurs r l) as [|[|[|[|[|n]]]]]; cbn [Nat.eqb length]; lia.
Qed.

(* five ranks as they occur in a hand *)
Definition five (f : bool) (l : list N) : Prop :=
  length l = 5%nat /\ Forall (fun r => r < 13) l /\ (forall r, occurs r l <= 4)%nat /\ (f = true -> forall r, occurs r l <= 1)%nat.

Lemma five_groups f l : five f l -> (4 * length (held 4 l) + 3 * length (held 3 l) + 2 * length (held 2 l) + length (held 1 l) = 5)%nat.
Proof. intros (HL & HF & H4 & _). rewrite <- HL, <- (total_length l HF), (total_groups all_ranks l H4). reflexivity. Qed.

Lemma held_none k l : (forall r, occurs r l <> k) -> held k l = [].
Proof.
  intros H. unfold held. induction all_ranks as [|r rs IH]; [reflexivity|]. cbn [filter]. destruct (Nat.eqb_spec (occurs r l) k) as [E|E]; [destruct (H r E)|exact IH].
Qed.

Lemma held_all f l l' : five f l -> five f l' -> (forall k, (1 <= k <= 4)%nat -> held k l = held k l') -> forall r, occurs r l = occurs r l'.
Proof.
  assert (G : forall a b, five f a -> five f b -> (forall k, (1 <= k <= 4)%nat -> held k a = held k b) -> forall r, (1 <= occurs r a)%nat -> occurs r b = occurs r a).
  { intros a b (HL & HF & H4 & _) _ HE r H1. specialize (HE (occurs r a) (conj H1 (H4 r))).
    assert (Hi : In r (held (occurs r a) a)).
    { apply held_in. split; [|reflexivity]. apply rank_listed. rewrite Forall_forall in HF. apply HF. unfold occurs in H1. apply count_occ_In in H1. exact H1. }
    rewrite HE in Hi. apply held_in in Hi. exact (proj2 Hi). }
  intros H H' HE r. destruct (Nat.eq_dec (occurs r l) 0) as [E|E].
  - destruct (Nat.eq_dec (occurs r l') 0) as [E'|E']; [congruence|]. rewrite (G l' l H' H); [reflexivity| |lia]. intros k Hk. symmetry. exact (HE k Hk).
  - symmetry. apply (G l l' H H' HE). lia.
Qed.

(* ------------------------------------------------------------------------- *)
(** * Straights *)

Lemma straight_distinct t : 3 <= t <= 12 -> NoDup (straight_ranks t) /\ length (straight_ranks t) = 5%nat.
Proof.
  intros H. unfold straight_ranks. destruct (N.eqb_spec t 3) as [->|Ht]; (split; [|reflexivity]); repeat (constructor; [cbn [In]; intuition lia|]); constructor.
Qed.

Lemma straight_five l t : straight_top l = Some t -> 3 <= t <= 12 /\ Permutation (straight_ranks t) l.
Proof.
  unfold straight_top. destruct (Nat.eqb_spec (length l) 5) as [HL|HL]; [|discriminate]. intros H. apply find_some in H as [Hi Ha].
  assert (Ht : 3 <= t <= 12) by (cbn [In] in Hi; intuition lia). split; [exact Ht|]. destruct (straight_distinct t Ht) as [HN H5].
  apply NoDup_Permutation_bis; [exact HN|lia|]. intros r Hr. rewrite forallb_forall in Ha. specialize (Ha r Hr). apply Nat.eqb_eq in Ha. unfold occurs in Ha. apply (count_occ_In N.eq_dec). lia.
Qed.

(* ------------------------------------------------------------------------- *)
(** * The other hands *)

Definition cat_of (f : bool) (l : list N) : N :=
  match held 4 l, held 3 l, held 2 l with
  | _ :: _, _, _ => 7
  | [], _ :: _, _ :: _ => 6
  | [], three, two => if f then 5 else match three, two with _ :: _, _ => 3 | [], _ :: _ :: _ => 2 | [], [_] => 1 | [], [] => 0 end
  end.

Lemma strength_cat f l : straight_top l = None -> strength_ranks f l = cat_of f l :: grouped l.
Proof. intros H. unfold strength_ranks. rewrite H. reflexivity. Qed.

(* how many quads, trips, pairs, singles there are *)
Definition lens (l : list N) : list nat := [length (held 4 l); length (held 3 l); length (held 2 l); length (held 1 l)].
Definition lens_of (c : N) : list nat :=
  match c with 7 => [1; 0; 0; 1]%nat | 6 => [0; 1; 1; 0]%nat | 3 => [0; 1; 0; 2]%nat | 2 => [0; 0; 2; 1]%nat | 1 => [0; 0; 1; 3]%nat | _ => [0; 0; 0; 5]%nat end.

Lemma cat_lens f l : five f l -> lens l = lens_of (cat_of f l) /\ (cat_of f l = 5 <-> f = true) /\ cat_of f l <> 4 /\ cat_of f l <> 8.
Proof.
  intros H. pose proof (five_groups f l H) as G. destruct H as (_ & _ & _ & HF). unfold lens, cat_of. destruct f.
  - specialize (HF eq_refl). rewrite (held_none 4), (held_none 3), (held_none 2) in * by (intros r E; specialize (HF r); lia).
    cbn [length] in *. split; [cbn [lens_of]; repeat f_equal; lia|]. split; [tauto|split; discriminate].
  - clear HF. destruct (held 4 l) as [|a [|a' A]]; destruct (held 3 l) as [|b [|b' B]]; destruct (held 2 l) as [|c [|c' [|c'' C]]]; cbn [length] in *; try lia;
      (split; [cbn [lens_of]; repeat f_equal; lia|]); (split; [split; intros E; discriminate E|split; discriminate]).
Qed.

Lemma app_same {A} (a b a' b' : list A) : length a = length a' -> a ++ b = a' ++ b' -> a = a' /\ b = b'.
Proof.
  revert a'. induction a as [|x a IH]; intros [|x' a'] HL E; cbn [length app] in *; try discriminate; [split; [reflexivity|exact E]|].
  injection E as -> E. destruct (IH a' (eq_add_S _ _ HL) E) as [-> ->]. split; reflexivity.
Qed.

Lemma strength_ranks_inj f l f' l' : five f l -> five f' l' -> strength_ranks f l = strength_ranks f' l' -> f = f' /\ forall r, occurs r l = occurs r l'.
Proof.
  intros H H' E. destruct (straight_top l) as [t|] eqn:Et; destruct (straight_top l') as [t'|] eqn:Et'.
  - pose proof (straight_five _ _ Et) as [_ P]. pose proof (straight_five _ _ Et') as [_ P']. unfold strength_ranks in E. rewrite Et, Et' in E.
    assert (Q : f = f' /\ t = t') by (destruct f, f'; inversion E; auto). destruct Q as [-> ->]. split; [reflexivity|].
    intros r. unfold occurs. pose proof (Permutation_trans (Permutation_sym P) P') as Q. exact (proj1 (Permutation_count_occ N.eq_dec l l') Q r).
  - rewrite (strength_cat _ _ Et') in E. unfold strength_ranks in E. rewrite Et in E. destruct (cat_lens f' l' H') as (_ & _ & N4 & N8). destruct f; inversion E as [[E1 E2]]; congruence.
  - rewrite (strength_cat _ _ Et) in E. unfold strength_ranks in E. rewrite Et' in E. destruct (cat_lens f l H) as (_ & _ & N4 & N8). destruct f'; inversion E as [[E1 E2]]; congruence.
  - rewrite (strength_cat _ _ Et), (strength_cat _ _ Et') in E. injection E as Ec Eg. destruct (cat_lens f l H) as (L & F & _). destruct (cat_lens f' l' H') as (L' & F' & _).
    assert (Ef : f = f'). { rewrite Ec in F. destruct f, f'; try reflexivity; [symmetry; apply F', F; reflexivity|apply F, F'; reflexivity]. }
    split; [exact Ef|]. subst f'. rewrite Ec, <- L' in L. unfold lens in L. injection L as L4 L3 L2 L1. unfold grouped in Eg.
    apply app_same in Eg as [E4 Eg]; [|exact L4]. apply app_same in Eg as [E3 Eg]; [|exact L3]. apply app_same in Eg as [E2 E1]; [|exact L2].
    apply (held_all f); [exact H|exact H'|]. intros k Hk. assert (Hk' : k = 1%nat \/ k = 2%nat \/ k = 3%nat \/ k = 4%nat) by lia. destruct Hk' as [-> | [-> | [-> | ->]]]; assumption.
Qed.

(* ------------------------------------------------------------------------- *)
(** * Hands of five cards *)

Lemma five_cards h : cards h -> length h = 5%nat -> five (is_flush h) (map rank_of h).
Proof.
  intros [HN HC] HL. split; [rewrite map_length; exact HL|]. split; [|split].
  - rewrite Forall_forall in *. intros r Hr. apply in_map_iff in Hr as (c & <- & Hc). apply rank_lt, HC, Hc.
  - intros r. apply occurs_rank_le4, HN.
  - intros Hf r. unfold is_flush in Hf. apply andb_true_iff in Hf as [_ Hf]. apply existsb_exists in Hf as (s & _ & Hs).
    assert (ND : NoDup (map rank_of h)). { apply (suit_ranks_NoDup s); [exact HN|]. rewrite forallb_forall in Hs. apply Forall_forall. intros c Hc. apply N.eqb_eq, Hs, Hc. }
    unfold occurs. rewrite (NoDup_count_occ N.eq_dec) in ND. apply ND.
Qed.

Lemma best_five h : length h = 5%nat -> best h = strength h.
Proof.
  intros HL. unfold best. rewrite HL. change (Nat.min 5 5) with 5%nat. rewrite <- HL, choose_all. cbn [map fold_right]. unfold lex_max.
  destruct (strength h) as [|x s]; reflexivity.
Qed.

Lemma same_best a b : cards a -> cards b -> length a = 5%nat -> length b = 5%nat -> (best a = best b <-> same_ranks a b /\ is_flush a = is_flush b).
Proof.
  intros Ha Hb La Lb. rewrite (best_five a La), (best_five b Lb). unfold strength. split.
  - intros E. destruct (strength_ranks_inj _ _ _ _ (five_cards a Ha La) (five_cards b Hb Lb) E) as [Ef Er]. split; [exact Er|exact Ef].
  - intros [Er Ef]. rewrite Ef. apply strength_ranks_perm. apply (Permutation_count_occ N.eq_dec). exact Er.
Qed.

Lemma values_compare p e1 e2 n m : hand_with n e1 -> hand_with m e2 -> (2 <= n <= 7)%nat -> (2 <= m <= 7)%nat ->
  exists v1 v2, value_of p e1 = Ret v1 /\ value_of p e2 = Ret v2 /\ N.compare v1 v2 = lex (best (cards_in e1)) (best (cards_in e2)).
Proof.
  intros (B1 & C1 & L1) (B2 & C2 & L2) Hn Hm. destruct (compare_hands p e1 e2 B1 B2 C1 C2) as (h1 & h2 & v1 & v2 & R1 & R2 & E1 & E2 & HX); [lia|lia|].
  exists v1, v2. unfold value_of. rewrite R1, R2. split; [exact E1|split; [exact E2|exact HX]].
Qed.

Lemma values_equal p e1 e2 n m : hand_with n e1 -> hand_with m e2 -> (2 <= n <= 7)%nat -> (2 <= m <= 7)%nat ->
  (value_of p e1 = value_of p e2 <-> best (cards_in e1) = best (cards_in e2)).
Proof.
  intros H1 H2 Hn Hm. destruct (values_compare p e1 e2 n m H1 H2 Hn Hm) as (v1 & v2 & E1 & E2 & HX). rewrite E1, E2, <- lex_eq, <- HX, N.compare_eq_iff. split; [intros E; injection E; auto|intros ->; reflexivity].
Qed.

(* C152, first half *)
Lemma same_value p e1 e2 : hand_with 5 e1 -> hand_with 5 e2 ->
  (value_of p e1 = value_of p e2 <-> same_ranks (cards_in e1) (cards_in e2) /\ is_flush (cards_in e1) = is_flush (cards_in e2)).
Proof.
  intros H1 H2. rewrite (values_equal p e1 e2 5 5 H1 H2) by lia. destruct H1 as (_ & C1 & L1). destruct H2 as (_ & C2 & L2). apply same_best; assumption.
Qed.

Lemma add_all_with l : cards l -> hand_with (length l) (add_all l).
Proof. intros H. unfold hand_with. rewrite add_all_cards, add_all_base. auto. Qed.

(* C151 *)
Lemma value_best_five p e n : hand_with n e -> (5 <= n <= 7)%nat ->
  (exists e', hand_with 5 e' /\ incl (cards_in e') (cards_in e) /\ value_of p e' = value_of p e) /\
  (forall e', hand_with 5 e' -> incl (cards_in e') (cards_in e) -> exists v' v, value_of p e' = Ret v' /\ value_of p e = Ret v /\ v' <= v).
Proof.
  intros H Hn. pose proof H as (B & C & L). split.
  - assert (HM : Nat.min 5 (length (cards_in e)) = 5%nat) by lia.
    assert (Hi : In (best (cards_in e)) (map strength (choose 5 (cards_in e)))).
    { unfold best. rewrite HM. apply lmax_in. intros E. apply map_eq_nil in E. revert E. apply choose_nonempty. lia. }
    apply in_map_iff in Hi as (s & Es & Hs). pose proof (choose_length _ _ _ Hs) as L5. pose proof (choose_incl _ _ _ Hs) as Hin.
    assert (Cs : cards s). { split; [eapply choose_NoDup; [apply C|exact Hs]|]. destruct C as [_ C]. rewrite Forall_forall in *. intros c Hc. apply C, Hin, Hc. }
    pose proof (add_all_with s Cs) as Hw. rewrite L5 in Hw. exists (add_all s). split; [exact Hw|]. rewrite add_all_cards. split; [exact Hin|].
    apply (values_equal p _ _ 5 n Hw H); [lia|lia|]. rewrite add_all_cards, (best_five s L5). exact Es.
  - intros e' (B' & C' & L') Hin. destruct (more_never_hurts p e' e B' B C' C Hin) as (h1 & h2 & v1 & v2 & R1 & R2 & E1 & E2 & HX); [lia|lia|].
    exists v1, v2. unfold value_of. rewrite R1, R2. split; [exact E1|split; [exact E2|exact HX]].
Qed.
