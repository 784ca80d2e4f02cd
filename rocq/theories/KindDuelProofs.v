(* The preflop combinations of two players and the pots by winners. *)
From Verif Require Import Base BaseProofs SumFacts ListFacts Float64 TStrings Hand Range FastDivide Combined Sim SpecPoker SpecHand SpecNames SpecEquity
  SpecResults SpecRun SpecFinal SpecTable RunProofs ShareProofs TableProofs TableRunProofs KindSumProofs.
Local Open Scope N_scope.

Lemma two_winners d l : length d = 2%nat -> winners d l = [0%nat] \/ winners d l = [1%nat] \/ winners d l = [0%nat; 1%nat].
Proof.
  intros H. assert (HN : winners d l <> []) by (apply somebody_wins; intros ->; discriminate H). revert HN. unfold winners. rewrite H. cbn [seq filter].
  match goal with |- context [if ?a then 0%nat :: _ else _] => destruct a end; match goal with |- context [if ?a then [1%nat] else _] => destruct a end; intros HN; auto. congruence.
Qed.
Lemma total_same ranges board dead (f g : list whand -> list N -> bool) : (forall d l, In d (deals ranges board dead) -> f d l = g d l) -> total_of ranges board dead f = total_of ranges board dead g.
Proof. intros H. rewrite !total_sumf. apply sumf_ext. intros d Hd. f_equal. apply sumf_ext. intros l _. rewrite (H d l Hd). reflexivity. Qed.
Lemma total_both ranges board dead (f g : list whand -> list N -> bool) : (forall d l, In d (deals ranges board dead) -> f d l && g d l = false) ->
  total_of ranges board dead f + total_of ranges board dead g = total_of ranges board dead (fun d l => f d l || g d l).
Proof.
  intros H. rewrite !total_sumf, <- sumf_add. apply sumf_ext. intros d Hd. rewrite <- N.mul_add_distr_l, <- sumf_add. f_equal. apply sumf_ext. intros l _. specialize (H d l Hd).
  destruct (f d l), (g d l); try reflexivity. discriminate.
Qed.

Lemma text_duel lower p texts (ranges : list (list whand)) board dead q threads sched o : from_strings lower p texts = Ret ranges -> length texts = 2%nat ->
  exact_equity q ranges board dead threads false sched = Ret (ROk o) -> ~ In Cancel sched -> (0 < threads)%nat ->
  let found i us := Forall2 (fun k u => get_combo_result q (r_combo_results (o_results o)) i (kind_name k) = Ret (ROk u)) kinds us in
  let pots m := nth m (r_wins_by_mask (o_results o)) 0 in
  exists us vs, found 0 us /\ found 1 vs /\ sum_of u_wins us = pots 1%nat /\ sum_of u_wins vs = pots 2%nat /\ sum_of u_ties us = pots 3%nat /\ sum_of u_ties vs = pots 3%nat /\
    sum_of u_total us = pots 1%nat + pots 2%nat + pots 3%nat /\ sum_of u_total vs = pots 1%nat + pots 2%nat + pots 3%nat.
Proof.
  intros HT H2 H Hc Ht found pots. assert (Hs : small_table (length texts) board) by (left; lia).
  destruct (text_combos _ _ _ _ board dead q threads sched o HT Hs H Hc Ht 0%nat ltac:(lia)) as (us & HU & UW & UT & UA).
  destruct (text_combos _ _ _ _ board dead q threads sched o HT Hs H Hc Ht 1%nat ltac:(lia)) as (vs & HV & VW & VT & VA).
  destruct (text_by_name _ _ _ _ board dead q threads sched o HT Hs H Hc Ht) as [HM _]. destruct (read_light _ _ _ _ HT) as (EL & _). rewrite H2 in HM, EL.
  assert (HD : forall d, In d (deals ranges board dead) -> length d = 2%nat) by (intros d Hd; rewrite (deal_length _ _ _ _ Hd); exact EL).
  assert (P1 : pots 1%nat = total_of ranges board dead (fun d l => nats_eqb (winners d l) [0%nat])) by (pose proof (HM 1 ltac:(reflexivity)) as HX; unfold won_by in HX; rewrite EL in HX; exact HX).
  assert (P2 : pots 2%nat = total_of ranges board dead (fun d l => nats_eqb (winners d l) [1%nat])) by (pose proof (HM 2 ltac:(reflexivity)) as HX; unfold won_by in HX; rewrite EL in HX; exact HX).
  assert (P3 : pots 3%nat = total_of ranges board dead (fun d l => nats_eqb (winners d l) [0%nat; 1%nat])) by (pose proof (HM 3 ltac:(reflexivity)) as HX; unfold won_by in HX; rewrite EL in HX; exact HX).
  assert (PA : total_of ranges board dead (fun _ _ => true) = pots 1%nat + pots 2%nat + pots 3%nat).
  { rewrite P1, P2, P3. rewrite !total_both.
    - apply total_same. intros d l Hd. destruct (two_winners d l (HD d Hd)) as [E|[E|E]]; rewrite E; reflexivity.
    - intros d l Hd. destruct (two_winners d l (HD d Hd)) as [E|[E|E]]; rewrite E; reflexivity.
    - intros d l Hd. destruct (two_winners d l (HD d Hd)) as [E|[E|E]]; rewrite E; reflexivity. }
  exists us, vs. split; [exact HU|]. split; [exact HV|]. rewrite UW, VW, UT, VT, UA, VA, PA. split; [symmetry; exact P1|]. split; [symmetry; exact P2|].
  rewrite P3. split; [|split; [|split; reflexivity]]; apply total_same; intros d l Hd; destruct (two_winners d l (HD d Hd)) as [E|[E|E]]; rewrite E; reflexivity.
Qed.
