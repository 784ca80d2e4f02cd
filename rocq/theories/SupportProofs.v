(* An approximate run counts only what a complete exact run counts, too. *)
From Coq Require Import Permutation.
From Verif Require Import Base BaseProofs SumFacts Ghost Float64 Hand FastDivide Range Combined Sim Approx SpecPoker ListFacts
  SpecNames SpecHand SpecRange SpecEquity SpecResults SpecRun SpecApprox EnumProofs ShowdownProofs BoardProofs CombinedProofs ExactProofs ResultProofs RunProofs
  ApproxProofs ApproxResultProofs ShareProofs SureProofs ProfileProofs ConflictProofs PokerFacts.
Local Open Scope N_scope.
#[local] Opaque NUM_HANDS.

Lemma sampled_some E what : sampled E what <> 0 -> exists s, In s E /\ what (fst s) (snd s) = true /\ deal_weight (fst s) <> 0.
Proof.
  rewrite sampled_sumf. induction E as [|s E IH]; [intros H; contradiction|]. rewrite sumf_cons. intros H. destruct (what (fst s) (snd s)) eqn:Ew.
  - destruct (N.eq_dec (deal_weight (fst s)) 0) as [E0|E0]; [|exists s; split; [left; reflexivity|split; assumption]]. rewrite E0 in H. destruct (IH H) as (s' & Hs & Hr). exists s'. split; [right; exact Hs|exact Hr].
  - destruct (IH H) as (s' & Hs & Hr). exists s'. split; [right; exact Hs|exact Hr].
Qed.
Lemma total_some ranges board dead what d l : In d (deals ranges board dead) -> In l (boards board dead d) -> what d l = true -> deal_weight d <> 0 -> total_of ranges board dead what <> 0.
Proof.
  intros Hd Hl Hw Hn. unfold total_of. rewrite <- sumf_sum_of.
  assert (H1 : sumf (fun l => if what d l then 1 else 0) (boards board dead d) <> 0).
  { pose proof (sumf_in_le (fun l => if what d l then 1 else 0) (boards board dead d) l Hl) as H. cbv beta in H. rewrite Hw in H. lia. }
  pose proof (sumf_in_le (fun d => deal_weight d * sum_of (fun l => if what d l then 1 else 0) (boards board dead d)) (deals ranges board dead) d Hd) as H2. cbv beta in H2. rewrite <- (sumf_sum_of _ (boards board dead d)) in H2. nia.
Qed.
Lemma counter_some p x v : counter p x v -> x <> 0 -> v <> 0.
Proof. destruct p; cbn [counter]; intros -> H E; apply H; rewrite E; reflexivity. Qed.
Lemma legal_deal ranges board dead s : legal_sample ranges board dead s -> In (fst s) (deals ranges board dead) /\ exists l, In l (boards board dead (fst s)) /\ Permutation (snd s) l.
Proof.
  destruct s as [d l]. cbn [fst snd]. intros (H1 & (cs & El & Hcs) & H5 & Hnd & Hoff). split; [|exact (good_board _ _ _ _ _ El H5 Hnd Hcs)].
  unfold deals. apply filter_In. split; [apply in_picks_of; exact H1|]. apply possible_spec. split.
  - apply NoDup_app_l in Hnd. exact Hnd.
  - intros c Hc. rewrite Forall_forall in Hoff. destruct (Hoff c Hc) as [E1 E2]. unfold on_table. rewrite E1, E2. reflexivity.
Qed.
Lemma legal_total ranges board dead E what : Forall (legal_sample ranges board dead) E -> (forall d l l', Permutation l l' -> what d l = what d l') ->
  sampled E what <> 0 -> total_of ranges board dead what <> 0.
Proof.
  intros HE Hp H. apply sampled_some in H as (s & Hs & Hw & Hn). rewrite Forall_forall in HE. destruct (legal_deal _ _ _ s (HE s Hs)) as (Hd & l & Hl & HP).
  rewrite (Hp _ _ _ HP) in Hw. exact (total_some ranges board dead what (fst s) l Hd Hl Hw Hn).
Qed.

Lemma approx_possible p ranges board dead threads target cancelled shuf rngs fuel sched o : Forall range_ok ranges -> permutes shuf ->
  approx_equity p ranges board dead threads target cancelled shuf rngs fuel sched = Ret (ROk o) ->
  ((length ranges <= 8)%nat -> forall m, m < 2 ^ N.of_nat (length ranges) -> nth (N.to_nat m) (r_wins_by_mask (o_results o)) 0 <> 0 -> won_by ranges board dead m <> 0) /\
  (forall i a b k u, (i < length ranges)%nat -> hole a b -> get_card_index p a b = Ret k -> nth_error (r_hand_results (o_results o)) (1326 * i + N.to_nat k) = Some u ->
   (u_wins u <> 0 -> hand_wins ranges board dead i a b <> 0) /\ (u_ties u <> 0 -> hand_ties ranges board dead i a b <> 0) /\ (u_total u <> 0 -> hand_total ranges board dead i a b <> 0)).
Proof.
  intros Hr Hs H. destruct (samples_legal _ _ _ _ _ _ _ _ _ _ _ _ Hr Hs H) as (E & HE & (C1 & C2 & _) & _). split.
  - intros H8 m Hm Hne. apply (counter_some _ _ _ (C1 m Hm)) in Hne. apply (legal_total ranges board dead E _ HE).
    + intros d l l' HP. rewrite (winners_order d l l' HP). reflexivity.
    + intros E0. apply Hne. rewrite <- E0. rewrite !sampled_sumf. apply sumf_ext. intros s Hin. replace (first_eight (winners (fst s) (snd s))) with (winners (fst s) (snd s)); [reflexivity|].
      symmetry. unfold first_eight. rewrite Forall_forall in HE. destruct (legal_deal _ _ _ s (HE s Hin)) as [G _]. apply deal_length in G. apply filter_all. apply forallb_forall. intros x Hx. apply ResultProofs.winners_lt in Hx. apply Nat.ltb_lt. lia.
  - intros i a b k u Hi Hab Hk Hu. destruct (C2 i a b k Hi Hab Hk) as (u' & Hu' & D1 & D2 & D3). rewrite Hu in Hu'. injection Hu' as <-.
    split; [|split]; intros Hne; [apply (counter_some _ _ _ D1) in Hne|apply (counter_some _ _ _ D2) in Hne|apply (counter_some _ _ _ D3) in Hne]; revert Hne; apply (legal_total ranges board dead E _ HE); intros d l l' HP;
      unfold wins_with, ties_with; rewrite ?(winners_order d l l' HP); reflexivity.
Qed.
(* the same, in a complete exact run *)
Lemma counter_exact x v : counter Debug x v -> v <> 0 -> x <> 0.
Proof. cbn [counter]. intros ->. auto. Qed.
Lemma approx_in_exact p ranges board dead threads target cancelled shuf rngs fuel sched o threads' sched' o' : usable ranges -> permutes shuf -> p = Debug \/ weights_fit ranges board ->
  approx_equity p ranges board dead threads target cancelled shuf rngs fuel sched = Ret (ROk o) ->
  exact_equity p ranges board dead threads' false sched' = Ret (ROk o') -> ~ In Cancel sched' -> (0 < threads')%nat ->
  ((length ranges <= 8)%nat -> forall m, m < 2 ^ N.of_nat (length ranges) -> nth (N.to_nat m) (r_wins_by_mask (o_results o)) 0 <> 0 -> nth (N.to_nat m) (r_wins_by_mask (o_results o')) 0 <> 0) /\
  (forall i a b k u u', (i < length ranges)%nat -> hole a b -> get_card_index p a b = Ret k -> nth_error (r_hand_results (o_results o)) (1326 * i + N.to_nat k) = Some u ->
   nth_error (r_hand_results (o_results o')) (1326 * i + N.to_nat k) = Some u' -> (u_wins u <> 0 -> u_wins u' <> 0) /\ (u_ties u <> 0 -> u_ties u' <> 0) /\ (u_total u <> 0 -> u_total u' <> 0)).
Proof.
  intros Hu Hs Hw HA HX Hc Ht. destruct (approx_possible _ _ _ _ _ _ _ _ _ _ _ _ (proj1 Hu) Hs HA) as [P1 P2]. pose proof (exact_debug _ _ _ _ _ _ _ _ Hu Hw HX) as HD. split.
  - intros H8 m Hm Hne. destruct (masks_spec _ _ _ _ _ _ _ Hu HD Hc Ht) as [_ HM]. exact (counter_exact _ _ (HM H8 m Hm) (P1 H8 m Hm Hne)).
  - intros i a b k u u' Hi Hab Hk Hn Hn'. destruct (P2 i a b k u Hi Hab Hk Hn) as (Q1 & Q2 & Q3).
    assert (Hk' : get_card_index Debug a b = Ret k) by (rewrite <- Hk; destruct p; [reflexivity|]; destruct (idx_spec Debug a b Hab) as [E1 _]; destruct (ag_get_card_index a b) as [E2|E2]; [rewrite E1 in E2; discriminate|symmetry; exact E2]).
    destruct (hands_spec _ _ _ _ _ _ _ Hu HD Hc Ht i a b k Hi Hab Hk') as (x & Hx & D1 & D2 & D3). rewrite Hn' in Hx. injection Hx as <-.
    split; [|split]; intros Hne; eapply counter_exact; eauto.
Qed.
