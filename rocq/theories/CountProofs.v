(* The number of evaluations of an exact run. *)
From Verif Require Import Base BaseProofs SumFacts ListFacts Ghost Float64 Hand Range FastDivide Combined Sim SpecPoker SpecNames SpecHand SpecRange SpecEquity SpecResults SpecRun
  PokerFacts IndexProofs EnumProofs ShowdownProofs BoardProofs CombinedProofs PositionProofs MergeProofs MachineProofs SetupProofs WeightProofs FinalProofs ExactProofs ResultProofs
  CombineRunProofs RunProofs ConsistProofs.
From Coq Require Import Permutation.
Local Open Scope N_scope.

Lemma evaluations_le p ranges board dead threads cancelled sched o : usable ranges -> exact_equity p ranges board dead threads cancelled sched = Ret (ROk o) ->
  r_eval_count (o_results o) <= sum_of (fun d => N.of_nat (length (boards board dead d))) (deals ranges board dead).
Proof.
  intros Hu H. destruct (exact_common p ranges board dead Hu) as (total & work & _ & HP & HW & Hrun).
  destruct (Hrun _ _ _ _ H) as (_ & made & left & es & [Hp _ Hrep _ _ _ _]).
  pose proof (rp_count _ _ _ _ _ _ _ Hrep) as Hc.
  assert (H1 : r_eval_count (o_results o) <= sum_of snd made).
  { destruct p; cbn [counter] in Hc; rewrite Hc; [apply N.le_refl|]. apply N.mod_le. discriminate. }
  eapply N.le_trans; [exact H1|]. clear H1 Hc Hrep H Hrun.
  rewrite <- !sumf_sum_of. rewrite <- (sumf_perm _ _ _ HP), sumf_map.
  rewrite <- (sumf_perm _ _ _ Hp) in *. rewrite sumf_app.
  assert (Hm : Forall (fun w => snd w <= N.of_nat (length (boards board dead (fst w)))) made).
  { apply (Permutation_Forall (Permutation_sym Hp)) in HW. apply Forall_app in HW as [HW _]. eapply Forall_impl; [|exact HW]. intros w Hw. apply Hw. }
  eapply N.le_trans; [apply sumf_le with (g := fun w => N.of_nat (length (boards board dead (fst w))))|apply N.le_add_r].
  rewrite Forall_forall in Hm. exact Hm.
Qed.

(* the deals that can be completed are evaluated at least once *)
Lemma evaluations_ge p ranges board dead threads sched o : usable ranges -> p = Debug \/ sum_of (fun d => N.of_nat (length (boards board dead d))) (deals ranges board dead) < 2 ^ 64 ->
  exact_equity p ranges board dead threads false sched = Ret (ROk o) -> ~ In Cancel sched -> (0 < threads)%nat ->
  N.of_nat (length (filter (fun d => negb (length (boards board dead d) =? 0)%nat) (deals ranges board dead))) <= r_eval_count (o_results o).
Proof.
  intros Hu Hfit H Hc Ht. destruct (exact_common p ranges board dead Hu) as (total & work & _ & HP & HW & Hrun).
  destruct (Hrun _ _ _ _ H) as (_ & made & left & es & [Hp Hfull Hrep _ _ _ _]).
  destruct Hfull as [-> _]; [split; [reflexivity|]; split; [apply not_cancelled; exact Hc|exact Ht]|]. rewrite app_nil_r in Hp.
  pose proof (rp_count _ _ _ _ _ _ _ Hrep) as Hcount.
  apply (Permutation_Forall (Permutation_sym Hp)) in HW.
  assert (HD : Permutation (map fst made) (deals ranges board dead)) by (etransitivity; [apply Permutation_map; exact Hp|exact HP]).
  assert (H1 : sum_of snd made <= sum_of (fun d => N.of_nat (length (boards board dead d))) (deals ranges board dead)).
  { rewrite <- !sumf_sum_of, <- (sumf_perm _ _ _ HD), sumf_map. apply sumf_le. intros w Hw. rewrite Forall_forall in HW. apply (HW w Hw). }
  assert (H2 : r_eval_count (o_results o) = sum_of snd made).
  { destruct p; cbn [counter] in Hcount; [exact Hcount|]. rewrite Hcount. apply N.mod_small. destruct Hfit as [Hd|Hfit]; [discriminate|]. eapply N.le_lt_trans; [exact H1|exact Hfit]. }
  rewrite H2, <- sumf_1_length, sumf_filter, <- (sumf_perm _ _ _ HD), sumf_map. change (sum_of snd made) with (sumf snd made). apply sumf_le. intros w Hw. rewrite Forall_forall in HW. destruct (HW w Hw) as [_ H3].
  destruct (Nat.eqb_spec (length (boards board dead (fst w))) 0) as [E|E]; cbn [negb]; [apply N.le_0_l|]. apply H3. lia.
Qed.
(* on a complete board there is one board *)
Lemma one_board board dead d : length (mask_cards board) = 5%nat -> boards board dead d = [mask_cards board].
Proof. intros H. unfold boards. rewrite H, Nat.sub_diag, choose_0. cbn [map]. rewrite app_nil_r. reflexivity. Qed.
Lemma evaluations_river p ranges board dead threads sched o : usable ranges -> length (mask_cards board) = 5%nat ->
  exact_equity p ranges board dead threads false sched = Ret (ROk o) -> ~ In Cancel sched -> (0 < threads)%nat ->
  r_eval_count (o_results o) = N.of_nat (length (deals ranges board dead)).
Proof.
  intros Hu Hb H Hc Ht.
  assert (E : sum_of (fun d => N.of_nat (length (boards board dead d))) (deals ranges board dead) = N.of_nat (length (deals ranges board dead))).
  { rewrite <- sumf_sum_of, <- sumf_1_length. apply sumf_ext. intros d _. rewrite one_board by exact Hb. reflexivity. }
  pose proof (evaluations_le _ _ _ _ _ _ _ _ Hu H) as H1. rewrite E in H1.
  assert (Hsmall : N.of_nat (length (deals ranges board dead)) < 2 ^ 64).
  { destruct Hu as [_ Hs]. unfold deals. pose proof (filter_length_le (possible board dead) (picks ranges)) as HF. 
    assert (HL : N.of_nat (length (picks ranges)) = prod_of len ranges).
    { clear. unfold prod_of. induction ranges as [|r rs IH]; [reflexivity|]. cbn [picks fold_right]. rewrite <- IH. unfold len. clear IH.
      induction r as [|h r IHr]; [reflexivity|]. cbn [flat_map length]. rewrite app_length, map_length. lia. }
    apply N.lt_trans with (2 ^ 63); [|reflexivity]. eapply N.le_lt_trans; [|exact Hs]. change (prod_of (fun r : list whand => N.of_nat (length r)) ranges) with (prod_of len ranges). rewrite <- HL. lia. }
  rewrite <- E in Hsmall. pose proof (evaluations_ge p ranges board dead threads sched o Hu (or_intror Hsmall) H Hc Ht) as H2.
  rewrite (filter_all (fun d => negb (length (boards board dead d) =? 0)%nat)) in H2; [apply N.le_antisymm; assumption|]. apply forallb_forall.
  intros d _. rewrite one_board by exact Hb. reflexivity.
Qed.
