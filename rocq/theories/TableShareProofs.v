(* Equities of two ranges given as texts without weights. *)
From Coq Require Import QArith Permutation.
From Verif Require Import Base BaseProofs SumFacts ListFacts Float64 Hand Range FastDivide Combined Sim SpecPoker SpecHand SpecNames SpecEquity
  SpecResults SpecRun SpecShare SpecEven SpecRates SpecConflict SpecTable PositionProofs ExactProofs ResultProofs ConsistProofs NumberProofs SureProofs CombineRunProofs ConflictProofs RunProofs TableProofs TableRunProofs PropScale.
Local Open Scope N_scope.

Lemma pots_le ranges board dead : dealt_pots ranges board dead <= max_boards board * prod_of range_weight ranges.
Proof.
  change (dealt_pots ranges board dead) with (sum_over board dead (deals ranges board dead) (fun _ _ => true)). rewrite sum_over_sumf.
  apply N.le_trans with (sumf (fun d => max_boards board * big_weight d) (deals ranges board dead)).
  - apply sumf_le. intros d _. pose proof (deal_weight_le d) as H1. pose proof (boards_le board dead d) as H2.
    assert (H3 : sumf (fun l => if (fun (_ : list whand) (_ : list N) => true) d l then 1 else 0) (boards board dead d) <= N.of_nat (length (boards board dead d))) by (apply sum_one_le; intros l; lia). nia.
  - rewrite sumf_mul. apply N.mul_le_mono_l. apply (sum_deals_le ranges board dead).
Qed.

Lemma plain_deal ranges board dead d : plain ranges -> In d (deals ranges board dead) -> deal_weight d = 100 ^ N.of_nat (length ranges).
Proof.
  intros Hp Hd. unfold deals in Hd. apply filter_In in Hd as [Hd _]. revert d Hd. induction Hp as [|r ranges Hr Hp IH]; intros d Hd.
  - destruct Hd as [<-|[]]. reflexivity.
  - cbn [picks] in Hd. apply in_flat_map in Hd as (h & Hh & Hd). apply in_map_iff in Hd as (d' & <- & Hd'). cbn [deal_weight fold_right length]. fold (deal_weight d'). rewrite (IH d' Hd').
    rewrite Forall_forall in Hr. rewrite (Hr h Hh), Nat2N.inj_succ, N.pow_succ_r'. reflexivity.
Qed.
Lemma plain_even ranges board dead : plain ranges -> length ranges = 2%nat -> even_deals ranges board dead.
Proof.
  intros Hp H2 d k Hd Hk. rewrite (plain_deal _ _ _ _ Hp Hd), H2. rewrite H2 in Hk. assert (E : k = 1 \/ k = 2) by lia. destruct E as [-> | ->]; [exists 10000|exists 5000]; reflexivity.
Qed.
Lemma plain_heavy ranges : plain ranges -> heavy ranges.
Proof.
  intros H. unfold heavy. eapply Forall_impl; [|exact H]. intros r Hr. eapply Forall_impl; [|exact Hr]. cbn beta. intros h ->. lia.
Qed.

Lemma deals_or_error p ranges board dead threads cancelled sched o : usable ranges -> board < 2 ^ 64 -> dead < 2 ^ 64 -> exact_equity p ranges board dead threads cancelled sched = Ret (ROk o) ->
  (length ranges <= 3)%nat -> (length ranges = 3%nat -> Forall no_repeats ranges) -> accepted (length ranges) board dead /\ deals ranges board dead <> [].
Proof.
  intros Hu Hb Hd H H3 HN. destruct (exact_counts _ _ _ _ _ _ _ _ Hu H) as (_ & _ & _ & _ & Hv). apply (accepted_ok _ _ _ Hb Hd) in Hv. split; [exact Hv|]. intros E.
  destruct (equity_conflict p ranges board dead (proj1 Hu) Hb Hd Hv H3 HN) as [HX _]. rewrite (proj2 (HX threads cancelled sched) E) in H. discriminate.
Qed.

Lemma text_equities lower p texts (ranges : list (list whand)) board dead q threads sched o : from_strings lower p texts = Ret ranges -> length texts = 2%nat -> plain ranges ->
  (3 <= length (mask_cards board))%nat \/ dealt_pots ranges board dead <= 2 ^ 53 -> board < 2 ^ 64 -> dead < 2 ^ 64 ->
  exact_equity q ranges board dead threads false sched = Ret (ROk o) -> ~ In Cancel sched -> (0 < threads)%nat ->
  forall j, (j < 2)%nat -> closest (nth j (r_equities (o_results o)) f_zero) (ratio (dealt_shares ranges board dead j) (2520 * dealt_pots ranges board dead)).
Proof.
  intros HT H2 Hp Hsize Hb Hd H Hc Ht j Hj. assert (H6 : (length texts <= 6)%nat) by lia. assert (Hs : small_table (length texts) board) by (left; lia).
  pose proof (text_usable _ _ _ _ HT H6) as Hu. pose proof (text_fit _ _ _ _ _ HT Hs) as Hw. destruct (read_light _ _ _ _ HT) as (EL & _ & _ & HW). rewrite H2 in EL.
  assert (H53 : dealt_pots ranges board dead <= 2 ^ 53).
  { destruct Hsize as [H3|H53]; [|exact H53]. etransitivity; [apply pots_le|]. apply prod_le in HW. rewrite EL in HW. assert (HB : max_boards board <= 52 ^ N.of_nat 2) by (apply max_boards_le; lia).
    etransitivity; [apply N.mul_le_mono; [exact HB|exact HW]|]. vm_compute. discriminate. }
  assert (H0 : 0 < dealt_pots ranges board dead).
  { destruct (deals_or_error q ranges board dead threads false sched o Hu Hb Hd H) as [Ha Hne]; [lia|intros E3; lia|]. apply heavy_pots; [exact Ha|exact (plain_heavy _ Hp)|exact Hne]. }
  apply (C128_true_equity q ranges board dead threads sched o Hu); try assumption; [lia|right; exact Hw|exact (plain_even _ _ _ Hp EL)|lia].
Qed.
