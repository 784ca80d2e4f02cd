(* Equities of runs whose pots split evenly depend only on who wins what. *)
From Coq Require Import Permutation.
From Verif Require Import Base BaseProofs SumFacts ListFacts Ghost Float64 Hand Range FastDivide Combined Sim SpecPoker SpecNames SpecHand SpecEquity SpecResults SpecRun SpecSymmetry SpecShare SpecEven
  EnumProofs PokerFacts IndexProofs CombinedProofs PositionProofs MachineProofs SetupProofs WeightProofs FinalProofs ExactProofs ResultProofs CombineRunProofs RunProofs LaunchProofs ConsistProofs SymmetryProofs
  EquityProofs ShareProofs EvenProofs.
Local Open Scope N_scope.

Definition fits (p : profile) (ranges : list (list whand)) (board : N) : Prop := p = Debug \/ weights_fit ranges board.

Lemma same_winners p ranges ranges' board board' dead dead' o o' : usable ranges -> usable ranges' -> length ranges' = length ranges -> fits p ranges board -> fits p ranges' board' ->
  even_deals ranges board dead -> even_deals ranges' board' dead' -> completes p ranges board dead o -> completes p ranges' board' dead' o' ->
  sum_of (fun x => x) (r_wins_by_mask (o_results o)) <= 2 ^ 53 ->
  (forall m, m < 2 ^ N.of_nat (length ranges) -> figure_of p o' (Winners m) = figure_of p o (Winners m)) -> r_equities (o_results o') = r_equities (o_results o).
Proof.
  intros Hu Hu' Hl Hf Hf' He He' (th & sc & Ht & Hc & H) (th' & sc' & Ht' & Hc' & H') Hs HF.
  assert (E : r_wins_by_mask (o_results o') = r_wins_by_mask (o_results o)).
  { destruct (masks_spec _ _ _ _ _ _ _ Hu H Hc Ht) as [L _]. destruct (masks_spec _ _ _ _ _ _ _ Hu' H' Hc' Ht') as [L' _]. rewrite Hl in L'.
    apply nth_error_ext. intros k. destruct (Nat.ltb_spec k (2 ^ length ranges)) as [Hk|Hk].
    - specialize (HF (N.of_nat k)). cbn [figure_of] in HF. rewrite Nat2N.id in HF. apply HF. change 2 with (N.of_nat 2). rewrite <- Nat2N.inj_pow. lia.
    - rewrite (proj2 (nth_error_None _ k)) by (rewrite L'; exact Hk). symmetry. apply nth_error_None. rewrite L. exact Hk. }
  destruct (exact_whole _ _ _ _ _ _ _ _ Hu Hf He H Hs) as [E1 _]. pose proof (exact_whole _ _ _ _ _ _ _ _ Hu' Hf' He' H') as E2. cbv zeta in E2. rewrite E in E2. destruct (E2 Hs) as [E3 _].
  rewrite E1, E3, Hl. reflexivity.
Qed.

(* ------------------------------------------------------------------------- *)
(** * Order of the hands, hands that cannot be dealt, suits *)

Lemma even_order ranges ranges' board dead : Forall2 (@Permutation whand) ranges ranges' -> even_deals ranges board dead -> even_deals ranges' board dead.
Proof.
  intros HP He d k Hd Hk. apply He; [|rewrite (Forall2_length _ _ _ HP); exact Hk]. unfold deals in *. apply filter_In in Hd as [Hd Hp]. apply filter_In. split; [|exact Hp].
  eapply Permutation_in; [symmetry; apply picks_perm; exact HP|exact Hd].
Qed.
Lemma picks_filter g (rs : list (list whand)) : forall d, In d (picks (map (filter g) rs)) -> In d (picks rs).
Proof.
  induction rs as [|r rs IH]; intros d Hd; [exact Hd|]. cbn [map picks] in *. apply in_flat_map in Hd as (h & Hh & Hd). apply in_map_iff in Hd as (d' & <- & Hd).
  apply filter_In in Hh as [Hh _]. apply in_flat_map. exists h. split; [exact Hh|]. apply in_map, IH, Hd.
Qed.
Lemma even_usable ranges board dead : even_deals ranges board dead -> even_deals (map (filter (usable_hand board dead)) ranges) board dead.
Proof.
  intros He d k Hd Hk. rewrite map_length in Hk. apply He; [|exact Hk]. unfold deals in *. apply filter_In in Hd as [Hd Hp]. apply filter_In. split; [|exact Hp]. eapply picks_filter. exact Hd.
Qed.
Lemma picks_renamed f ranges : picks (map (map (rename_hand f)) ranges) = map (rename_deal f) (picks ranges).
Proof.
  induction ranges as [|r rs IH]; [reflexivity|]. cbn [map picks]. rewrite IH. induction r as [|h r IHr]; [reflexivity|].
  cbn [map flat_map]. rewrite map_app, IHr. f_equal. rewrite !map_map. apply map_ext. reflexivity.
Qed.
Lemma picks_cards ranges : Forall range_ok ranges -> forall d, In d (picks ranges) -> Forall (fun c => c < 52) (dealt d).
Proof.
  induction 1 as [|r rs [Hr _] Hrs IH]; intros d Hd; cbn [picks] in Hd; [destruct Hd as [<-|[]]; constructor|].
  apply in_flat_map in Hd as (h & Hh & Hd). apply in_map_iff in Hd as (d' & <- & Hd). rewrite Forall_forall in Hr. destruct (Hr h Hh) as [(H1 & H2 & _) _].
  unfold dealt. cbn [flat_map]. apply Forall_app. split; [repeat constructor; assumption|apply IH, Hd].
Qed.
Lemma even_renamed f ranges board board' dead dead' : suit_permutation f -> renamed_mask f board board' -> renamed_mask f dead dead' -> Forall range_ok ranges ->
  even_deals ranges board dead -> even_deals (map (map (rename_hand f)) ranges) board' dead'.
Proof.
  intros Hf Hb Hd Hr He d k Hin Hk. rewrite map_length in Hk. unfold deals in Hin. rewrite picks_renamed in Hin. apply filter_In in Hin as [Hin Hp].
  apply in_map_iff in Hin as (d' & <- & Hin). rewrite (possible_renamed f Hf board board' dead dead' Hb Hd d' (picks_cards _ Hr _ Hin)) in Hp.
  assert (E : deal_weight (rename_deal f d') = deal_weight d').
  { clear. unfold deal_weight, rename_deal. induction d' as [|h d IH]; [reflexivity|]. cbn [map fold_right]. rewrite IH. reflexivity. }
  rewrite E. apply He; [|exact Hk]. apply filter_In. split; assumption.
Qed.

Lemma equities_order p ranges ranges' board dead o o' : usable ranges -> usable ranges' -> fits p ranges board -> fits p ranges' board ->
  even_deals ranges board dead -> sum_of (fun x => x) (r_wins_by_mask (o_results o)) <= 2 ^ 53 ->
  Forall2 (@Permutation whand) ranges ranges' -> completes p ranges board dead o -> completes p ranges' board dead o' -> r_equities (o_results o') = r_equities (o_results o).
Proof.
  intros Hu Hu' Hf Hf' He Hs HP H H'. eapply (same_winners p ranges ranges' board board dead dead); try eassumption.
  - symmetry. eapply Forall2_length. exact HP.
  - eapply even_order; eassumption.
  - intros m Hm. apply (order_of_hands p ranges ranges' board dead o o'); assumption.
Qed.
Lemma equities_usable p ranges board dead o o' : let ranges' := map (filter (usable_hand board dead)) ranges in
  usable ranges -> usable ranges' -> fits p ranges board -> fits p ranges' board ->
  even_deals ranges board dead -> sum_of (fun x => x) (r_wins_by_mask (o_results o)) <= 2 ^ 53 ->
  completes p ranges board dead o -> completes p ranges' board dead o' -> r_equities (o_results o') = r_equities (o_results o).
Proof.
  intros ranges' Hu Hu' Hf Hf' He Hs H H'. eapply (same_winners p ranges ranges' board board dead dead); try eassumption.
  - apply map_length.
  - apply even_usable. exact He.
  - intros m Hm. apply (usable_hands p ranges board dead o o'); assumption.
Qed.
Lemma equities_renamed p f ranges board board' dead dead' o o' : let ranges' := map (map (rename_hand f)) ranges in
  suit_permutation f -> renamed_mask f board board' -> renamed_mask f dead dead' ->
  usable ranges -> usable ranges' -> fits p ranges board -> fits p ranges' board' ->
  even_deals ranges board dead -> sum_of (fun x => x) (r_wins_by_mask (o_results o)) <= 2 ^ 53 ->
  completes p ranges board dead o -> completes p ranges' board' dead' o' -> r_equities (o_results o') = r_equities (o_results o).
Proof.
  intros ranges' Hs Hb Hd Hu Hu' Hf Hf' He Hsum H H'. eapply (same_winners p ranges ranges' board board' dead dead'); try eassumption.
  - apply map_length.
  - apply (even_renamed f ranges board board' dead dead'); try assumption. apply Hu.
  - intros m Hm. apply (renamed_suits p f ranges board board' dead dead' o o' Hs Hb Hd Hu H H' (Winners m)). exact Hm.
Qed.
