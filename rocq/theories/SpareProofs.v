(* Taking one card after the other out of play. *)
From Coq Require Import Permutation.
From Verif Require Import Base BaseProofs SumFacts ListFacts Ghost Float64 Hand FastDivide Range Combined Sim SpecPoker SpecNames SpecHand SpecEquity SpecResults SpecRun SpecStreet
  EnumProofs ShowdownProofs BoardProofs CombinedProofs SetupProofs ExactProofs ResultProofs CombineRunProofs RunProofs ConsistProofs ShareProofs SureProofs IndexProofs StreetProofs.
Local Open Scope N_scope.
#[local] Opaque NUM_HANDS.

(* ------------------------------------------------------------------------- *)
(** * One card out of play after the other *)

Lemma one_spared (U : list N) : NoDup U -> forall r (h : list N -> N),
  sumf (fun c => sumf h (choose r (without c U))) U + N.of_nat r * sumf h (choose r U) = N.of_nat (length U) * sumf h (choose r U).
Proof.
  induction 1 as [|x U Hx HU IH]; intros r h; [cbn [length]; destruct r as [|r]; [rewrite choose_0; cbn [N.of_nat]; rewrite sumf_nil; lia|cbn [choose]; rewrite !sumf_nil; lia]|].
  rewrite sumf_cons. assert (E0 : without x (x :: U) = U) by (unfold without; cbn [filter]; rewrite N.eqb_refl; cbn [negb]; apply (without_out x U Hx)). rewrite E0.
  rewrite (sumf_ext (fun c => sumf h (choose r (without c (x :: U)))) (fun c => sumf h (choose r (x :: without c U)))) by (intros c Hc; rewrite without_cons; [reflexivity|intros ->; contradiction]).
  cbn [length]. destruct r as [|r].
  - rewrite (sumf_ext (fun c => sumf h (choose 0 (x :: without c U))) (fun _ => sumf h [[]])) by reflexivity. rewrite sumf_const, !choose_0. lia.
  - rewrite (choose_cons (S r) x U) by lia. rewrite sumf_app, sumf_map. replace (S r - 1)%nat with r by lia.
    rewrite (sumf_ext _ (fun c => sumf (fun cs => h (x :: cs)) (choose r (without c U)) + sumf h (choose (S r) (without c U)))).
    2: { intros c _. rewrite (choose_cons (S r)) by lia. rewrite sumf_app, sumf_map. replace (S r - 1)%nat with r by lia. reflexivity. }
    rewrite sumf_add. pose proof (IH r (fun cs => h (x :: cs))) as I1. pose proof (IH (S r) h) as I2.
    rewrite !Nat2N.inj_succ in *. lia.
Qed.

Lemma dead_table board dead c x : on_table board (with_card dead c) x = on_table board dead x || (x =? c).
Proof. unfold on_table. rewrite with_card_bit. apply orb_assoc. Qed.
Lemma dead_possible board dead c d : possible board (with_card dead c) d = possible board dead d && negb (existsb (N.eqb c) (dealt d)).
Proof.
  unfold possible. rewrite (forallb_same _ (fun x => negb (on_table board dead x) && negb (x =? c))) by (intros x; rewrite dead_table, negb_orb; reflexivity).
  rewrite forallb_and, forallb_not. apply andb_assoc.
Qed.
Lemma dead_unseen board dead c d : unseen board (with_card dead c) d = without c (unseen board dead d).
Proof.
  unfold unseen, without. rewrite filter_filter. apply filter_ext. intros x. rewrite dead_table, negb_orb. destruct (on_table board dead x), (x =? c), (existsb _ _); reflexivity.
Qed.
Lemma split_count {A} (f : A -> bool) l : length l = (length (filter f l) + length (filter (fun x => negb (f x)) l))%nat.
Proof. induction l as [|x l IH]; [reflexivity|]. cbn [filter]. destruct (f x); cbn [negb length]; lia. Qed.
Lemma distinct_NoDup l : distinct l = true -> NoDup l.
Proof.
  induction l as [|x l IH]; intros H; [constructor|]. cbn [distinct] in H. apply andb_true_iff in H as [H1 H2]. constructor; [|exact (IH H2)]. intros HI. apply negb_true_iff in H1.
  assert (E : existsb (N.eqb x) l = true) by (apply existsb_exists; exists x; split; [exact HI|apply N.eqb_refl]). congruence.
Qed.
Lemma play_count board dead d : possible board dead d = true -> Forall (fun c => c < 52) (dealt d) -> length (in_play board dead) = (length (unseen board dead d) + length (dealt d))%nat.
Proof.
  intros HP HC. rewrite unseen_play. rewrite (split_count (fun c => negb (existsb (N.eqb c) (dealt d))) (in_play board dead)). f_equal. unfold possible in HP. apply andb_true_iff in HP as [H1 H2]. apply distinct_NoDup in H1.
  apply Permutation_length. apply NoDup_Permutation; [apply NoDup_filter; apply NoDup_filter, nseq_NoDup|exact H1|]. intros x. rewrite filter_In, negb_involutive, existsb_exists. split.
  - intros [_ (y & Hy & E)]. apply N.eqb_eq in E. subst y. exact Hy.
  - intros Hx. rewrite Forall_forall in HC. rewrite forallb_forall in H2. split; [|exists x; split; [exact Hx|apply N.eqb_refl]]. apply in_play_in. split; [|exact (H2 x Hx)]. apply (nseq_In 0 52 x). specialize (HC x Hx). lia.
Qed.
Lemma total_spared ranges board dead what : Forall (Forall hole_hand) ranges -> (length (mask_cards board) <= 5)%nat ->
  sumf (fun c => total_of ranges board (with_card dead c) what) (in_play board dead) + N.of_nat (2 * length ranges + (5 - length (mask_cards board))) * total_of ranges board dead what =
  N.of_nat (length (in_play board dead)) * total_of ranges board dead what.
Proof.
  intros Hr Hk. rewrite total_sumf, <- !sumf_mul. set (g := fun d l => if what d l then 1 else 0 : N).
  rewrite (sumf_ext _ (fun c => sumf (fun d => if possible board dead d then if negb (existsb (N.eqb c) (dealt d)) then deal_weight d * sumf (g d) (boards board (with_card dead c) d) else 0 else 0) (picks ranges))).
  2: { intros c _. rewrite total_sumf. unfold deals. rewrite sumf_filter. apply sumf_ext. intros d _. rewrite dead_possible. destruct (possible board dead d), (negb _); reflexivity. }
  rewrite sumf_swap. unfold deals. rewrite !sumf_filter, <- sumf_add. apply sumf_ext. intros d Hd. destruct (possible board dead d) eqn:EP; [|rewrite sumf_zero; reflexivity].
  assert (Hd' : In d (deals ranges board dead)) by (unfold deals; apply filter_In; split; [exact Hd|exact EP]). destruct (deals_shape _ _ _ _ Hr Hd') as [HL HF].
  assert (HC : Forall (fun c => c < 52) (dealt d)).
  { apply Forall_forall. intros c Hc. unfold dealt in Hc. apply in_flat_map in Hc as (h & Hh & Hc). rewrite Forall_forall in HF. destruct (HF h Hh) as (A1 & A2 & _). unfold is_card in *. destruct Hc as [<-|[<-|[]]]; assumption. }
  assert (HD : length (dealt d) = (2 * length ranges)%nat) by (rewrite <- HL; unfold dealt; clear; induction d as [|h d IH]; [reflexivity|]; cbn [flat_map length app two_cards]; rewrite IH; lia).
  rewrite <- sumf_filter, <- unseen_play. set (M := mask_cards board) in *. set (U := unseen board dead d) in *.
  rewrite (sumf_ext _ (fun c => deal_weight d * sumf (fun cs => g d (M ++ cs)) (choose (5 - length M) (without c U)))) by (intros c _; rewrite boards_eq, dead_unseen, sumf_map; reflexivity).
  rewrite sumf_mul. pose proof (one_spared U (unseen_NoDup board dead d) (5 - length M) (fun cs => g d (M ++ cs))) as HS.
  rewrite (play_count board dead d EP HC), HD. fold U. rewrite boards_eq, sumf_map. fold M. fold U. change (fun x => if what d (M ++ x) then 1 else 0) with (fun cs => g d (M ++ cs)).
  set (A := sumf (fun c => sumf (fun cs => g d (M ++ cs)) (choose (5 - length M) (without c U))) U) in *. set (T := sumf (fun cs => g d (M ++ cs)) (choose (5 - length M) U)) in *.
  rewrite !Nat2N.inj_add. clearbody A T. revert HS. generalize (N.of_nat (5 - length M)), (N.of_nat (length U)), (N.of_nat (2 * length ranges)), (deal_weight d). clear. intros a u k w HS. nia.
Qed.

Lemma usable_hole ranges : usable ranges -> Forall (Forall hole_hand) ranges.
Proof.
  intros [H _]. apply Forall_forall. intros r Hr. apply Forall_forall. intros h Hh. rewrite Forall_forall in H. specialize (H r Hr). destruct H as [H _]. rewrite Forall_forall in H. exact (proj1 (H h Hh)).
Qed.
Lemma spared_masks p ranges board dead m x f : usable ranges -> (length ranges <= 8)%nat -> (length (mask_cards board) <= 5)%nat -> m < 2 ^ N.of_nat (length ranges) ->
  reported p ranges board dead (mask_count m) x -> (forall c, In c (in_play board dead) -> reported p ranges board (with_card dead c) (mask_count m) (f c)) ->
  sum_of f (in_play board dead) + N.of_nat (2 * length ranges + (5 - length (mask_cards board))) * x = N.of_nat (length (in_play board dead)) * x.
Proof.
  intros Hu H8 Hk Hm Hx Hf. rewrite (reported_mask _ _ _ _ _ _ Hu H8 Hm Hx). unfold won_by. rewrite <- (total_spared ranges board dead _ (usable_hole _ Hu) Hk). f_equal.
  transitivity (sumf f (in_play board dead)); [symmetry; apply sumf_sum_of|]. apply sumf_ext. intros c Hc. exact (reported_mask _ _ _ _ _ _ Hu H8 Hm (Hf c Hc)).
Qed.
Lemma spared_hands p ranges board dead field i a b k x f : usable ranges -> In field [u_wins; u_ties; u_total] -> (length (mask_cards board) <= 5)%nat -> (i < length ranges)%nat -> hole a b -> get_card_index p a b = Ret k ->
  reported p ranges board dead (hand_count field i k) x -> (forall c, In c (in_play board dead) -> reported p ranges board (with_card dead c) (hand_count field i k) (f c)) ->
  sum_of f (in_play board dead) + N.of_nat (2 * length ranges + (5 - length (mask_cards board))) * x = N.of_nat (length (in_play board dead)) * x.
Proof.
  intros Hu HI Hk Hi Hab Hg Hx Hf. destruct (counter_field field HI) as (what & HW). rewrite (reported_hand _ _ _ _ _ _ _ _ _ _ _ Hu HW Hi Hab Hg Hx).
  rewrite <- (total_spared ranges board dead _ (usable_hole _ Hu) Hk). f_equal.
  transitivity (sumf f (in_play board dead)); [symmetry; apply sumf_sum_of|]. apply sumf_ext. intros c Hc. exact (reported_hand _ _ _ _ _ _ _ _ _ _ _ Hu HW Hi Hab Hg (Hf c Hc)).
Qed.
