(* C133, C134: the sum of the equities, and equal ranges. *)
From Coq Require Import Floats.SpecFloat QArith Qabs.
From Verif Require Import Base Float64 Hand Range FastDivide Combined Sim Approx SpecPoker SpecNames SpecHand SpecEquity SpecResults SpecRun SpecApprox SpecShare SpecEven SpecSymmetry
  SpecAdd EquityFloatProofs AddProofs PropEquity.
Local Open Scope N_scope.

(* C133: as soon as anything is credited, the equities of a run add up to 1, up to one rounding
   per player *)
Theorem C133_exact : forall p ranges board dead threads cancelled sched o, usable ranges -> p = Debug \/ weights_fit ranges board ->
  exact_equity p ranges board dead threads cancelled sched = Ret (ROk o) -> let r := o_results o in sum_of (fun x => x) (r_wins_by_mask r) <= 2 ^ 53 ->
  no_credit r \/ add_up (length ranges) (r_equities r).
Proof. exact exact_add_up. Qed.
Theorem C133_approx : forall p ranges board dead threads target cancelled shuf rngs fuel sched o, Forall range_ok ranges -> permutes shuf ->
  p = Debug \/ N.of_nat (length sched) * heaviest ranges < 2 ^ 64 ->
  approx_equity p ranges board dead threads target cancelled shuf rngs fuel sched = Ret (ROk o) -> let r := o_results o in sum_of (fun x => x) (r_wins_by_mask r) <= 2 ^ 53 ->
  no_credit r \/ add_up (length ranges) (r_equities r).
Proof. exact approx_add_up. Qed.
(* 15/18 and 3/18; not 0.6 and 0.3 *)
Lemma part_run x a b c d e : equity_part x = Some (a, b, c, d, e) -> exists o, x = Ret (ROk o) /\ r_wins_by_mask (o_results o) = a /\ r_wins (o_results o) = b.
Proof. intros H. destruct x as [[o|er]|f]; try discriminate. injection H as H1 H2 _ _ _. exists o. auto. Qed.
Example C133_example : (exists o, exact_equity Debug aces three_diamonds aces_dead 2 false aces_sched = Ret (ROk o) /\ add_up 2 (r_equities (o_results o))) /\
  ~ add_up 2 [f_div (f_of_N 6) (f_of_N 10); f_div (f_of_N 3) (f_of_N 10)].
Proof.
  split.
  - destruct (part_run _ _ _ _ _ _ (aces_run Debug)) as (o & E & H1 & H2). exists o. split; [exact E|].
    destruct (C133_exact Debug aces three_diamonds aces_dead 2 false aces_sched o (proj1 aces_usable) (or_introl eq_refl) E) as [[H6 _]|H6]; [rewrite H1; vm_compute; discriminate| |exact H6].
    rewrite H2 in H6. inversion H6. discriminate.
  - intros (_ & _ & H). vm_compute in H. apply H. reflexivity.
Qed.

(* C134: if all pots split evenly, players with the same range have the same equity *)
Theorem C134_same_range : forall p ranges board dead o i j, usable ranges -> (length ranges <= 8)%nat -> p = Debug \/ weights_fit ranges board -> even_deals ranges board dead ->
  dealt_pots ranges board dead <= 2 ^ 53 -> completes p ranges board dead o -> (i < length ranges)%nat -> (j < length ranges)%nat -> range_at ranges i = range_at ranges j ->
  nth i (r_equities (o_results o)) f_zero = nth j (r_equities (o_results o)) f_zero.
Proof. exact same_range_equity. Qed.
(* two players with aces or a pair of twos of weight 2 against a player with kings *)
Example C134_example : let ranges := [[(51, 50, 2); (1, 0, 2)]; [(51, 50, 2); (1, 0, 2)]; [(47, 46, 3)]] in let board := 2 ^ 7 + 2 ^ 10 + 2 ^ 17 + 2 ^ 28 + 2 ^ 32 in
  range_at ranges 0 = range_at ranges 1 /\ dealt_pots ranges board 0 = 24 /\ dealt_shares ranges board 0 0 = 2520 * 12 /\ dealt_shares ranges board 0 1 = 2520 * 12 /\ dealt_shares ranges board 0 2 = 0.
Proof. vm_compute. auto. Qed.

Print Assumptions C133_exact.
Print Assumptions C133_approx.
Print Assumptions C134_same_range.
