(* The equities of hands and preflop combinations when two ranges are given as texts. *)
From Verif Require Import Base Float64 Hand Range FastDivide Combined Sim SpecPoker SpecHand SpecNames SpecEquity SpecResults SpecRun SpecFinal SpecTable SpecKind SpecShare SpecRates KindRateProofs PropKind.
Local Open Scope N_scope.

(* C164: after a complete run of two texts, the name of a hand that was dealt gives the float closest to its
   true equity, and those closest to its rates of wins and ties *)
Theorem C164_hands : forall lower p texts (ranges : list (list whand)) board dead q threads sched o, from_strings lower p texts = Ret ranges -> length texts = 2%nat ->
  exact_equity q ranges board dead threads false sched = Ret (ROk o) -> ~ In Cancel sched -> (0 < threads)%nat ->
  forall i a b, (i < 2)%nat -> hole a b -> name_order a b -> let wins := hand_wins ranges board dead i a b in let ties := hand_ties ranges board dead i a b in let total := hand_total ranges board dead i a b in
  0 < total -> exists u, get_hand_result q (r_hand_results (o_results o)) (N.of_nat i) (hand_name a b) = Ret (ROk u) /\
    closest (u_equity u) (ratio (2 * wins + ties) (2 * total)) /\ closest (u_winrate u) (ratio wins total) /\ closest (u_tierate u) (ratio ties total).
Proof. exact text_hand_rates. Qed.
(* ... and so does the name of a preflop combination *)
Theorem C164_combos : forall lower p texts (ranges : list (list whand)) board dead q threads sched o, from_strings lower p texts = Ret ranges -> length texts = 2%nat ->
  exact_equity q ranges board dead threads false sched = Ret (ROk o) -> ~ In Cancel sched -> (0 < threads)%nat ->
  forall i k, (i < 2)%nat -> In k kinds -> let wins := kind_wins ranges board dead i k in let ties := kind_ties ranges board dead i k in let total := kind_total ranges board dead i k in
  0 < total -> exists u, get_combo_result q (r_combo_results (o_results o)) (N.of_nat i) (kind_name k) = Ret (ROk u) /\
    closest (u_equity u) (ratio (2 * wins + ties) (2 * total)) /\ closest (u_winrate u) (ratio wins total) /\ closest (u_tierate u) (ratio ties total).
Proof. exact text_combo_rates. Qed.
(* the run of C162: ace king suited wins four of five deals, the spades one of two *)
Example C164_example : forall q threads sched o, exact_equity q suited_ranges suited_board 0 (S threads) false sched = Ret (ROk o) -> ~ In Cancel sched ->
  (exists u, get_combo_result q (r_combo_results (o_results o)) 0 (chars "AKs") = Ret (ROk u) /\ closest (u_equity u) (ratio 80000 100000)) /\
  (exists u, get_hand_result q (r_hand_results (o_results o)) 0 (chars "AsKs") = Ret (ROk u) /\ closest (u_equity u) (ratio 20000 40000)).
Proof.
  intros q threads sched o H Hc. split.
  - assert (HK : In (Suited 12 11) kinds) by (apply (nth_error_In kinds 13); reflexivity).
    assert (W : kind_wins suited_ranges suited_board 0 0 (Suited 12 11) = 40000) by (vm_compute; reflexivity). assert (T : kind_ties suited_ranges suited_board 0 0 (Suited 12 11) = 0) by (vm_compute; reflexivity).
    assert (TT : kind_total suited_ranges suited_board 0 0 (Suited 12 11) = 50000) by (vm_compute; reflexivity).
    destruct (C164_combos _ _ _ _ suited_board 0 q (S threads) sched o (proj1 C162_example) eq_refl H Hc ltac:(lia) 0%nat (Suited 12 11) ltac:(lia) HK) as (u & HG & HE & _); [rewrite TT; reflexivity|].
    exists u. split; [exact HG|]. rewrite W, T, TT in HE. exact HE.
  - assert (W : hand_wins suited_ranges suited_board 0 0 48 44 = 10000) by (vm_compute; reflexivity). assert (T : hand_ties suited_ranges suited_board 0 0 48 44 = 0) by (vm_compute; reflexivity).
    assert (TT : hand_total suited_ranges suited_board 0 0 48 44 = 20000) by (vm_compute; reflexivity).
    assert (HO : hole 48 44 /\ name_order 48 44) by (vm_compute; intuition discriminate). destruct HO as [HO HN].
    destruct (C164_hands _ _ _ _ suited_board 0 q (S threads) sched o (proj1 C162_example) eq_refl H Hc ltac:(lia) 0%nat 48 44 ltac:(lia) HO HN) as (u & HG & HE & _); [rewrite TT; reflexivity|].
    exists u. split; [exact HG|]. rewrite W, T, TT in HE. exact HE.
Qed.

Print Assumptions C164_hands.
Print Assumptions C164_combos.
