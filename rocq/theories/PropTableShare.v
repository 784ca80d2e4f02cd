(* The equities of two ranges given as texts. *)
From Coq Require Import QArith.
From Verif Require Import Base Float64 Hand Range FastDivide Combined Sim SpecPoker SpecHand SpecNames SpecEquity SpecResults SpecRun SpecShare SpecRates SpecTable
  TableShareProofs.
Local Open Scope N_scope.

(* C159: two ranges written without weights, on a flop or later, or with few enough deals: each equity
   of a complete run is the float closest to the player's true share of the pots *)
Theorem C159_text_equities : forall lower p texts (ranges : list (list whand)) board dead q threads sched o, from_strings lower p texts = Ret ranges -> length texts = 2%nat -> plain ranges ->
  (3 <= length (mask_cards board))%nat \/ dealt_pots ranges board dead <= 2 ^ 53 -> board < 2 ^ 64 -> dead < 2 ^ 64 ->
  exact_equity q ranges board dead threads false sched = Ret (ROk o) -> ~ In Cancel sched -> (0 < threads)%nat ->
  forall j, (j < 2)%nat -> closest (nth j (r_equities (o_results o)) f_zero) (ratio (dealt_shares ranges board dead j) (2520 * dealt_pots ranges board dead)).
Proof. exact text_equities. Qed.
(* against kings on 2h 3h 7c 9h Jd, three nines and two pairs win, ace high loses: shares 2/3 and 1/3 *)
Definition three_texts : list (list char) := [chars "9c9s,7s2d,Ac4c"; chars "KdKc"].
Definition three_ranges : list (list whand) := [[(20, 3, 100); (30, 28, 100); (50, 10, 100)]; [(47, 46, 100)]].
Definition three_board : N := 2 ^ 1 + 2 ^ 5 + 2 ^ 22 + 2 ^ 29 + 2 ^ 39.
Example C159_example : from_strings (map to_ascii_lowercase) Debug three_texts = Ret three_ranges /\
  forall q threads sched o, exact_equity q three_ranges three_board 0 (S threads) false sched = Ret (ROk o) -> ~ In Cancel sched ->
  closest (nth 0 (r_equities (o_results o)) f_zero) (ratio 50400000 75600000) /\ closest (nth 1 (r_equities (o_results o)) f_zero) (ratio 25200000 75600000).
Proof.
  assert (HT : from_strings (map to_ascii_lowercase) Debug three_texts = Ret three_ranges) by (vm_compute; reflexivity). split; [exact HT|]. intros q threads sched o H Hc.
  assert (Hp : plain three_ranges) by (unfold plain, three_ranges; repeat constructor).
  assert (H3 : (3 <= length (mask_cards three_board))%nat) by (vm_compute; lia).
  assert (E0 : dealt_shares three_ranges three_board 0 0 = 50400000) by (vm_compute; reflexivity).
  assert (E1 : dealt_shares three_ranges three_board 0 1 = 25200000) by (vm_compute; reflexivity).
  assert (EP : 2520 * dealt_pots three_ranges three_board 0 = 75600000) by (vm_compute; reflexivity).
  pose proof (C159_text_equities _ _ _ _ three_board 0 q (S threads) sched o HT eq_refl Hp (or_introl H3) eq_refl eq_refl H Hc ltac:(lia)) as HX.
  split; [rewrite <- E0|rewrite <- E1]; rewrite <- EP; apply HX; lia.
Qed.

Print Assumptions C159_text_equities.
