(* The preflop combinations of two players and the pots by winners. *)
From Verif Require Import Base Float64 Hand Range FastDivide Combined Sim SpecPoker SpecHand SpecNames SpecEquity SpecResults SpecRun SpecFinal SpecTable KindDuelProofs TableRunProofs PropKind.
Local Open Scope N_scope.

(* C165: after a complete run of two texts the combinations of both players tell the same story as
   wins_by_mask: what one of them does not win or tie, the other one wins *)
Theorem C165_duel : forall lower p texts (ranges : list (list whand)) board dead q threads sched o, from_strings lower p texts = Ret ranges -> length texts = 2%nat ->
  exact_equity q ranges board dead threads false sched = Ret (ROk o) -> ~ In Cancel sched -> (0 < threads)%nat ->
  let found i us := Forall2 (fun k u => get_combo_result q (r_combo_results (o_results o)) i (kind_name k) = Ret (ROk u)) kinds us in
  let pots m := nth m (r_wins_by_mask (o_results o)) 0 in
  exists us vs, found 0 us /\ found 1 vs /\ sum_of u_wins us = pots 1%nat /\ sum_of u_wins vs = pots 2%nat /\ sum_of u_ties us = pots 3%nat /\ sum_of u_ties vs = pots 3%nat /\
    sum_of u_total us = pots 1%nat + pots 2%nat + pots 3%nat /\ sum_of u_total vs = pots 1%nat + pots 2%nat + pots 3%nat.
Proof. exact text_duel. Qed.
(* On 2h 3h 7h Ad Jd, ace king of spades ties with that of clubs and loses to three sevens, which also beat the
   clubs; the hearts win both times. *)
Definition duel_texts : list (list char) := [chars "AKs"; chars "AcKc,7s7c@30"].
Definition duel_ranges : list (list whand) := [[(48, 44, 100); (49, 45, 100); (50, 46, 100); (51, 47, 100)]; [(22, 20, 30); (50, 46, 100)]].
Example C165_example : from_strings (map to_ascii_lowercase) Debug duel_texts = Ret duel_ranges /\
  forall q threads sched o, exact_equity q duel_ranges suited_board 0 (S threads) false sched = Ret (ROk o) -> ~ In Cancel sched ->
  exists us vs, Forall2 (fun k u => get_combo_result q (r_combo_results (o_results o)) 0 (kind_name k) = Ret (ROk u)) kinds us /\
    Forall2 (fun k u => get_combo_result q (r_combo_results (o_results o)) 1 (kind_name k) = Ret (ROk u)) kinds vs /\
    sum_of u_wins us = 13000 /\ sum_of u_wins vs = 6000 /\ sum_of u_ties us = 10000 /\ sum_of u_ties vs = 10000 /\ sum_of u_total us = 29000 /\ sum_of u_total vs = 29000.
Proof.
  assert (HT : from_strings (map to_ascii_lowercase) Debug duel_texts = Ret duel_ranges) by (vm_compute; reflexivity). split; [exact HT|]. intros q threads sched o H Hc.
  destruct (C165_duel _ _ _ _ suited_board 0 q (S threads) sched o HT eq_refl H Hc ltac:(lia)) as (us & vs & HU & HV & HS). exists us, vs. split; [exact HU|]. split; [exact HV|].
  destruct (text_by_name _ _ _ _ suited_board 0 q (S threads) sched o HT (or_introl (le_n 2)) H Hc ltac:(lia)) as [HM _].
  assert (M1 : nth 1 (r_wins_by_mask (o_results o)) 0 = 13000) by (etransitivity; [exact (HM 1 eq_refl)|vm_compute; reflexivity]).
  assert (M2 : nth 2 (r_wins_by_mask (o_results o)) 0 = 6000) by (etransitivity; [exact (HM 2 eq_refl)|vm_compute; reflexivity]).
  assert (M3 : nth 3 (r_wins_by_mask (o_results o)) 0 = 10000) by (etransitivity; [exact (HM 3 eq_refl)|vm_compute; reflexivity]).
  rewrite M1, M2, M3 in HS. exact HS.
Qed.

Print Assumptions C165_duel.
