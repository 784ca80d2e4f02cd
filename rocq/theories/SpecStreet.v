(* Specification: one more card on the board, more cards out of play (C148, C149). *)
From Verif Require Import Base Hand Range Sim SpecPoker SpecNames SpecHand SpecEquity SpecResults SpecRun.
Local Open Scope N_scope.

(* the cards that are neither on the board nor out of play *)
Definition in_play (board dead : N) : list N := filter (fun c => negb (on_table board dead c)) (nseq 0 52).
#[global] Strategy expand [in_play]. (* as for mask_cards *)
Definition with_card (board c : N) : N := N.lor board (2 ^ c).
(* every card of a is in b *)
Definition within (a b : N) : Prop := forall c, N.testbit a c = true -> N.testbit b c = true.

(* x is a counter of a complete exact run, or 0 if the run reports conflicting ranges *)
Definition reported (p : profile) (ranges : list (list whand)) (board dead : N) (count : results -> N) (x : N) : Prop :=
  (p = Debug \/ weights_fit ranges board) /\ exists threads sched, (0 < threads)%nat /\ ~ In Cancel sched /\
  ((exists o, exact_equity p ranges board dead threads false sched = Ret (ROk o) /\ x = count (o_results o)) \/
   exact_equity p ranges board dead threads false sched = Ret (RErr ConflictingRanges) /\ x = 0).
(* the counters *)
Definition mask_count (m : N) (r : results) : N := nth (N.to_nat m) (r_wins_by_mask r) 0.
Definition hand_count (field : unit_results -> N) (i : nat) (k : N) (r : results) : N :=
  match nth_error (r_hand_results r) (1326 * i + N.to_nat k) with Some u => field u | None => 0 end.
