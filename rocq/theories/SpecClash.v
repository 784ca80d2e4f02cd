(* Ranges with fewer hands, tables with more cards (C160). *)
From Verif Require Import Base SpecPoker SpecNames SpecHand SpecEquity SpecResults SpecRun SpecConflict.
Local Open Scope N_scope.

(* the cards of every hand of r' are those of a hand of r; weights and order do not matter *)
Definition fewer_hands (r r' : list whand) : Prop := forall h', In h' r' -> exists h, In h r /\ same_two h h'.
(* what is on the table stays there *)
Definition more_cards (board dead board' dead' : N) : Prop := forall c, on_table board dead c = true -> on_table board' dead' c = true.
(* a valid call with two or three players, as in C140 *)
Definition small_call (ranges : list (list whand)) (board dead : N) : Prop :=
  Forall range_ok ranges /\ board < 2 ^ 64 /\ dead < 2 ^ 64 /\ accepted (length ranges) board dead /\ (length ranges <= 3)%nat /\ (length ranges = 3%nat -> Forall no_repeats ranges).
