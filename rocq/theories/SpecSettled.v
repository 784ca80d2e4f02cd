(* Specification: situations in which nothing depends on the cards to come (C146). *)
From Verif Require Import Base SpecPoker SpecNames SpecHand SpecEquity.
Local Open Scope N_scope.

(* the same players win every deal on every board *)
Definition always_share (ranges : list (list whand)) (board dead : N) (ws : list nat) : Prop :=
  forall d l, In d (deals ranges board dead) -> In l (boards board dead d) -> winners d l = ws.
