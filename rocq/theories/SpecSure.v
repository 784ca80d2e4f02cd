(* Specification: players whose result does not depend on the cards. *)
From Verif Require Import Base SpecPoker SpecNames SpecHand SpecEquity.
Local Open Scope N_scope.

(* player k wins no deal on any board, not even a share *)
Definition never_wins (ranges : list (list whand)) (board dead : N) (k : nat) : Prop :=
  forall d l, In d (deals ranges board dead) -> In l (boards board dead d) -> ~ In k (winners d l).
(* player k wins every deal on every board, alone *)
Definition always_wins (ranges : list (list whand)) (board dead : N) (k : nat) : Prop :=
  forall d l, In d (deals ranges board dead) -> In l (boards board dead d) -> winners d l = [k].
