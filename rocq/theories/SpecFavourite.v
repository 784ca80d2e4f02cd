(* Specification: a player who is never behind another one (C144, C145). *)
From Coq Require Import Floats.SpecFloat.
From Verif Require Import Base Float64 SpecPoker SpecNames SpecHand SpecEquity.
Local Open Scope N_scope.

(* whenever player k gets a part of the pot, player j does *)
Definition never_behind (ranges : list (list whand)) (board dead : N) (j k : nat) : Prop :=
  forall d l, In d (deals ranges board dead) -> In l (boards board dead d) -> In k (winners d l) -> In j (winners d l).
(* x <= y in Rust, which is false for NaN *)
Definition f_le (x y : f64) : Prop := SFleb x y = true.
