(* Specification: equities that add up to 1. *)
From Coq Require Import Floats.SpecFloat QArith Qabs.
From Verif Require Import Base Float64 SpecShare Sim.
Local Open Scope N_scope.

Definition sumq (l : list Q) : Q := fold_right Qplus 0%Q l.
(* n numbers whose exact sum is 1 up to n roundings to 53 bits *)
Definition add_up (n : nat) (es : list f64) : Prop :=
  length es = n /\ Forall number es /\ (Qabs (sumq (map value es) - 1) <= inject_Z (Z.of_nat n) * Qpower 2 (-53))%Q.
(* nobody is credited with a win or a part of a pot *)
Definition no_credit (r : results) : Prop := Forall (fun w => w = 0) (r_wins r) /\ Forall (fun t => t = f_zero) (r_ties r).
