(* Specification: what the deviation of an approximate run is computed from. *)
From Verif Require Import Base SpecPoker SpecNames SpecHand SpecEquity.
Local Open Scope N_scope.

(* what the first of n players is credited with in wins_by_mask: the pots won alone, and the
   integer part of an even share of the others *)
Definition credit (n : nat) (wbm : list N) : N :=
  sum_of (fun m => let ps := players_of n (N.of_nat m) in if existsb (Nat.eqb 0) ps then nth m wbm 0 / N.of_nat (length ps) else 0) (seq 0 (2 ^ n)).
