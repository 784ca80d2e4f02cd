(* Specification: deals whose pots can be split evenly among any number of the players. *)
From Verif Require Import Base SpecPoker SpecNames SpecHand SpecEquity.
Local Open Scope N_scope.

Definition even_deals (ranges : list (list whand)) (board dead : N) : Prop :=
  forall d k, In d (deals ranges board dead) -> 1 <= k <= N.of_nat (length ranges) -> N.divide k (deal_weight d).
