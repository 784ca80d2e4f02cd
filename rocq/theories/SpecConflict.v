(* When ranges are in conflict (C140-C142). *)
From Verif Require Import Base SpecPoker SpecNames SpecEquity.
Local Open Scope N_scope.

(* two hands with the same two cards *)
Definition same_two (g h : whand) : Prop :=
  (first_card g = first_card h /\ second_card g = second_card h) \/ (first_card g = second_card h /\ second_card g = first_card h).
(* a range in which no hand is written twice *)
Definition no_repeats (r : list whand) : Prop := ForallOrdPairs (fun g h => ~ same_two g h) r.
(* every hand has at least twice the smallest weight *)
Definition heavy (ranges : list (list whand)) : Prop := Forall (Forall (fun h => 2 <= weight h)) ranges.
