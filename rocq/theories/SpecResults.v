(* Specification: what a run of exact_equity reports. *)
From Verif Require Import Base SpecPoker SpecNames SpecHand SpecEquity.
Local Open Scope N_scope.

(* the weight of the given deals and their boards where something happens *)
Definition sum_over (board dead : N) (D : list (list whand)) (what : list whand -> list N -> bool) : N :=
  sum_of (fun d => deal_weight d * sum_of (fun l => if what d l then 1 else 0) (boards board dead d)) D.

(* exactly the players in m win / player i holds a and b / and wins alone / and ties *)
Definition win_set (n : nat) (m : N) (d : list whand) (l : list N) : bool := nats_eqb (winners d l) (players_of n m).
Definition wins_with (i : nat) (a b : N) (d : list whand) (l : list N) : bool := holds i a b d && nats_eqb (winners d l) [i].
Definition ties_with (i : nat) (a b : N) (d : list whand) (l : list N) : bool :=
  holds i a b d && existsb (Nat.eqb i) (winners d l) && (2 <=? length (winners d l))%nat.

(* how often thread tid runs in a schedule is counted with this *)
Definition how_many {A} (f : A -> bool) (l : list A) : nat := length (filter f l).

(* the weight of a range, at least 1 per hand *)
Definition range_weight (r : list whand) : N := sum_of (fun h => N.max 1 (weight h)) r.
(* number of boards when nothing but the board is known *)
Definition max_boards (board : N) : N := N.of_nat (length (boards board 0 [])).
(* no counter can reach 2^64 *)
Definition weights_fit (ranges : list (list whand)) (board : N) : Prop :=
  N.max 7776 (max_boards board) * prod_of range_weight ranges < 2 ^ 64.
