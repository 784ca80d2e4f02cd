(* Specification: straights and flushes that can still be made.  Independent of the model. *)
From Verif Require Import SpecPoker.
From Coq Require Import List NArith.
Import ListNotations.
Local Open Scope N_scope.

(* the ranks rs contain the five ranks from i upwards *)
Definition has_run (rs : list N) (i : N) : Prop := forall k, k < 5 -> In (i + k) rs.
(* a straight other than the one with a low ace *)
Definition high_straight (rs : list N) : Prop := exists i, i <= 8 /\ has_run rs i.
(* rank r is missing and gives such a straight *)
Definition completes (rs : list N) (r : N) : Prop := ~ In r rs /\ high_straight (r :: rs).

(* how many cards of suit s *)
Definition of_suit (s : N) (l : list N) : nat := length (filter (fun c => suit_of c =? s) l).
(* the hole cards contain the highest card of suit s that is not on the board *)
Definition top_of_suit (s : N) (hole board : list N) : Prop :=
  exists r, In (4 * r + s) hole /\ forall r', r < r' -> r' <= 12 -> In (4 * r' + s) board.
