(* Specification: hands as sets of two cards, and situations that look the same when the suits
   are renamed. *)
From Coq Require Import Permutation.
From Verif Require Import Base SpecNames SpecHand SpecEquity SpecSymmetry.
Local Open Scope N_scope.

(* the same hand with the higher card first *)
Definition sorted_hand (h : whand) : whand := (N.max (first_card h) (second_card h), N.min (first_card h) (second_card h), weight h).
(* the same hands with the same weights, in any order and with any card first *)
Definition same_hands (r r' : list whand) : Prop := Permutation (map sorted_hand r) (map sorted_hand r').

(* renaming the suits changes neither the ranges nor the board nor the dead cards *)
Definition suits_alike (f : N -> N) (ranges : list (list whand)) (board dead : N) : Prop :=
  suit_permutation f /\ renamed_mask f board board /\ renamed_mask f dead dead /\ Forall (fun r => same_hands (map (rename_hand f) r) r) ranges.

(* the same cards are on the board, and the same cards are on the board or dead *)
Definition same_table (board dead board' dead' : N) : Prop :=
  forall c, c < 52 -> N.testbit board' c = N.testbit board c /\ on_table board' dead' c = on_table board dead c.
