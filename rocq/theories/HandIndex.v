(* Model of struct HandWithIndex, src/equity_calculator/simulator.rs:491-527.  Exact runs
   store the dealt cards in this struct; nothing in the library calls its order. *)
From Verif Require Import Base.
Local Open Scope N_scope.

(* simulator.rs:491-495: the two cards and the weight, and the player *)
Record hand_with_index := mkHWI { hw_1 : N; hw_2 : N; hw_w : N; hw_player : nat }.

(* simulator.rs:497-504 *)
Definition hwi_default : hand_with_index := {| hw_1 := 52; hw_2 := 52; hw_w := 100; hw_player := 0 |}.

(* simulator.rs:506-519 Ord *)
Definition hwi_cmp (x y : hand_with_index) : comparison :=
  if negb (N.shiftr (hw_1 x) 2 =? N.shiftr (hw_1 y) 2)
  then N.compare (N.shiftr (hw_1 x) 2) (N.shiftr (hw_1 y) 2)
  else if negb (N.shiftr (hw_2 x) 2 =? N.shiftr (hw_2 y) 2)
  then N.compare (N.shiftr (hw_2 x) 2) (N.shiftr (hw_2 y) 2)
  else if negb (N.land (hw_1 x) 3 =? N.land (hw_1 y) 3)
  then N.compare (N.land (hw_1 x) 3) (N.land (hw_1 y) 3)
  else N.compare (N.land (hw_2 x) 3) (N.land (hw_2 y) 3).

(* simulator.rs:521-525 PartialOrd *)
Definition hwi_partial_cmp (x y : hand_with_index) : option comparison := Some (hwi_cmp x y).

(* simulator.rs:491, derived PartialEq: all fields *)
Definition hwi_eqb (x y : hand_with_index) : bool :=
  (hw_1 x =? hw_1 y) && (hw_2 x =? hw_2 y) && (hw_w x =? hw_w y) && (hw_player x =? hw_player y)%nat.
