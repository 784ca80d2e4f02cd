(* Specification: the rules of poker for sets of cards.  Independent of the model. *)
From Coq Require Import List NArith Bool Arith.
Import ListNotations.
Local Open Scope N_scope.

(* a card is 4 * rank + suit, rank 0 = deuce .. 12 = ace *)
Definition rank_of (c : N) : N := c / 4.
Definition suit_of (c : N) : N := c mod 4.
Definition is_card (c : N) : Prop := c < 52.

(* a set of cards, in some order *)
Definition cards (l : list N) : Prop := NoDup l /\ Forall is_card l.

Definition all_ranks : list N := [12; 11; 10; 9; 8; 7; 6; 5; 4; 3; 2; 1; 0].

(* how many of the ranks l are r; the ranks held exactly k times, highest first *)
Definition occurs (r : N) (l : list N) : nat := count_occ N.eq_dec l r.
Definition held (k : nat) (l : list N) : list N :=
  filter (fun r => Nat.eqb (occurs r l) k) all_ranks.

(* ranks by importance: quads, trips, pairs, singles *)
Definition grouped (l : list N) : list N := held 4 l ++ held 3 l ++ held 2 l ++ held 1 l.

(* the five ranks of the straight with top rank t; the ace is low below the five *)
Definition straight_ranks (t : N) : list N :=
  if t =? 3 then [3; 2; 1; 0; 12] else [t; t - 1; t - 2; t - 3; t - 4].
Definition straight_top (l : list N) : option N :=
  if Nat.eqb (length l) 5 then
    find (fun t => forallb (fun r => Nat.eqb (occurs r l) 1) (straight_ranks t))
         [12; 11; 10; 9; 8; 7; 6; 5; 4; 3]
  else None.

(* Categories: 0 high card, 1 pair, 2 two pair, 3 three of a kind, 4 straight, 5 flush,
   6 full house, 7 four of a kind, 8 straight flush.
   The strength of at most five cards with ranks l: the category followed by the ranks that
   break ties within it, compared lexicographically. *)
Definition strength_ranks (flush : bool) (l : list N) : list N :=
  match straight_top l with
  | Some t => if flush then [8; t] else [4; t]
  | None =>
      let cat :=
        match held 4 l, held 3 l, held 2 l with
        | _ :: _, _, _ => 7
        | [], _ :: _, _ :: _ => 6
        | [], three, two =>
            if flush then 5
            else match three, two with
                 | _ :: _, _ => 3
                 | [], _ :: _ :: _ => 2
                 | [], [_] => 1
                 | [], [] => 0
                 end
        end in
      cat :: grouped l
  end.

(* five cards of one suit *)
Definition is_flush (h : list N) : bool :=
  Nat.eqb (length h) 5 &&
  existsb (fun s => forallb (fun c => suit_of c =? s) h) [0; 1; 2; 3].

Definition strength (h : list N) : list N := strength_ranks (is_flush h) (map rank_of h).

Fixpoint lex (a b : list N) : comparison :=
  match a, b with
  | [], [] => Eq
  | [], _ :: _ => Lt
  | _ :: _, [] => Gt
  | x :: a', y :: b' => match N.compare x y with Eq => lex a' b' | c => c end
  end.

Definition lex_max (a b : list N) : list N := match lex a b with Lt => b | _ => a end.

(* all ways to choose k elements of l *)
Fixpoint choose {A} (k : nat) (l : list A) : list (list A) :=
  match k, l with
  | O, _ => [[]]
  | S _, [] => []
  | S k', x :: l' => map (cons x) (choose k' l') ++ choose k l'
  end.

(* the strength of a set of cards: that of its best five cards (of all its cards when it
   has fewer than five) *)
Definition best (h : list N) : list N :=
  fold_right lex_max [] (map strength (choose (Nat.min 5 (length h)) h)).

(* which of two sets of cards wins *)
Definition beats (a b : list N) : Prop := lex (best a) (best b) = Gt.
Definition ties (a b : list N) : Prop := lex (best a) (best b) = Eq.

Definition category_of (h : list N) : N := hd 0 (best h).
