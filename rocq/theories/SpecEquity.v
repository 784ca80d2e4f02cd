(* Specification: what an exact equity calculation has to count.  Independent of the model's
   enumeration, range combination and counters. *)
From Verif Require Import Base SpecPoker SpecNames SpecHand.
Local Open Scope N_scope.

(* a starting hand with its weight, as in a range *)
Definition whand : Type := N * N * N.
Definition first_card (h : whand) : N := fst (fst h).
Definition second_card (h : whand) : N := snd (fst h).
Definition weight (h : whand) : N := snd h.
Definition two_cards (h : whand) : list N := [first_card h; second_card h].

(* every way to pick one element of each list *)
Fixpoint picks {A} (ls : list (list A)) : list (list A) :=
  match ls with
  | [] => [[]]
  | l :: ls' => flat_map (fun x => map (cons x) (picks ls')) l
  end.

Fixpoint distinct (l : list N) : bool :=
  match l with
  | [] => true
  | c :: l' => negb (existsb (N.eqb c) l') && distinct l'
  end.

Definition dealt (d : list whand) : list N := flat_map two_cards d.
Definition on_table (board dead c : N) : bool := N.testbit board c || N.testbit dead c.

(* A deal gives every player one hand of their range.  It is possible if no card is given
   twice, or is on the board or dead. *)
Definition possible (board dead : N) (d : list whand) : bool :=
  distinct (dealt d) && forallb (fun c => negb (on_table board dead c)) (dealt d).
Definition deals (ranges : list (list whand)) (board dead : N) : list (list whand) :=
  filter (possible board dead) (picks ranges).
Definition deal_weight (d : list whand) : N := fold_right (fun h w => weight h * w) 1 d.

(* the completions of the board to five cards by cards not seen anywhere *)
Definition unseen (board dead : N) (d : list whand) : list N :=
  filter (fun c => negb (on_table board dead c) && negb (existsb (N.eqb c) (dealt d))) (nseq 0 52).
Definition boards (board dead : N) (d : list whand) : list (list N) :=
  map (app (mask_cards board)) (choose (5 - length (mask_cards board)) (unseen board dead d)).

(* the players who hold the best hand on board l, in order *)
Definition not_better (a b : list N) : bool := match lex a b with Gt => false | _ => true end.
Definition holding (d : list whand) (i : nat) : whand := nth i d (0, 0, 0).
Definition winners (d : list whand) (l : list N) : list nat :=
  filter (fun i => forallb (fun h => not_better (best (two_cards h ++ l)) (best (two_cards (holding d i) ++ l))) d)
         (seq 0 (length d)).

(* the weight of all deals and boards where something happens *)
Definition sum_of {A} (f : A -> N) (l : list A) : N := fold_right (fun x s => f x + s) 0 l.
Definition total_of (ranges : list (list whand)) (board dead : N) (what : list whand -> list N -> bool) : N :=
  sum_of (fun d => deal_weight d * sum_of (fun l => if what d l then 1 else 0) (boards board dead d))
         (deals ranges board dead).

Definition nats_eqb (a b : list nat) : bool := if list_eq_dec Nat.eq_dec a b then true else false.
Definition players_of (n : nat) (m : N) : list nat := filter (fun i => N.testbit m (N.of_nat i)) (seq 0 n).
Definition holds (i : nat) (a b : N) (d : list whand) : bool :=
  let h := holding d i in
  ((first_card h =? a) && (second_card h =? b)) || ((first_card h =? b) && (second_card h =? a)).

(* exactly the players in the mask m win *)
Definition won_by (ranges : list (list whand)) (board dead m : N) : N :=
  total_of ranges board dead (fun d l => nats_eqb (winners d l) (players_of (length ranges) m)).
(* player i holds the cards a and b, and wins alone, ties for the win, or whatever *)
Definition hand_wins (ranges : list (list whand)) (board dead : N) (i : nat) (a b : N) : N :=
  total_of ranges board dead (fun d l => holds i a b d && nats_eqb (winners d l) [i]).
Definition hand_ties (ranges : list (list whand)) (board dead : N) (i : nat) (a b : N) : N :=
  total_of ranges board dead (fun d l =>
    holds i a b d && existsb (Nat.eqb i) (winners d l) && (2 <=? length (winners d l))%nat).
Definition hand_total (ranges : list (list whand)) (board dead : N) (i : nat) (a b : N) : N :=
  total_of ranges board dead (fun d l => holds i a b d).

(* x is the 64-bit counter holding the count v: exactly v if overflow is checked, v modulo
   2^64 if it is not *)
Definition counter (p : profile) (x v : N) : Prop :=
  match p with Debug => x = v | Release => x = v mod 2 ^ 64 end.

(* the ranges a Rust program can build: two different cards, an 8-bit weight *)
Definition range_ok (r : list whand) : Prop :=
  Forall (fun h => hole (first_card h) (second_card h) /\ weight h < 2 ^ 8) r /\ N.of_nat (length r) < 2 ^ 63.

Definition prod_of {A} (f : A -> N) (l : list A) : N := fold_right (fun x s => f x * s) 1 l.
