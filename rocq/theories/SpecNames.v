(* Specification: names of cards, starting hands and preflop combinations, and the order
   in which the library numbers them.  Independent of the model's tables. *)
From Verif Require Import Base SpecPoker.
Local Open Scope N_scope.

Definition rank_char (r : N) : char := nth (N.to_nat r) (chars "23456789TJQKA") 0.
Definition suit_char (s : N) : char := nth (N.to_nat s) (chars "shcd") 0.
Definition card_name (c : N) : list char := [rank_char (rank_of c); suit_char (suit_of c)].

(* a starting hand, two different cards in some order *)
Definition hole (a b : N) : Prop := is_card a /\ is_card b /\ a <> b.

(* the 169 preflop combinations *)
Inductive kind := Paired (r : N) | Suited (hi lo : N) | Offsuit (hi lo : N).

Definition of_kind (k : kind) (a b : N) : Prop :=
  match k with
  | Paired r => rank_of a = r /\ rank_of b = r
  | Suited hi lo => suit_of a = suit_of b /\
      (rank_of a = hi /\ rank_of b = lo \/ rank_of a = lo /\ rank_of b = hi)
  | Offsuit hi lo => suit_of a <> suit_of b /\
      (rank_of a = hi /\ rank_of b = lo \/ rank_of a = lo /\ rank_of b = hi)
  end.

(* pairs from aces down, then the suited, then the offsuited combinations; both by higher
   rank, then lower rank, downwards *)
Definition lower (r : N) : list N := filter (fun x => x <? r) all_ranks.
Definition kinds : list kind :=
  map Paired all_ranks ++
  flat_map (fun hi => map (Suited hi) (lower hi)) all_ranks ++
  flat_map (fun hi => map (Offsuit hi) (lower hi)) all_ranks.

Definition kind_name (k : kind) : list char :=
  match k with
  | Paired r => [rank_char r; rank_char r]
  | Suited hi lo => [rank_char hi; rank_char lo] ++ chars "s"
  | Offsuit hi lo => [rank_char hi; rank_char lo] ++ chars "o"
  end.

(* The name of a starting hand: the higher rank first; in a pair the suits in the order
   s, h, c, d. *)
Definition name_order (a b : N) : Prop :=
  rank_of b < rank_of a \/ rank_of a = rank_of b /\ suit_of a < suit_of b.
Definition hand_name (a b : N) : list char := card_name a ++ card_name b.

(* the combination a hand number belongs to *)
Definition block (i : N) : N :=
  if i <? 78 then i / 6 else if i <? 390 then 13 + (i - 78) / 4 else 91 + (i - 390) / 12.
