(* The deals in which a player holds a hand of a preflop combination (C162). *)
From Verif Require Import Base SpecPoker SpecHand SpecNames SpecEquity.
Local Open Scope N_scope.

Definition is_kind (k : kind) (h : whand) : bool :=
  let a := first_card h in let b := second_card h in
  match k with
  | Paired r => (rank_of a =? r) && (rank_of b =? r)
  | Suited hi lo => (suit_of a =? suit_of b) && ((rank_of a =? hi) && (rank_of b =? lo) || (rank_of a =? lo) && (rank_of b =? hi))
  | Offsuit hi lo => negb (suit_of a =? suit_of b) && ((rank_of a =? hi) && (rank_of b =? lo) || (rank_of a =? lo) && (rank_of b =? hi))
  end.
Definition kind_wins (ranges : list (list whand)) (board dead : N) (i : nat) (k : kind) : N :=
  total_of ranges board dead (fun d l => is_kind k (holding d i) && nats_eqb (winners d l) [i]).
Definition kind_ties (ranges : list (list whand)) (board dead : N) (i : nat) (k : kind) : N :=
  total_of ranges board dead (fun d l => is_kind k (holding d i) && (existsb (Nat.eqb i) (winners d l) && (2 <=? length (winners d l))%nat)).
Definition kind_total (ranges : list (list whand)) (board dead : N) (i : nat) (k : kind) : N :=
  total_of ranges board dead (fun d l => is_kind k (holding d i)).
