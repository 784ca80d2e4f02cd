(* How a user of the library builds a hand, and which cards it should then hold. *)
From Verif Require Import Base Hand SpecPoker.
Local Open Scope N_scope.

(* expressions of the public interface: Hand::default(), CARDS[c], Hand::from_hole_cards,
   Hand::from_bit_mask, and sums of these in any order and grouping *)
Inductive hexpr :=
| EDefault
| ECard (c : N)
| EHole (c1 c2 : N)
| EMask (m : N)
| EAdd (a b : hexpr).

Fixpoint run (p : profile) (e : hexpr) : outcome hand :=
  match e with
  | EDefault => Ret hand_default
  | ECard c => CARDS_get c
  | EHole c1 c2 => from_hole_cards p c1 c2
  | EMask m => from_bit_mask p m
  | EAdd a b => x <- run p a ;; y <- run p b ;; hand_add p x y
  end.

(* the cards whose bit is set in a mask *)
Definition mask_cards (m : N) : list N := filter (N.testbit m) (nseq 0 52).
(* conversion: unfold this before filter, which would branch on every bit *)
#[global] Strategy expand [mask_cards].

Fixpoint cards_in (e : hexpr) : list N :=
  match e with
  | EDefault => []
  | ECard c => [c]
  | EHole c1 c2 => [c1; c2]
  | EMask m => mask_cards m
  | EAdd a b => cards_in a ++ cards_in b
  end.

(* A complete hand starts from exactly one default() or from_bit_mask(): CARDS and
   from_hole_cards carry only their own cards. *)
Fixpoint bases (e : hexpr) : nat :=
  match e with
  | EDefault | EMask _ => 1
  | ECard _ | EHole _ _ => 0
  | EAdd a b => bases a + bases b
  end.

(* adding cards one by one to the default hand *)
Definition add_all (l : list N) : hexpr := fold_left (fun e c => EAdd e (ECard c)) l EDefault.

(* how many cards of suit s *)
Definition of_suit (s : N) (l : list N) : nat := length (filter (fun c => suit_of c =? s) l).

(* renaming suits *)
Definition rename_suits (f : N -> N) (c : N) : N := 4 * rank_of c + f (suit_of c).
Definition suit_permutation (f : N -> N) : Prop :=
  (forall s, s < 4 -> f s < 4) /\ (forall s t, s < 4 -> t < 4 -> f s = f t -> s = t).
