(* What the number returned by evaluate tells about five cards. *)
From Verif Require Import Base Hand SpecPoker SpecHand.
Local Open Scope N_scope.

(* the value of the hand a user has built *)
Definition value_of (p : profile) (e : hexpr) : outcome N := h <- run p e ;; evaluate h.

(* a complete hand of n different cards *)
Definition hand_with (n : nat) (e : hexpr) : Prop := bases e = 1%nat /\ cards (cards_in e) /\ length (cards_in e) = n.

(* every rank is held equally often *)
Definition same_ranks (a b : list N) : Prop := forall r, occurs r (map rank_of a) = occurs r (map rank_of b).
