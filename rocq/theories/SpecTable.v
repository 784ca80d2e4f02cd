(* Tables whose counters fit whatever ranges are written down. *)
From Verif Require Import Base Sim SpecHand SpecEquity SpecResults SpecRun SpecFinal.
Local Open Scope N_scope.

(* two players, or three once there are three cards on the board *)
Definition small_table (n : nat) (board : N) : Prop := (n <= 2)%nat \/ n = 3%nat /\ (3 <= length (mask_cards board))%nat.

(* what is known about a starting hand after the run *)
Definition entry_told (ranges : list (list whand)) (board dead : N) (i : nat) (a b : N) (u : unit_results) : Prop :=
  u_wins u = hand_wins ranges board dead i a b /\ u_ties u = hand_ties ranges board dead i a b /\ u_total u = hand_total ranges board dead i a b /\
  (u_valid u = true <-> (exists h, In h (range_at ranges i) /\ same_hand a b h) /\ on_table board dead a = false /\ on_table board dead b = false) /\
  (forall h, In h (range_at ranges i) -> same_hand a b h -> u_valid u = true -> u_weight u = weight h).

(* ranges written without weights *)
Definition plain (ranges : list (list whand)) : Prop := Forall (Forall (fun h => weight h = 100)) ranges.
