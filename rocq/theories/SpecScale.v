(* Specification: two entries with the same rates, bit for bit. *)
From Verif Require Import Base Float64 Sim.

(* in runs with n and n' players; the equity of a hand is the exact share only with two players *)
Definition same_rates (n n' : nat) (u u' : unit_results) : Prop :=
  u_winrate u' = u_winrate u /\ u_tierate u' = u_tierate u /\ (n = 2%nat -> n' = 2%nat -> u_equity u' = u_equity u).
