(* Specification: the rates reported for a starting hand, a preflop combination, a category
   or a draw. *)
From Coq Require Import Floats.SpecFloat QArith Qabs.
From Verif Require Import Base Float64 Sim SpecShare.
Local Open Scope N_scope.

(* the finite binary64 numbers *)
Definition float (g : f64) : Prop := number g /\ valid_binary 53 1024 g = true.
(* f is a float, and no float is closer to x *)
Definition closest (f : f64) (x : Q) : Prop := float f /\ forall g, float g -> (Qabs (value f - x) <= Qabs (value g - x))%Q.
(* f is a float from x to y, or one of the two floats next to them *)
Definition between (f : f64) (x y : Q) : Prop :=
  float f /\ (forall g, float g -> (value g <= x)%Q -> (value g <= value f)%Q) /\ (forall g, float g -> (y <= value g)%Q -> (value f <= value g)%Q).

(* the smallest power of two that is at least n, for at most 16 players *)
Definition power_above (n : nat) : N := if (n <=? 2)%nat then 2 else if (n <=? 4)%nat then 4 else if (n <=? 8)%nat then 8 else 16.
(* The rates of an entry: of a tie, between 1/power_above n and one half is counted, so with
   two players exactly one half. *)
Definition rates (n : nat) (u : unit_results) : Prop :=
  if u_total u =? 0 then u_equity u = f_zero /\ u_winrate u = f_zero /\ u_tierate u = f_zero
  else closest (u_winrate u) (ratio (u_wins u) (u_total u)) /\ closest (u_tierate u) (ratio (u_ties u) (u_total u)) /\
    between (u_equity u) (ratio (power_above n * u_wins u + u_ties u) (power_above n * u_total u)) (ratio (2 * u_wins u + u_ties u) (2 * u_total u)) /\
    (n = 2%nat -> closest (u_equity u) (ratio (2 * u_wins u + u_ties u) (2 * u_total u))).
(* The rates of a category or a draw: the tie rate is that of the counted part of the ties. *)
Definition board_rates (n : nat) (u : unit_results) : Prop :=
  if u_total u =? 0 then u_equity u = f_zero /\ u_winrate u = f_zero /\ u_tierate u = f_zero
  else closest (u_winrate u) (ratio (u_wins u) (u_total u)) /\
    between (u_tierate u) (ratio (u_ties u) (power_above n * u_total u)) (ratio (u_ties u) (2 * u_total u)) /\
    between (u_equity u) (ratio (power_above n * u_wins u + u_ties u) (power_above n * u_total u)) (ratio (2 * u_wins u + u_ties u) (2 * u_total u)) /\
    (n = 2%nat -> closest (u_equity u) (ratio (2 * u_wins u + u_ties u) (2 * u_total u)) /\ closest (u_tierate u) (ratio (u_ties u) (2 * u_total u))).

(* the rates in the tables of a run with n players *)
Definition all_rates (n : nat) (r : results) : Prop :=
  (forall u, In u (r_hand_results r) -> u_valid u = true -> u_total u <= 2 ^ 49 -> rates n u) /\
  (forall u, In u (r_combo_results r) -> u_total u <= 2 ^ 49 -> rates n u) /\
  (forall u, In u (r_board_results r ++ r_board_draws r) -> u_total u <= 2 ^ 49 -> board_rates n u).
