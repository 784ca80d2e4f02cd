(* Specification: equity as the share of the pots a player wins.  A pot won by k players is
   split evenly.  Shares are counted in 2520ths of a pot, because 2520 can be divided by
   every number of players from 1 to 9. *)
From Coq Require Import Floats.SpecFloat QArith.
From Verif Require Import Base Float64 SpecPoker SpecNames SpecHand SpecEquity.
Local Open Scope N_scope.

(* the number a float stands for; NaN and infinities are not numbers *)
Definition value (f : f64) : Q :=
  match f with
  | S754_finite s m e => inject_Z (if s then Z.neg m else Z.pos m) * Qpower 2 e
  | _ => 0
  end.
Definition number (f : f64) : Prop := match f with S754_finite _ _ _ | S754_zero _ => True | _ => False end.

(* what player j gets of a pot won by the players ps *)
Definition share_of (j : nat) (ps : list nat) : N :=
  if existsb (Nat.eqb j) ps then 2520 / N.of_nat (length ps) else 0.

(* what player j gets of the pots in wins_by_mask, and the weight of the pots somebody won *)
Definition pot_shares (n j : nat) (wbm : list N) : N :=
  sum_of (fun m => nth m wbm 0 * share_of j (players_of n (N.of_nat m))) (seq 0 (2 ^ n)).
Definition pots (wbm : list N) : N := sum_of (fun x => x) (tl wbm).

(* what player j gets in all deals on all boards *)
Definition dealt_shares (ranges : list (list whand)) (board dead : N) (j : nat) : N :=
  sum_of (fun d => deal_weight d * sum_of (fun l => share_of j (winners d l)) (boards board dead d)) (deals ranges board dead).
Definition dealt_pots (ranges : list (list whand)) (board dead : N) : N := total_of ranges board dead (fun _ _ => true).

(* part of all, as a fraction *)
Definition ratio (part all : N) : Q := (inject_Z (Z.of_N part) / inject_Z (Z.of_N all))%Q.
