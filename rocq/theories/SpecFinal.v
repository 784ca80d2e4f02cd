(* Specification: the tables reported for starting hands, preflop combinations, categories
   and draws. *)
From Verif Require Import Base Float64 Hand Range Sim SpecPoker SpecNames SpecHand SpecEquity.
Local Open Scope N_scope.

Definition same_hand (a b : N) (h : whand) : Prop :=
  first_card h = a /\ second_card h = b \/ first_card h = b /\ second_card h = a.
(* the entry of player i and the j-th starting hand *)
Definition hand_entry (r : results) (i j : nat) : unit_results := nth (1326 * i + j) (r_hand_results r) unit_default.
(* a sum belonging to a total which may exceed 64 bits: all sums of the same total are
   divided by the same number *)
Definition scaled (total x : N) : N := if total <? 2 ^ 64 then x else x / (total / (2 ^ 64 - 1) + 1).

(* the starting hands of the c-th preflop combination, and the hands that were dealt *)
Definition hands_in (c : nat) : list nat := filter (fun j => block (N.of_nat j) =? N.of_nat c) (seq 0 1326).
Definition dealt_hand (u : unit_results) : bool := u_valid u && (0 <? u_total u).

(* an entry summing up the entries of some starting hands of player i *)
Definition sums_up (r : results) (i : nat) (js : list nat) (u : unit_results) : Prop :=
  let total := sum_of (fun j => u_total (hand_entry r i j)) js in
  u_wins u = scaled total (sum_of (fun j => u_wins (hand_entry r i j)) js) /\
  u_ties u = scaled total (sum_of (fun j => u_ties (hand_entry r i j)) js) /\
  u_total u = scaled total total.

(* which starting hands count for a column of board_draws: the first seven columns are the
   flags of get_draw; a hand with the nut flush (draw) flag counts once more, with backdoor
   flush draws only (7), with a flush draw (8) or with a flush (9) *)
Definition draw_column (k : nat) (flags : N) : bool :=
  if (k <? 7)%nat then N.testbit flags (N.of_nat k)
  else N.testbit flags 7 &&
       match k with
       | 7%nat => N.testbit flags 6 && negb (N.testbit flags 5)
       | 8%nat => N.testbit flags 5
       | _ => negb (N.testbit flags 5) && negb (N.testbit flags 6)
       end.

(* the flags of the hole cards a, b on a board *)
Definition draw_flags (p : profile) (a b board : N) : outcome N :=
  hc <- from_hole_cards p a b ;; bd <- from_bit_mask p board ;; get_draw p hc bd (category_of (a :: b :: mask_cards board)).
