(* C50-C52, C69, C70: the tables reported by a run of exact_equity. *)
From Verif Require Import Base Float64 Hand Range FastDivide Combined Sim SpecPoker SpecNames SpecHand SpecEquity SpecResults SpecRun SpecFinal
  FinalRunProofs.
Local Open Scope N_scope.

(* The examples: Jc Tc (given twice, weights 2 and 3), Ac 3c or Td Th, against Kd Kh, on
   Kc Qc 2d with all other cards dead but Ad and 9d; 2s 3h cannot be dealt. *)
Definition fx_ranges : list (list whand) := [[(38, 34, 2); (50, 6, 1); (35, 33, 1); (34, 38, 3)]; [(47, 45, 3); (0, 5, 0)]].
Definition fx_board : N := 2 ^ 46 + 2 ^ 42 + 2 ^ 3.
Definition fx_dead : N := 2 ^ 52 - 1 - fx_board - (2 ^ 38 + 2 ^ 34 + 2 ^ 50 + 2 ^ 6 + 2 ^ 35 + 2 ^ 33 + 2 ^ 47 + 2 ^ 45) - (2 ^ 51 + 2 ^ 31).
Definition fx_run : outcome (result observed sim_error) := exact_equity Debug fx_ranges fx_board fx_dead 1 false (repeat (Run 0) 12).
Definition seen {A} (x : outcome (result observed sim_error)) (f : results -> A) : option A :=
  match x with Ret (ROk o) => Some (f (o_results o)) | _ => None end.
Definition shares (u : unit_results) : N * N * N := (u_wins u, u_ties u, u_total u).
Example fx_usable : usable fx_ranges /\ 2 < ones fx_board.
Proof. split; [split; [repeat constructor; cbn; lia || discriminate|reflexivity]|reflexivity]. Qed.

(* C50: the hands of a player and their weights *)
Theorem C50_hands_and_weights : forall p ranges board dead threads cancelled sched o, usable ranges ->
  exact_equity p ranges board dead threads cancelled sched = Ret (ROk o) ->
  forall i a b k, (i < length ranges)%nat -> hole a b -> get_card_index p a b = Ret k ->
  exists u, nth_error (r_hand_results (o_results o)) (1326 * i + N.to_nat k) = Some u /\
    (u_valid u = true <-> (exists h, In h (range_at ranges i) /\ same_hand a b h) /\ on_table board dead a = false /\ on_table board dead b = false) /\
    (u_valid u = false -> u_weight u = 0) /\
    forall l1 h l2, range_at ranges i = l1 ++ h :: l2 -> same_hand a b h -> (forall h', In h' l2 -> ~ same_hand a b h') -> u_valid u = true -> u_weight u = weight h.
Proof. exact run_entry. Qed.
Example C50_example : seen fx_run (fun r => map (fun j => (u_valid (hand_entry r 0 j), u_weight (hand_entry r 0 j))) [212; 120; 28; 211]%nat) =
  Some [(true, 3); (true, 1); (true, 1); (false, 0)] /\
  map (fun '(a, b) => get_card_index Debug a b) [(38, 34); (50, 6); (35, 33)] = [Ret 212; Ret 120; Ret 28].
Proof. vm_compute. auto. Qed.

(* C51: the preflop combinations *)
Theorem C51_combos : forall p ranges board dead threads cancelled sched o, usable ranges ->
  exact_equity p ranges board dead threads cancelled sched = Ret (ROk o) ->
  p = Debug \/ weights_fit ranges board -> forall i c, (i < length ranges)%nat -> (c < 169)%nat ->
  let r := o_results o in
  let mine := filter (fun j => dealt_hand (hand_entry r i j)) (hands_in c) in
  exists u, nth_error (r_combo_results r) (169 * i + c) = Some u /\ sums_up r i mine u /\ u_valid u = (0 <? length mine)%nat /\
    u_weight u = if (0 <? length mine)%nat then sum_of (fun j => u_weight (hand_entry r i j)) mine / N.of_nat (length (hands_in c)) else 0.
Proof. exact run_combos. Qed.
Example C51_example : seen fx_run (fun r => map (fun c => let u := nth (169 * 0 + c) (r_combo_results r) unit_default in (u_valid u, shares u)) [46; 23; 4; 5]%nat) =
  Some [(true, (210, 0, 225)); (true, (21, 0, 45)); (true, (9, 0, 45)); (false, (0, 0, 0))] /\
  map block [212; 120; 28] = [46; 23; 4].
Proof. vm_compute. auto. Qed.

(* C52: the categories of the hands on the board *)
Theorem C52_categories : forall p ranges board dead threads cancelled sched o, usable ranges ->
  exact_equity p ranges board dead threads cancelled sched = Ret (ROk o) ->
  p = Debug \/ weights_fit ranges board -> board < 2 ^ 64 -> 2 < ones board -> forall cat,
  (forall a b k, hole a b -> N.testbit board a = false -> N.testbit board b = false -> get_card_index p a b = Ret k ->
     cat (N.to_nat k) = category_of (a :: b :: mask_cards board)) ->
  let r := o_results o in
  forall i c, (i < length ranges)%nat -> (c < 9)%nat ->
  let mine := filter (fun j => u_valid (hand_entry r i j) && (cat j =? N.of_nat c)) (seq 0 1326) in
  exists u, nth_error (r_board_results r) (9 * i + c) = Some u /\ sums_up r i mine u /\
    u_weight u = if 0 <? sum_of (fun j => u_total (hand_entry r i j)) mine then sum_of (fun j => u_weight (hand_entry r i j)) mine else 0.
Proof. exact run_boards. Qed.
Example C52_example : seen fx_run (fun r => map shares (r_board_results r)) =
  Some ([(231, 0, 270); (9, 0, 45)] ++ repeat (0, 0, 0) 7 ++ repeat (0, 0, 0) 3 ++ [(75, 0, 315)] ++ repeat (0, 0, 0) 5) /\
  map (fun h => category_of (first_card h :: second_card h :: mask_cards fx_board)) [(38, 34, 2); (50, 6, 1); (35, 33, 1); (47, 45, 3)] = [0; 0; 1; 3].
Proof. vm_compute. auto. Qed.

(* C69: the rank and the draws of a hand on the board *)
Theorem C69_rank_and_draws : forall p ranges board dead threads cancelled sched o, usable ranges ->
  exact_equity p ranges board dead threads cancelled sched = Ret (ROk o) ->
  board < 2 ^ 64 -> 2 < ones board -> forall i a b k u, (i < length ranges)%nat -> hole a b -> get_card_index p a b = Ret k ->
  nth_error (r_hand_results (o_results o)) (1326 * i + N.to_nat k) = Some u -> u_valid u = true ->
  u_rank u = category_of (a :: b :: mask_cards board) /\
  if (length (mask_cards board) <? 5)%nat
  then (hc <- from_hole_cards p a b ;; bd <- from_bit_mask p board ;; get_draw p hc bd (u_rank u)) = Ret (u_draw u)
  else u_draw u = 0.
Proof. exact run_rank_draw. Qed.
Example C69_example : seen fx_run (fun r => map (fun j => (u_rank (hand_entry r 0 j), u_draw (hand_entry r 0 j))) [212; 120; 28]%nat) =
  Some [(0, 2 ^ 0 + 2 ^ 5); (0, 2 ^ 3 + 2 ^ 5 + 2 ^ 7); (1, 2 ^ 3)].
Proof. vm_compute. reflexivity. Qed.

(* C70: the draws of the hands on the board *)
Theorem C70_draws : forall p ranges board dead threads cancelled sched o, usable ranges ->
  exact_equity p ranges board dead threads cancelled sched = Ret (ROk o) ->
  p = Debug \/ weights_fit ranges board -> board < 2 ^ 64 -> 2 < ones board ->
  let r := o_results o in
  forall i c, (i < length ranges)%nat -> (c < 10)%nat ->
  let mine := filter (fun j => u_valid (hand_entry r i j) && draw_column c (u_draw (hand_entry r i j))) (seq 0 1326) in
  exists u, nth_error (r_board_draws r) (10 * i + c) = Some u /\ sums_up r i mine u /\
    u_weight u = if 0 <? sum_of (fun j => u_total (hand_entry r i j)) mine then sum_of (fun j => u_weight (hand_entry r i j)) mine else 0.
Proof. exact run_draws. Qed.
Example C70_example : seen fx_run (fun r => map shares (firstn 10 (r_board_draws r))) =
  Some [(210, 0, 225); (0, 0, 0); (0, 0, 0); (30, 0, 90); (0, 0, 0); (231, 0, 270); (0, 0, 0); (0, 0, 0); (21, 0, 45); (0, 0, 0)].
Proof. vm_compute. reflexivity. Qed.

Print Assumptions C50_hands_and_weights.
Print Assumptions C51_combos.
Print Assumptions C52_categories.
Print Assumptions C69_rank_and_draws.
Print Assumptions C70_draws.
