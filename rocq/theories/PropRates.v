(* C95-C100: the rates in the tables, and the tables of approximate runs. *)
From Coq Require Import Floats.SpecFloat QArith Qabs.
From Verif Require Import Base Float64 Hand Range FastDivide Combined Sim Approx SpecPoker SpecNames SpecHand SpecEquity SpecResults SpecRun SpecApprox SpecFinal SpecShare SpecRates
  FinalRunProofs ShareProofs UnitProofs TableRateProofs PropEquity ConvergeResultProofs PropBatch.
Local Open Scope N_scope.

(* The examples: Ad Ac (weight 2) against Ah As (weight 3) on Kd Qd Jd 2s, see PropEquity,
   with all other cards dead but 2d, 3d and 3s.
   (valid; wins, ties, total; equity, winrate, tierate) of the entries with a total: those of
   the hands, of the combinations, and of the categories and draws of the first player *)
Definition rates_of (u : unit_results) : bool * (N * N * N) * (f64 * f64 * f64) := (u_valid u, (u_wins u, u_ties u, u_total u), (u_equity u, u_winrate u, u_tierate u)).
Definition frac (a b : N) : f64 := f_div (f_of_N a) (f_of_N b).
Lemma rates_inv u v a b c x y z : rates_of u = (v, (a, b, c), (x, y, z)) ->
  u_valid u = v /\ u_wins u = a /\ u_ties u = b /\ u_total u = c /\ u_equity u = x /\ u_winrate u = y /\ u_tierate u = z.
Proof. unfold rates_of. intros E. injection E. auto 10. Qed.
Definition counted (l : list unit_results) : list (bool * (N * N * N) * (f64 * f64 * f64)) := map rates_of (filter (fun u => 0 <? u_total u) l).
Definition no_number (u : unit_results) : bool := match u_equity u with S754_nan => true | _ => false end.
Definition table_part (x : outcome (result observed sim_error)) :=
  match x with
  | Ret (ROk o) => let r := o_results o in
      Some (counted (r_hand_results r), counted (r_combo_results r), counted (firstn 9 (r_board_results r)), counted (firstn 10 (r_board_draws r)), existsb no_number (r_hand_results r))
  | _ => None
  end.
Definition first_row := (true, (12, 6, 18), (frac 15 18, frac 12 18, frac 6 18)).
Definition second_row := (true, (0, 6, 18), (frac 3 18, f_zero, frac 6 18)).
Definition board_row := (false, (12, 6, 18), (frac 15 18, frac 12 18, frac 3 18)).
Example aces_tables : table_part (exact_equity Debug aces three_diamonds aces_dead 2 false aces_sched) =
  Some ([first_row; second_row], [first_row; second_row], [board_row], [board_row; board_row; board_row], true).
Proof. vm_compute. reflexivity. Qed.
Lemma counted_in x l l' : counted l = l' -> In x l' -> exists u, In u l /\ rates_of u = x.
Proof. intros <- H. apply in_map_iff in H as (u & E & H). apply filter_In in H as [H _]. exists u. auto. Qed.
Lemma aces_run : exists o, exact_equity Debug aces three_diamonds aces_dead 2 false aces_sched = Ret (ROk o) /\
  (exists u, In u (r_hand_results (o_results o)) /\ u_equity u = S754_nan) /\
  (exists u, In u (r_hand_results (o_results o)) /\ rates_of u = first_row) /\
  exists u, In u (r_board_results (o_results o)) /\ rates_of u = board_row.
Proof.
  pose proof aces_tables as E. destruct (exact_equity Debug aces three_diamonds aces_dead 2 false aces_sched) as [[o|e]|f]; try discriminate E. exists o. split; [reflexivity|].
  unfold table_part in E. cbv zeta in E. revert E. generalize first_row, second_row, board_row. intros a b c E. injection E as E1 _ E3 _ E5. split; [|split].
  - apply existsb_exists in E5 as (u & Hu & E). exists u. split; [exact Hu|]. unfold no_number in E. destruct (u_equity u); try discriminate E. reflexivity.
  - eapply counted_in; [exact E1|left; reflexivity].
  - destruct (counted_in c _ _ E3 (or_introl eq_refl)) as (u & Hu & E). exists u. split; [|exact E]. rewrite <- (firstn_skipn 9 (r_board_results (o_results o))). apply in_or_app. left. exact Hu.
Qed.
Lemma aces_quiet : ~ In Cancel aces_sched.
Proof. vm_compute. intuition discriminate. Qed.

(* C95: false, the equity of a hand outside the range is NaN *)
Theorem C95_refuted : exists ranges board dead sched o u, usable ranges /\ weights_fit ranges board /\ ~ In Cancel sched /\
  exact_equity Debug ranges board dead 2 false sched = Ret (ROk o) /\ In u (r_hand_results (o_results o)) /\ u_equity u = S754_nan.
Proof.
  destruct aces_run as (o & E & (u & Hu & Hn) & _). exists aces, three_diamonds, aces_dead, aces_sched, o, u.
  split; [apply aces_usable|]. split; [apply aces_usable|]. split; [exact aces_quiet|]. auto.
Qed.

(* C96: the rates of the hands in the ranges, the combinations, the categories and the draws *)
Theorem C96_exact : forall p ranges board dead threads cancelled sched o, usable ranges -> p = Debug \/ weights_fit ranges board ->
  exact_equity p ranges board dead threads cancelled sched = Ret (ROk o) -> all_rates (length ranges) (o_results o).
Proof. exact exact_rates. Qed.
Theorem C96_approx : forall p ranges board dead threads target cancelled shuf rngs fuel sched o, Forall range_ok ranges -> permutes shuf ->
  p = Debug \/ N.of_nat (length sched) * heaviest ranges < 2 ^ 64 ->
  approx_equity p ranges board dead threads target cancelled shuf rngs fuel sched = Ret (ROk o) -> all_rates (length ranges) (o_results o).
Proof. exact approx_rates. Qed.
(* 15/18 = (2 * 12 + 6) / (2 * 18) *)
Example C96_example : closest (frac 15 18) (ratio (2 * 12 + 6) (2 * 18)) /\ power_above 3 = 4 /\ power_above 9 = 16.
Proof.
  split; [|split; reflexivity]. destruct aces_run as (o & H & _ & (u & Hin & E) & _).
  destruct (C96_exact Debug aces three_diamonds aces_dead 2 false aces_sched o (proj1 aces_usable) (or_introl eq_refl) H) as (R & _).
  apply rates_inv in E as (E1 & E2 & E3 & E4 & E5 & E6 & E7). specialize (R u Hin E1). rewrite E4 in R. specialize (R ltac:(discriminate)). unfold rates in R. rewrite E2, E3, E4, E5 in R. apply R. reflexivity.
Qed.

(* C97: the true equity of a hand against one opponent *)
Theorem C97_true_equity : forall p ranges board dead threads sched o, usable ranges -> p = Debug \/ weights_fit ranges board ->
  exact_equity p ranges board dead threads false sched = Ret (ROk o) -> ~ In Cancel sched -> (0 < threads)%nat -> length ranges = 2%nat ->
  forall i a b k, (i < 2)%nat -> hole a b -> get_card_index p a b = Ret k ->
  (exists h, In h (range_at ranges i) /\ same_hand a b h) -> on_table board dead a = false -> on_table board dead b = false ->
  let total := hand_total ranges board dead i a b in
  0 < total -> total <= 2 ^ 49 ->
  exists u, nth_error (r_hand_results (o_results o)) (1326 * i + N.to_nat k) = Some u /\
    closest (u_equity u) (ratio (2 * hand_wins ranges board dead i a b + hand_ties ranges board dead i a b) (2 * total)) /\
    closest (u_winrate u) (ratio (hand_wins ranges board dead i a b) total) /\ closest (u_tierate u) (ratio (hand_ties ranges board dead i a b) total).
Proof. exact true_hand. Qed.
Example C97_example : (hand_wins aces three_diamonds aces_dead 0 51 50, hand_ties aces three_diamonds aces_dead 0 51 50, hand_total aces three_diamonds aces_dead 0 51 50) = (12, 6, 18).
Proof. vm_compute. reflexivity. Qed.

(* C98: false, the tie rate of a category counts half of a tie between two players *)
Theorem C98_refuted : exists ranges board dead sched o u, usable ranges /\ weights_fit ranges board /\ ~ In Cancel sched /\
  exact_equity Debug ranges board dead 2 false sched = Ret (ROk o) /\ In u (r_board_results (o_results o)) /\ (u_ties u, u_total u) = (6, 18) /\ u_tierate u = frac 3 18 /\
  ~ closest (u_tierate u) (ratio (u_ties u) (u_total u)).
Proof.
  destruct aces_run as (o & H & _ & _ & u & Hin & E). exists aces, three_diamonds, aces_dead, aces_sched, o, u. apply rates_inv in E as (E1 & E2 & E3 & E4 & E5 & E6 & E7).
  split; [apply aces_usable|]. split; [apply aces_usable|]. split; [exact aces_quiet|]. split; [exact H|]. split; [exact Hin|]. rewrite E3, E4, E7. split; [reflexivity|]. split; [reflexivity|].
  intros [_ Hc]. specialize (Hc (frac 6 18) ltac:(split; [vm_compute; exact I|vm_compute; reflexivity])). vm_compute in Hc. apply Hc. reflexivity.
Qed.

(* C99: the tables of an approximate run, as C50, C51, C52, C69 and C70 for exact runs *)
Theorem C99_hands_and_weights : forall p ranges board dead threads target cancelled shuf rngs fuel sched o, Forall range_ok ranges -> permutes shuf ->
  approx_equity p ranges board dead threads target cancelled shuf rngs fuel sched = Ret (ROk o) ->
  forall i a b k, (i < length ranges)%nat -> hole a b -> get_card_index p a b = Ret k ->
  exists u, nth_error (r_hand_results (o_results o)) (1326 * i + N.to_nat k) = Some u /\
    (u_valid u = true <-> (exists h, In h (range_at ranges i) /\ same_hand a b h) /\ on_table board dead a = false /\ on_table board dead b = false) /\
    (u_valid u = false -> u_weight u = 0) /\
    forall l1 h l2, range_at ranges i = l1 ++ h :: l2 -> same_hand a b h -> (forall h', In h' l2 -> ~ same_hand a b h') -> u_valid u = true -> u_weight u = weight h.
Proof. exact sampled_entry. Qed.
Theorem C99_combos : forall p ranges board dead threads target cancelled shuf rngs fuel sched o, Forall range_ok ranges -> permutes shuf ->
  approx_equity p ranges board dead threads target cancelled shuf rngs fuel sched = Ret (ROk o) ->
  p = Debug \/ N.of_nat (length sched) * heaviest ranges < 2 ^ 64 -> forall i c, (i < length ranges)%nat -> (c < 169)%nat ->
  let r := o_results o in
  let mine := filter (fun j => dealt_hand (hand_entry r i j)) (hands_in c) in
  exists u, nth_error (r_combo_results r) (169 * i + c) = Some u /\ sums_up r i mine u /\ u_valid u = (0 <? length mine)%nat /\
    u_weight u = if (0 <? length mine)%nat then sum_of (fun j => u_weight (hand_entry r i j)) mine / N.of_nat (length (hands_in c)) else 0.
Proof. exact sampled_combos. Qed.
Theorem C99_categories : forall p ranges board dead threads target cancelled shuf rngs fuel sched o, Forall range_ok ranges -> permutes shuf ->
  approx_equity p ranges board dead threads target cancelled shuf rngs fuel sched = Ret (ROk o) ->
  p = Debug \/ N.of_nat (length sched) * heaviest ranges < 2 ^ 64 -> board < 2 ^ 64 -> 2 < ones board -> forall cat,
  (forall a b k, hole a b -> N.testbit board a = false -> N.testbit board b = false -> get_card_index p a b = Ret k ->
     cat (N.to_nat k) = category_of (a :: b :: mask_cards board)) ->
  let r := o_results o in
  forall i c, (i < length ranges)%nat -> (c < 9)%nat ->
  let mine := filter (fun j => u_valid (hand_entry r i j) && (cat j =? N.of_nat c)) (seq 0 1326) in
  exists u, nth_error (r_board_results r) (9 * i + c) = Some u /\ sums_up r i mine u /\
    u_weight u = if 0 <? sum_of (fun j => u_total (hand_entry r i j)) mine then sum_of (fun j => u_weight (hand_entry r i j)) mine else 0.
Proof. exact sampled_boards. Qed.
Theorem C99_rank_and_draws : forall p ranges board dead threads target cancelled shuf rngs fuel sched o, Forall range_ok ranges -> permutes shuf ->
  approx_equity p ranges board dead threads target cancelled shuf rngs fuel sched = Ret (ROk o) ->
  board < 2 ^ 64 -> 2 < ones board -> forall i a b k u, (i < length ranges)%nat -> hole a b -> get_card_index p a b = Ret k ->
  nth_error (r_hand_results (o_results o)) (1326 * i + N.to_nat k) = Some u -> u_valid u = true ->
  u_rank u = category_of (a :: b :: mask_cards board) /\
  if (length (mask_cards board) <? 5)%nat
  then (hc <- from_hole_cards p a b ;; bd <- from_bit_mask p board ;; get_draw p hc bd (u_rank u)) = Ret (u_draw u)
  else u_draw u = 0.
Proof. exact sampled_rank_draw. Qed.
Theorem C99_draws : forall p ranges board dead threads target cancelled shuf rngs fuel sched o, Forall range_ok ranges -> permutes shuf ->
  approx_equity p ranges board dead threads target cancelled shuf rngs fuel sched = Ret (ROk o) ->
  p = Debug \/ N.of_nat (length sched) * heaviest ranges < 2 ^ 64 -> board < 2 ^ 64 -> 2 < ones board ->
  let r := o_results o in
  forall i c, (i < length ranges)%nat -> (c < 10)%nat ->
  let mine := filter (fun j => u_valid (hand_entry r i j) && draw_column c (u_draw (hand_entry r i j))) (seq 0 1326) in
  exists u, nth_error (r_board_draws r) (10 * i + c) = Some u /\ sums_up r i mine u /\
    u_weight u = if 0 <? sum_of (fun j => u_total (hand_entry r i j)) mine then sum_of (fun j => u_weight (hand_entry r i j)) mine else 0.
Proof. exact sampled_draws. Qed.
(* the run of C83_example: Ad Ac against Kd Kc on a complete board *)
Example C99_example : exists o u, approx_equity Release wit_ranges wit_board 0 2 wit_target false wit_shuffle wit_rngs 0 two_sched = Ret (ROk o) /\
  nth_error (r_hand_results (o_results o)) (1326 * 0 + 5) = Some u /\ u_valid u = true /\ u_weight u = 1 /\ u_rank u = category_of (51 :: 50 :: mask_cards wit_board) /\ u_draw u = 0.
Proof.
  destruct C83_example as (o & H & _). exists o.
  assert (Hh : hole 51 50) by (unfold hole, is_card; lia). assert (Hk : get_card_index Release 51 50 = Ret 5) by (vm_compute; reflexivity).
  destruct (C99_hands_and_weights _ _ _ _ _ _ _ _ _ _ _ _ wit_ok wit_permutes H 0%nat 51 50 5 ltac:(cbn; lia) Hh Hk) as (u & Hu & Hv & _ & Hw).
  assert (V : u_valid u = true) by (apply Hv; split; [exists (51, 50, 1); split; [left; reflexivity|left; split; reflexivity]|split; reflexivity]).
  exists u. split; [exact H|]. split; [exact Hu|]. split; [exact V|]. split; [apply (Hw [] (51, 50, 1) []); [reflexivity|left; split; reflexivity|intros h []|exact V]|].
  destruct (C99_rank_and_draws _ _ _ _ _ _ _ _ _ _ _ _ wit_ok wit_permutes H eq_refl eq_refl 0%nat 51 50 5 u ltac:(cbn; lia) Hh Hk Hu V) as [Hr Hd].
  split; [exact Hr|exact Hd].
Qed.

(* C100: false, entries of categories and draws are never marked as valid *)
Theorem C100_refuted : exists ranges board dead sched o u, usable ranges /\ weights_fit ranges board /\ ~ In Cancel sched /\
  exact_equity Debug ranges board dead 2 false sched = Ret (ROk o) /\ In u (r_board_results (o_results o)) /\ 0 < u_total u /\ u_valid u = false.
Proof.
  destruct C98_refuted as (ranges & board & dead & sched & o & u & H1 & H2 & H3 & H4 & H5 & H6 & _). exists ranges, board, dead, sched, o, u. repeat (split; [assumption|]).
  injection H6 as _ E. rewrite E. split; [reflexivity|]. eapply never_valid; [eapply run_tables; eassumption|]. apply in_or_app. left. exact H5.
Qed.
Theorem C100_never_exact : forall p ranges board dead threads cancelled sched o, usable ranges ->
  exact_equity p ranges board dead threads cancelled sched = Ret (ROk o) ->
  forall u, In u (r_board_results (o_results o) ++ r_board_draws (o_results o)) -> u_valid u = false /\ u_rank u = 255 /\ u_draw u = 0.
Proof. intros p ranges board dead threads cancelled sched o Hu H. eapply never_valid. eapply run_tables; eassumption. Qed.
Theorem C100_never_approx : forall p ranges board dead threads target cancelled shuf rngs fuel sched o, Forall range_ok ranges -> permutes shuf ->
  approx_equity p ranges board dead threads target cancelled shuf rngs fuel sched = Ret (ROk o) ->
  forall u, In u (r_board_results (o_results o) ++ r_board_draws (o_results o)) -> u_valid u = false /\ u_rank u = 255 /\ u_draw u = 0.
Proof. intros p ranges board dead threads target cancelled shuf rngs fuel sched o Hr Hs H. eapply never_valid. eapply approx_tables; eassumption. Qed.

Print Assumptions C95_refuted.
Print Assumptions C96_exact.
Print Assumptions C96_approx.
Print Assumptions C97_true_equity.
Print Assumptions C98_refuted.
Print Assumptions C99_hands_and_weights.
Print Assumptions C99_combos.
Print Assumptions C99_categories.
Print Assumptions C99_rank_and_draws.
Print Assumptions C99_draws.
Print Assumptions C100_refuted.
Print Assumptions C100_never_exact.
Print Assumptions C100_never_approx.
