(* C126-C129: equities and rates depend only on fractions. *)
From Coq Require Import Floats.SpecFloat QArith Permutation.
From Verif Require Import Base Float64 Hand Range FastDivide Combined Sim Approx SpecPoker SpecNames SpecHand SpecEquity SpecResults SpecRun SpecApprox SpecShare SpecEven SpecSymmetry SpecRates SpecScale
  EvenProofs ScaleProofs SeatEvenProofs.
Local Open Scope N_scope.

(* C126: multiplying the weights of players does not change equities, not even in the last bit. *)
Theorem C126_weights : forall p ks ranges board dead o o', usable ranges -> usable (scaled ks ranges) -> length ks = length ranges -> Forall (fun k => 0 < k) ks ->
  p = Debug \/ weights_fit ranges board -> p = Debug \/ weights_fit (scaled ks ranges) board ->
  even_deals ranges board dead -> sum_of (fun x => x) (r_wins_by_mask (o_results o')) <= 2 ^ 53 ->
  completes p ranges board dead o -> completes p (scaled ks ranges) board dead o' ->
  r_equities (o_results o') = r_equities (o_results o).
Proof. exact equities_scaled. Qed.
(* Ad Ac (weight 2) and Qd Qs (4) against Kd Kc (3) and Ah As (5) on 2s 3h 4c 7d 9s; then the
   weights times 3 and 5. The pots are 48 and 720, the first player gets 11 and 165. *)
Definition game : list (list whand) := [[(51, 50, 2); (43, 40, 4)]; [(47, 46, 3); (49, 48, 5)]].
Definition river : N := 2 ^ 0 + 2 ^ 5 + 2 ^ 10 + 2 ^ 23 + 2 ^ 28.
Example C126_example : even_deals game river 0 /\ usable (scaled [3; 5] game) /\ scaled [3; 5] game = [[(51, 50, 6); (43, 40, 12)]; [(47, 46, 15); (49, 48, 25)]] /\
  dealt_shares game river 0 0 = 2520 * 11 /\ dealt_shares (scaled [3; 5] game) river 0 0 = 2520 * 165 /\
  f_div (f_of_N 11) (f_of_N 48) = f_div (f_of_N 165) (f_of_N 720) /\ f_div (f_of_N 1) (f_of_N 3) <> f_div (f_of_N 1000000000000000) (f_of_N 3000000000000001).
Proof. split; [apply even_two; left; repeat constructor|]. split; [repeat split; repeat constructor; discriminate|]. vm_compute. repeat split; discriminate. Qed.

(* C127: the rates of a hand are determined by the fractions of its wins and ties, in whatever
   runs; with two players also its equity. So multiplying weights does not change them. *)
Theorem C127_fractions : forall p p' ranges ranges' board board' dead dead' threads threads' cancelled cancelled' sched sched' o o', usable ranges -> usable ranges' ->
  p = Debug \/ weights_fit ranges board -> p' = Debug \/ weights_fit ranges' board' ->
  exact_equity p ranges board dead threads cancelled sched = Ret (ROk o) -> exact_equity p' ranges' board' dead' threads' cancelled' sched' = Ret (ROk o') ->
  forall u u', In u (r_hand_results (o_results o)) -> In u' (r_hand_results (o_results o')) -> u_valid u = true -> u_valid u' = true ->
  0 < u_total u -> u_total u <= 2 ^ 49 -> 0 < u_total u' -> u_total u' <= 2 ^ 49 ->
  u_wins u * u_total u' = u_wins u' * u_total u -> u_ties u * u_total u' = u_ties u' * u_total u -> same_rates (length ranges) (length ranges') u u'.
Proof. exact same_fractions. Qed.
Theorem C127_weights : forall p ks ranges board dead o o', usable ranges -> usable (scaled ks ranges) -> length ks = length ranges -> Forall (fun k => 0 < k) ks ->
  p = Debug \/ weights_fit ranges board -> p = Debug \/ weights_fit (scaled ks ranges) board ->
  completes p ranges board dead o -> completes p (scaled ks ranges) board dead o' ->
  forall i a b, (i < length ranges)%nat -> hole a b -> exists u u', of_hand p (o_results o) i a b = Some u /\ of_hand p (o_results o') i a b = Some u' /\ u_valid u' = u_valid u /\
    (u_valid u = true -> u_total u' <= 2 ^ 49 -> same_rates (length ranges) (length ranges) u u').
Proof. exact rates_scaled. Qed.
(* Ad Ac: 6 wins and 10 ties of 16, then 90 and 150 of 240 *)
Example C127_example : hand_wins game river 0 0 51 50 = 6 /\ hand_ties game river 0 0 51 50 = 10 /\
  hand_wins (scaled [3; 5] game) river 0 0 51 50 = 90 /\ hand_total (scaled [3; 5] game) river 0 0 51 50 = 240.
Proof. vm_compute. auto. Qed.

(* C128: equities of evenly split pots are the floats closest to the shares *)
Theorem C128_exact : forall p ranges board dead threads cancelled sched o, usable ranges -> p = Debug \/ weights_fit ranges board -> even_deals ranges board dead ->
  exact_equity p ranges board dead threads cancelled sched = Ret (ROk o) ->
  let r := o_results o in let n := length ranges in let w := pots (r_wins_by_mask r) in
  sum_of (fun x => x) (r_wins_by_mask r) <= 2 ^ 53 -> 0 < w ->
  forall j, (j < n)%nat -> closest (nth j (r_equities r) f_zero) (ratio (pot_shares n j (r_wins_by_mask r)) (2520 * w)).
Proof. exact exact_closest. Qed.
Theorem C128_approx : forall p ranges board dead threads target cancelled shuf rngs fuel sched o, Forall range_ok ranges -> permutes shuf ->
  p = Debug \/ N.of_nat (length sched) * heaviest ranges < 2 ^ 64 -> even_deals ranges board dead ->
  approx_equity p ranges board dead threads target cancelled shuf rngs fuel sched = Ret (ROk o) ->
  let r := o_results o in let n := length ranges in let w := pots (r_wins_by_mask r) in
  sum_of (fun x => x) (r_wins_by_mask r) <= 2 ^ 53 -> 0 < w ->
  forall j, (j < n)%nat -> closest (nth j (r_equities r) f_zero) (ratio (pot_shares n j (r_wins_by_mask r)) (2520 * w)).
Proof. exact approx_closest. Qed.
Theorem C128_true_equity : forall p ranges board dead threads sched o, usable ranges -> (length ranges <= 8)%nat -> p = Debug \/ weights_fit ranges board -> even_deals ranges board dead ->
  exact_equity p ranges board dead threads false sched = Ret (ROk o) -> ~ In Cancel sched -> (0 < threads)%nat ->
  let w := dealt_pots ranges board dead in w <= 2 ^ 53 -> 0 < w ->
  forall j, (j < length ranges)%nat -> closest (nth j (r_equities (o_results o)) f_zero) (ratio (dealt_shares ranges board dead j) (2520 * w)).
Proof. exact exact_true_closest. Qed.
(* 11/48; the next floats are further away *)
Example C128_example : match f_div (f_of_N 11) (f_of_N 48) with
  | S754_finite false m e => forallb (fun m' => negb (Qle_bool (Qabs.Qabs (value (S754_finite false m' e) - (11 # 48))) (Qabs.Qabs (value (S754_finite false m e) - (11 # 48))))) [Pos.pred m; Pos.succ m]
  | _ => false end = true.
Proof. vm_compute. reflexivity. Qed.

(* C129: with even pots, players who change seats take their equities with them *)
Theorem C129_seats : forall p q ranges ks board dead o o', let ranges' := map (range_at ranges) ks in
  usable ranges -> usable ranges' -> (length ranges <= 8)%nat -> Permutation ks (seq 0 (length ranges)) ->
  p = Debug \/ weights_fit ranges board -> q = Debug \/ weights_fit ranges' board -> even_deals ranges board dead -> dealt_pots ranges board dead <= 2 ^ 53 ->
  completes p ranges board dead o -> completes q ranges' board dead o' ->
  r_equities (o_results o') = map (fun k => nth k (r_equities (o_results o)) f_zero) ks.
Proof. exact equities_seats. Qed.
Example C129_example : map (range_at game) [1; 0]%nat = [[(47, 46, 3); (49, 48, 5)]; [(51, 50, 2); (43, 40, 4)]] /\
  dealt_shares (map (range_at game) [1; 0]%nat) river 0 1 = 2520 * 11 /\ dealt_shares game river 0 1 = 2520 * 37.
Proof. vm_compute. auto. Qed.

Print Assumptions C126_weights.
Print Assumptions C127_fractions.
Print Assumptions C127_weights.
Print Assumptions C128_exact.
Print Assumptions C128_approx.
Print Assumptions C128_true_equity.
Print Assumptions C129_seats.
