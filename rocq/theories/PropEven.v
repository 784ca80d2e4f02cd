(* C119, C120, C121, C123: equities when every pot can be split evenly. *)
From Coq Require Import Floats.SpecFloat QArith Qabs Permutation.
From Verif Require Import Base Float64 Hand Range FastDivide Combined Sim Approx SpecPoker SpecNames SpecHand SpecEquity SpecResults SpecRun SpecApprox SpecShare SpecEven SpecSymmetry
  CombinedProofs MachineProofs ExactProofs WitnessProofs EquityFloatProofs EquityProofs ShareProofs EvenProofs EvenSymmetryProofs PropEquity.
Local Open Scope N_scope.

(* C119: the equities are the shares of the pots in wins_by_mask, rounded once. *)
Theorem C119_exact : forall p ranges board dead threads cancelled sched o, usable ranges -> p = Debug \/ weights_fit ranges board -> even_deals ranges board dead ->
  exact_equity p ranges board dead threads cancelled sched = Ret (ROk o) ->
  let r := o_results o in let n := length ranges in let w := pots (r_wins_by_mask r) in
  sum_of (fun x => x) (r_wins_by_mask r) <= 2 ^ 53 -> 0 < w ->
  forall j, (j < n)%nat -> let e := nth j (r_equities r) f_zero in
    number e /\ (Qabs (value e - ratio (pot_shares n j (r_wins_by_mask r)) (2520 * w)) <= Qpower 2 (-53))%Q.
Proof. intros. apply (exact_whole p ranges board dead threads cancelled sched); assumption. Qed.
Theorem C119_approx : forall p ranges board dead threads target cancelled shuf rngs fuel sched o, Forall range_ok ranges -> permutes shuf ->
  p = Debug \/ N.of_nat (length sched) * heaviest ranges < 2 ^ 64 -> even_deals ranges board dead ->
  approx_equity p ranges board dead threads target cancelled shuf rngs fuel sched = Ret (ROk o) ->
  let r := o_results o in let n := length ranges in let w := pots (r_wins_by_mask r) in
  sum_of (fun x => x) (r_wins_by_mask r) <= 2 ^ 53 -> 0 < w ->
  forall j, (j < n)%nat -> let e := nth j (r_equities r) f_zero in
    number e /\ (Qabs (value e - ratio (pot_shares n j (r_wins_by_mask r)) (2520 * w)) <= Qpower 2 (-53))%Q.
Proof. intros. apply (approx_whole p ranges board dead threads target cancelled shuf rngs fuel sched); assumption. Qed.
(* two players, one of them with weights such as the default 100 *)
Theorem C119_two_players : forall r1 r2 board dead, Forall (fun h => N.even (weight h) = true) r1 \/ Forall (fun h => N.even (weight h) = true) r2 -> even_deals [r1; r2] board dead.
Proof. exact even_two. Qed.
Example C119_example : even_deals aces three_diamonds aces_dead /\ ~ even_deals tie_ranges royal 0.
Proof.
  split; [apply even_two; left; repeat constructor|]. intros H. specialize (H (map (fun r => hd (0, 0, 0) r) tie_ranges) 2).
  assert (Hd : N.divide 2 1); [|apply N.divide_pos_le in Hd; [lia|reflexivity]]. apply H; [vm_compute; left; reflexivity|split; vm_compute; discriminate].
Qed.

(* C120: after an uncancelled exact run they are the true equities, rounded once. *)
Theorem C120_true_equity : forall p ranges board dead threads sched o, usable ranges -> (length ranges <= 8)%nat -> p = Debug \/ weights_fit ranges board ->
  even_deals ranges board dead ->
  exact_equity p ranges board dead threads false sched = Ret (ROk o) -> ~ In Cancel sched -> (0 < threads)%nat ->
  let n := length ranges in let w := dealt_pots ranges board dead in
  w <= 2 ^ 53 -> 0 < w ->
  forall j, (j < n)%nat -> let e := nth j (r_equities (o_results o)) f_zero in
    number e /\ (Qabs (value e - ratio (dealt_shares ranges board dead j) (2520 * w)) <= Qpower 2 (-53))%Q.
Proof. intros. apply (exact_even_true p ranges board dead threads sched); assumption. Qed.
(* 5/6 and 1/6 *)
Example C120_example : equity_part (exact_equity Debug aces three_diamonds aces_dead 2 false aces_sched) =
    Some ([0; 12; 0; 6], [12; 0], [f_of_N 3; f_of_N 3], [f_div (f_of_N 15) (f_of_N 18); f_div (f_of_N 3) (f_of_N 18)], 2%nat) /\
  (ratio (2520 * 15) (2520 * 18) == 5 # 6)%Q /\ (Qabs (value (f_div (f_of_N 15) (f_of_N 18)) - (5 # 6)) <= Qpower 2 (-53))%Q.
Proof. split; [apply aces_run|]. split; [reflexivity|]. apply Qle_bool_iff. vm_compute. reflexivity. Qed.

(* C121: the number of threads, their timing and the build do not matter, not even in the last bit. *)
Theorem C121_threads : forall p q ranges board dead threads threads' sched sched' o o', usable ranges -> (length ranges <= 8)%nat -> weights_fit ranges board ->
  even_deals ranges board dead -> dealt_pots ranges board dead <= 2 ^ 53 ->
  exact_equity p ranges board dead threads false sched = Ret (ROk o) -> ~ In Cancel sched -> (0 < threads)%nat ->
  exact_equity q ranges board dead threads' false sched' = Ret (ROk o') -> ~ In Cancel sched' -> (0 < threads')%nat ->
  r_equities (o_results o) = r_equities (o_results o').
Proof. exact even_threads. Qed.
Example C121_example : usable aces /\ weights_fit aces three_diamonds /\ even_deals aces three_diamonds aces_dead /\ dealt_pots aces three_diamonds aces_dead <= 2 ^ 53 /\ ~ In Cancel aces_sched.
Proof.
  destruct aces_usable as [H1 H2]. split; [exact H1|]. split; [exact H2|]. split; [apply C119_example|]. split; [rewrite (proj1 C86_example); discriminate|].
  cbn. intuition discriminate.
Qed.

(* C123: with even pots, the order of the hands, hands that cannot be dealt and the names of
   the suits leave no trace in the equities. *)
Theorem C123_order : forall p ranges ranges' board dead o o', usable ranges -> usable ranges' ->
  p = Debug \/ weights_fit ranges board -> p = Debug \/ weights_fit ranges' board ->
  even_deals ranges board dead -> sum_of (fun x => x) (r_wins_by_mask (o_results o)) <= 2 ^ 53 ->
  Forall2 (@Permutation whand) ranges ranges' -> completes p ranges board dead o -> completes p ranges' board dead o' ->
  r_equities (o_results o') = r_equities (o_results o).
Proof. exact equities_order. Qed.
Theorem C123_unusable : forall p ranges board dead o o', let ranges' := map (filter (usable_hand board dead)) ranges in
  usable ranges -> usable ranges' -> p = Debug \/ weights_fit ranges board -> p = Debug \/ weights_fit ranges' board ->
  even_deals ranges board dead -> sum_of (fun x => x) (r_wins_by_mask (o_results o)) <= 2 ^ 53 ->
  completes p ranges board dead o -> completes p ranges' board dead o' -> r_equities (o_results o') = r_equities (o_results o).
Proof. exact equities_usable. Qed.
Theorem C123_suits : forall p f ranges board board' dead dead' o o', let ranges' := map (map (rename_hand f)) ranges in
  suit_permutation f -> renamed_mask f board board' -> renamed_mask f dead dead' ->
  usable ranges -> usable ranges' -> p = Debug \/ weights_fit ranges board -> p = Debug \/ weights_fit ranges' board' ->
  even_deals ranges board dead -> sum_of (fun x => x) (r_wins_by_mask (o_results o)) <= 2 ^ 53 ->
  completes p ranges board dead o -> completes p ranges' board' dead' o' -> r_equities (o_results o') = r_equities (o_results o).
Proof. exact equities_renamed. Qed.
(* suits turned: As Ad against Ac Ah on Ks Qs Js 2h *)
Example C123_example : map (map (rename_hand (fun s => (s + 1) mod 4))) aces = [[(48, 51, 2)]; [(50, 49, 3)]] /\
  forallb (fun c => Bool.eqb (N.testbit (2 ^ 44 + 2 ^ 40 + 2 ^ 36 + 2 ^ 1) (rename_suits (fun s => (s + 1) mod 4) c)) (N.testbit three_diamonds c)) (nseq 0 52) = true /\
  dealt_shares [[(48, 51, 2)]; [(50, 49, 3)]] (2 ^ 44 + 2 ^ 40 + 2 ^ 36 + 2 ^ 1) 0 0 = 2520 * 159.
Proof. vm_compute. auto. Qed.

Print Assumptions C119_exact.
Print Assumptions C119_approx.
Print Assumptions C119_two_players.
Print Assumptions C120_true_equity.
Print Assumptions C121_threads.
Print Assumptions C123_order.
Print Assumptions C123_unusable.
Print Assumptions C123_suits.
