(* C45, C57, C58, C76: what a run of approx_equity evaluates and counts. *)
From Verif Require Import Base Float64 Hand Range FastDivide Combined Sim Approx SpecPoker SpecNames SpecHand SpecEquity SpecResults SpecRun SpecApprox
  ConsistProofs ApproxResultProofs PropExact.
Local Open Scope N_scope.

(* The example: the ranges of PropExact, and random streams which repeat 45 (the king of
   hearts when a card is drawn). *)
Definition ex_target : f64 := f_div (f_of_N 1) (f_of_N 100).
Definition ex_rngs (i : nat) (k : N) : N := 45.
Definition ex_shuffle (i : nat) (l : list ccombo) : list ccombo := rev l.
Example ex_permutes : permutes ex_shuffle.
Proof. intros i l. apply Permutation.Permutation_sym, Permutation.Permutation_rev. Qed.
(* the state of the threads after some events *)
Definition ex_state (p : profile) (sched : list event) : outcome (simulator * asys) :=
  c <- combine_ranges p ex_ranges ex_board ex_dead ;;
  match c with
  | ROk (hrs, crs) =>
      m <- sim_new p hrs (shuffle_ranges ex_shuffle crs) ex_board ex_dead false ex_target ;; '(r0, _) <- prepare p m ;;
      y0 <- ainit (m_n_players m) 1 false ex_rngs r0 ;; y <- foldM (aevent p m 3) sched y0 ;; Ret (m, y)
  | RErr _ => Fail AssertFail
  end.

(* C45: the masks add up to the totals of every player, shares are at most the total, single
   winners are the masks of one player; in exact and in approximate runs *)
Definition self_consistent (n : nat) (r : results) : Prop :=
  (forall i, (i < n)%nat -> sum_of (fun x => x) (r_wins_by_mask r) = sum_of u_total (firstn 1326 (skipn (1326 * i) (r_hand_results r)))) /\
  (forall u, In u (r_hand_results r) -> u_wins u + u_ties u <= u_total u) /\
  (forall j, (j < n)%nat -> exists x, nth_error (r_wins r) j = Some x /\ nth_error (r_wins_by_mask r) (2 ^ j) = Some x).
Theorem C45_consistent :
  (forall p ranges board dead threads cancelled sched o, usable ranges ->
     exact_equity p ranges board dead threads cancelled sched = Ret (ROk o) -> p = Debug \/ weights_fit ranges board ->
     self_consistent (length ranges) (o_results o)) /\
  (forall p ranges board dead threads target cancelled shuf rngs fuel sched o, Forall range_ok ranges -> permutes shuf ->
     approx_equity p ranges board dead threads target cancelled shuf rngs fuel sched = Ret (ROk o) ->
     p = Debug \/ N.of_nat (length sched) * heaviest ranges < 2 ^ 64 -> self_consistent (length ranges) (o_results o)).
Proof. split; [exact consistent|exact approx_consistent]. Qed.
(* 36 = 21 + 15 = 24 + 12: PropExact.ex_run shows these counters of the example run *)
Example C45_example : heaviest ex_ranges = 6 /\
  match exact_equity Debug ex_ranges ex_board ex_dead 2 false ex_schedule with
  | Ret (ROk o) => (sum_of (fun x => x) (r_wins_by_mask (o_results o)), sum_of u_total (firstn 1326 (r_hand_results (o_results o))), sum_of u_total (skipn 1326 (r_hand_results (o_results o))))
  | _ => (0, 0, 0)
  end = (36, 36, 36).
Proof. split; vm_compute; reflexivity. Qed.

(* C57: whatever the random numbers, a run counts legal samples only *)
Theorem C57_samples_legal : forall p ranges board dead threads target cancelled shuf rngs fuel sched o, Forall range_ok ranges -> permutes shuf ->
  approx_equity p ranges board dead threads target cancelled shuf rngs fuel sched = Ret (ROk o) ->
  exists E, Forall (legal_sample ranges board dead) E /\ counts_samples p (length ranges) E (o_results o) /\ (length E <= length sched)%nat.
Proof. exact samples_legal. Qed.
(* the first deal and the first board: Ad Ac (shuffled to the end, drawn as index 1), weight 2 * 3, loses to the set of kings *)
Example C57_example :
  ('(_, y) <- ex_state Debug [Run 0; Run 0] ;;
   Ret (map (fun t => (firstn 2 (w_weights (a_walk t)), firstn 4 (b_wins_by_mask (s_batch (a_stats t))), b_eval_count (s_batch (a_stats t)))) (ay_threads y))) =
  Ret [([2; 3], [0; 0; 6; 0], 1)] /\
  legal_sample ex_ranges ex_board ex_dead ([(51, 50, 2); (47, 46, 3)], [12; 20; 39; 43; 45]).
Proof.
  split; [vm_compute; reflexivity|]. unfold legal_sample. split; [|split; [exists [45]; split; [vm_compute; reflexivity|]|split; [reflexivity|split]]].
  - repeat constructor.
  - repeat constructor.
  - vm_compute. repeat (constructor; [cbn [In]; intros H; repeat (destruct H as [H|H]; [discriminate|]); exact H|]). constructor.
  - repeat constructor.
Qed.

(* C58: a walking thread always finds the next combo within one round, and its mask of used
   cards is exact before and after the step *)
Theorem C58_walk : forall p ranges board dead threads target cancelled shuf rngs m flag y0 fuel sched y t, Forall range_ok ranges -> permutes shuf ->
  alaunch p ranges board dead threads target cancelled shuf rngs m flag y0 -> foldM (aevent p m fuel) sched y0 = Ret y ->
  In t (ay_threads y) -> a_phase t = AWalk ->
  mask_exact m board dead (a_walk t) /\
  exists r' w' i, walk_step p m (a_rng t) (a_walk t) = Ret (r', w') /\ steps_down m (a_walk t) w' i /\ mask_exact m board dead w'.
Proof. exact walk_goes_on. Qed.
(* the walk alternates between the two combos of the only combined range *)
Definition ex_walks (k : nat) : outcome (list (list nat * N)) :=
  '(_, y) <- ex_state Debug (repeat (Run 0) k) ;; Ret (map (fun t => (firstn 1 (w_indexes (a_walk t)), w_used (a_walk t) - N.lor ex_board ex_dead)) (ay_threads y)).
Example C58_example : map ex_walks [2; 4; 6]%nat =
  [Ret [([1%nat], 2 ^ 51 + 2 ^ 50 + 2 ^ 47 + 2 ^ 46)]; Ret [([0%nat], 2 ^ 3 + 2 ^ 2 + 2 ^ 47 + 2 ^ 46)]; Ret [([1%nat], 2 ^ 51 + 2 ^ 50 + 2 ^ 47 + 2 ^ 46)]].
Proof. vm_compute. reflexivity. Qed.

(* C76: accepted arguments lead to a result, to the error ConflictingRanges, to a checked
   overflow when the weights are large, or the run is not over yet *)
Theorem C76_approx_only_overflow : forall p ranges board dead threads target cancelled shuf rngs fuel sched, Forall range_ok ranges -> permutes shuf ->
  accepted (length ranges) board dead -> board < 2 ^ 64 -> dead < 2 ^ 64 ->
  let run := approx_equity p ranges board dead threads target cancelled shuf rngs fuel sched in
  (run = Ret (RErr ConflictingRanges) /\ deals ranges board dead = []) \/ (exists o, run = Ret (ROk o)) \/
  (p = Debug /\ run = Fail Overflow /\ ~ N.of_nat (length sched) * heaviest ranges < 2 ^ 64) \/ run = Fail OutOfFuel.
Proof. exact approx_outcome. Qed.
(* the same aces for both players *)
Example C76_example : approx_equity Debug [[(51, 50, 1)]; [(51, 50, 1)]] 0 0 1 ex_target false ex_shuffle ex_rngs 3 [Run 0] = Ret (RErr ConflictingRanges).
Proof. vm_compute. reflexivity. Qed.

Print Assumptions C45_consistent.
Print Assumptions C57_samples_legal.
Print Assumptions C58_walk.
Print Assumptions C76_approx_only_overflow.
