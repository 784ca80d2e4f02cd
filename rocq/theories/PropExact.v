(* C37, C40-C47, C49, C54-C56, C117, C118, C122: what a run of exact_equity counts. *)
From Verif Require Import Base Float64 Hand Range FastDivide Combined Sim SpecPoker SpecNames SpecHand SpecEquity SpecResults SpecRun
  CombineRunProofs RunProofs LaunchProofs ConsistProofs SeatProofs WitnessProofs CountProofs.
From Coq Require Import Permutation.
Local Open Scope N_scope.

(* The examples: Ad Ac (weight 2) or 2d 2c (weight 1) against Kd Kc (weight 3) on Qd Jd 7s 5s
   with all other cards dead but Kh and 2h. *)
Definition ex_ranges : list (list whand) := [[(51, 50, 2); (3, 2, 1)]; [(47, 46, 3)]].
Definition ex_board : N := 2 ^ 43 + 2 ^ 39 + 2 ^ 20 + 2 ^ 12.
Definition ex_dead : N := 2 ^ 52 - 1 - ex_board - (2 ^ 51 + 2 ^ 50 + 2 ^ 3 + 2 ^ 2 + 2 ^ 47 + 2 ^ 46) - (2 ^ 45 + 2 ^ 1).
(* three steps of each of two threads in turn, and so on *)
Definition ex_schedule : list event := concat (repeat [Run 0; Run 1; Run 1; Run 0] 6).
Definition counts (x : outcome (result observed sim_error)) : option (list N * list N * N * list (N * N * N)) :=
  match x with
  | Ret (ROk o) => Some (r_wins_by_mask (o_results o), r_wins (o_results o), r_eval_count (o_results o),
                         filter (fun u => 0 <? snd u) (map (fun u => (u_wins u, u_ties u, u_total u)) (r_hand_results (o_results o))))
  | _ => None
  end.
Example ex_usable : usable ex_ranges /\ weights_fit ex_ranges ex_board /\ accepted (length ex_ranges) ex_board ex_dead.
Proof.
  split; [|split].
  - split; [|reflexivity]. repeat constructor; cbn; lia || discriminate.
  - unfold weights_fit. vm_compute. reflexivity.
  - unfold accepted. cbn [length ex_ranges]. split; [lia|]. split; vm_compute; discriminate.
Qed.
Example ex_run : counts (exact_equity Debug ex_ranges ex_board ex_dead 2 false ex_schedule) =
  Some ([0; 21; 15; 0], [21; 15], 5, [(18, 0, 24); (3, 0, 12); (15, 0, 36)]).
Proof. vm_compute. reflexivity. Qed.

(* C37: the threads process every position once *)
Theorem C37_every_position_once : forall p ranges board dead threads cancelled sched o, usable ranges ->
  exact_equity p ranges board dead threads cancelled sched = Ret (ROk o) ->
  exists m flag dvs y0 y, launch p ranges board dead threads cancelled m flag dvs y0 /\ foldM (xevent p m dvs) sched y0 = Ret y /\
    let positions := nseq 0 (N.to_nat (prod_of cr_size (m_combined m))) in
    (exists skipped, Permutation (processed p m dvs sched y0 ++ skipped) positions) /\
    (cancelled = false -> ~ In Cancel sched -> (0 < threads)%nat -> Permutation (processed p m dvs sched y0) positions).
Proof.
  intros p ranges board dead threads cancelled sched o Hu H. destruct (launched _ _ _ _ _ _ _ _ H) as (m & flag & dvs & y0 & y & r & HL & Hf & Hd & _).
  exists m, flag, dvs, y0, y. split; [exact HL|]. split; [exact Hf|]. exact (launch_once _ _ _ _ _ _ _ _ _ _ Hu HL sched y Hf Hd).
Qed.
Example C37_example :
  (c <- combine_ranges Debug ex_ranges ex_board ex_dead ;;
   match c with
   | ROk (hrs, crs) =>
       m <- sim_new Debug hrs crs ex_board ex_dead true f_zero ;; '(r0, _) <- prepare Debug m ;;
       dvs <- mapM (fun cr => divide_by Debug (cr_size cr)) crs ;; y0 <- xinit (m_n_players m) 2 false r0 ;;
       Ret (map cr_size (m_combined m), processed Debug m dvs ex_schedule y0)
   | RErr _ => Fail AssertFail
   end) = Ret ([2], [0; 1]).
Proof. vm_compute. reflexivity. Qed.

(* C40: every deal and every board is counted under the mask of its winners *)
Theorem C40_masks : forall p ranges board dead threads sched o, usable ranges -> (length ranges <= 8)%nat ->
  exact_equity p ranges board dead threads false sched = Ret (ROk o) -> ~ In Cancel sched -> (0 < threads)%nat ->
  length (r_wins_by_mask (o_results o)) = (2 ^ length ranges)%nat /\
  forall m, m < 2 ^ N.of_nat (length ranges) -> counter p (nth (N.to_nat m) (r_wins_by_mask (o_results o)) 0) (won_by ranges board dead m).
Proof.
  intros p ranges board dead threads sched o Hu H8 H Hc Ht. destruct (masks_spec _ _ _ _ _ _ _ Hu H Hc Ht) as [H1 H2]. auto.
Qed.
Example C40_example : won_by ex_ranges ex_board ex_dead 1 = 21 /\ won_by ex_ranges ex_board ex_dead 2 = 15.
Proof. vm_compute. auto. Qed.

(* C41: the wins, ties and totals of every starting hand *)
Theorem C41_hands : forall p ranges board dead threads sched o, usable ranges ->
  exact_equity p ranges board dead threads false sched = Ret (ROk o) -> ~ In Cancel sched -> (0 < threads)%nat ->
  forall i a b k, (i < length ranges)%nat -> hole a b -> get_card_index p a b = Ret k ->
  exists u, nth_error (r_hand_results (o_results o)) (1326 * i + N.to_nat k) = Some u /\
    counter p (u_wins u) (hand_wins ranges board dead i a b) /\ counter p (u_ties u) (hand_ties ranges board dead i a b) /\
    counter p (u_total u) (hand_total ranges board dead i a b).
Proof. exact hands_spec. Qed.
(* 2d 2c wins with 2h only *)
Example C41_example : hand_wins ex_ranges ex_board ex_dead 0 2 3 = 3 /\ hand_total ex_ranges ex_board ex_dead 0 3 2 = 12.
Proof. vm_compute. auto. Qed.

(* C42: the counters do not depend on the number of threads and their timing *)
Theorem C42_threads_and_timing : forall p ranges board dead, usable ranges -> forall threads threads' sched sched' o o',
  exact_equity p ranges board dead threads false sched = Ret (ROk o) -> ~ In Cancel sched -> (0 < threads)%nat ->
  exact_equity p ranges board dead threads' false sched' = Ret (ROk o') -> ~ In Cancel sched' -> (0 < threads')%nat ->
  let r := o_results o in let r' := o_results o' in
  r_wins_by_mask r = r_wins_by_mask r' /\ r_wins r = r_wins r' /\ r_eval_count r = r_eval_count r' /\
  map u_wins (r_hand_results r) = map u_wins (r_hand_results r') /\ map u_ties (r_hand_results r) = map u_ties (r_hand_results r') /\
  map u_total (r_hand_results r) = map u_total (r_hand_results r').
Proof. exact two_runs. Qed.
Example C42_example : counts (exact_equity Debug ex_ranges ex_board ex_dead 1 false (repeat (Run 0) 12)) =
  counts (exact_equity Debug ex_ranges ex_board ex_dead 2 false ex_schedule).
Proof. rewrite ex_run. vm_compute. reflexivity. Qed.

(* C43: false, the ninth player is never credited *)
Theorem C43_refuted : exists ranges board sched o u, length ranges = 9%nat /\ usable ranges /\ weights_fit ranges board /\ ~ In Cancel sched /\
  exact_equity Debug ranges board 0 1 false sched = Ret (ROk o) /\
  nth_error (r_wins (o_results o)) 8 = Some 0 /\ In u (skipn (1326 * 8) (r_hand_results (o_results o))) /\ u_wins u = 1.
Proof. exact ninth_player_wins. Qed.
Theorem C43_ninth_never_credited : forall p ranges board dead threads cancelled sched o, usable ranges -> length ranges = 9%nat ->
  exact_equity p ranges board dead threads cancelled sched = Ret (ROk o) ->
  nth_error (r_wins (o_results o)) 8 = Some 0 /\ forall m, 256 <= m < 512 -> nth_error (r_wins_by_mask (o_results o)) (N.to_nat m) = Some 0.
Proof. intros p ranges board dead threads cancelled sched o Hu H9 H. exact (ninth_never _ _ _ _ _ _ _ _ Hu H H9). Qed.
Theorem C43_masks_of_eight : forall p ranges board dead threads sched o, usable ranges ->
  exact_equity p ranges board dead threads false sched = Ret (ROk o) -> ~ In Cancel sched -> (0 < threads)%nat ->
  forall m, m < 2 ^ N.of_nat (length ranges) ->
  counter p (nth (N.to_nat m) (r_wins_by_mask (o_results o)) 0)
    (total_of ranges board dead (fun d l => nats_eqb (first_eight (winners d l)) (players_of (length ranges) m))).
Proof. exact masks_nine. Qed.

(* C44: false, a nine-way tie of hands with weight 255 *)
Theorem C44_refuted : usable nine_ties /\ accepted (length nine_ties) royal 0 /\
  exact_equity Debug nine_ties royal 0 1 false [Run 0; Run 0] = Fail Overflow.
Proof. exact nine_ties_overflow. Qed.
Theorem C44_only_overflow : forall p ranges board dead threads cancelled sched, usable ranges -> accepted (length ranges) board dead -> board < 2 ^ 64 -> dead < 2 ^ 64 ->
  exact_equity p ranges board dead threads cancelled sched = Ret (RErr ConflictingRanges) \/
  (exists o, exact_equity p ranges board dead threads cancelled sched = Ret (ROk o)) \/
  (p = Debug /\ exact_equity p ranges board dead threads cancelled sched = Fail Overflow /\ ~ weights_fit ranges board) \/
  exact_equity p ranges board dead threads cancelled sched = Fail OutOfFuel /\
    exists tid, (tid < threads)%nat /\ (how_many (is_run tid) sched <= 3 * threads + 4 * N.to_nat (prod_of (fun r => N.of_nat (length r)) ranges))%nat.
Proof. exact call_outcome. Qed.

(* C45 for exact runs: the masks add up to the totals of every player, shares are at most the
   total, single winners are the masks of one player *)
Theorem C45_exact : forall p ranges board dead threads cancelled sched o, usable ranges ->
  exact_equity p ranges board dead threads cancelled sched = Ret (ROk o) -> p = Debug \/ weights_fit ranges board ->
  let r := o_results o in
  (forall i, (i < length ranges)%nat -> sum_of (fun x => x) (r_wins_by_mask r) = sum_of u_total (firstn 1326 (skipn (1326 * i) (r_hand_results r)))) /\
  (forall u, In u (r_hand_results r) -> u_wins u + u_ties u <= u_total u) /\
  (forall j, (j < length ranges)%nat -> exists x, nth_error (r_wins r) j = Some x /\ nth_error (r_wins_by_mask r) (2 ^ j) = Some x).
Proof. exact consistent. Qed.

(* C46: a cancelled run still returns, and counts a part of the deals completely *)
Theorem C46_cancelled : forall p ranges board dead threads cancelled sched, usable ranges ->
  (forall o, exact_equity p ranges board dead threads cancelled sched = Ret (ROk o) ->
     exists D left, Permutation (D ++ left) (deals ranges board dead) /\ sums_over p ranges board dead D (o_results o)) /\
  (accepted (length ranges) board dead -> board < 2 ^ 64 -> dead < 2 ^ 64 -> weights_fit ranges board \/ p = Release ->
   (forall tid, (tid < threads)%nat -> (3 * threads + 4 * N.to_nat (prod_of (fun r => N.of_nat (length r)) ranges) < how_many (is_run tid) sched)%nat) ->
   exact_equity p ranges board dead threads cancelled sched = Ret (RErr ConflictingRanges) \/
   exists o, exact_equity p ranges board dead threads cancelled sched = Ret (ROk o)).
Proof.
  intros p ranges board dead threads cancelled sched Hu. split; [intros o; apply cancelled_run; exact Hu|].
  intros Ha Hb Hd Hw Hs. apply call_finishes; assumption.
Qed.
(* cancelled before the second position: a run this short does not look at the token *)
Example C46_example : counts (exact_equity Debug ex_ranges ex_board ex_dead 1 false (Run 0 :: Cancel :: repeat (Run 0) 12)) =
  counts (exact_equity Debug ex_ranges ex_board ex_dead 2 false ex_schedule).
Proof. rewrite ex_run. vm_compute. reflexivity. Qed.

(* C47: a thread is done after a bounded number of its own steps, whatever the others do *)
Theorem C47_no_waiting : forall p ranges board dead threads cancelled m flag dvs y0, usable ranges ->
  launch p ranges board dead threads cancelled m flag dvs y0 -> forall sched,
  ((exists y, foldM (xevent p m dvs) sched y0 = Ret y) \/ p = Debug /\ foldM (xevent p m dvs) sched y0 = Fail Overflow /\ ~ weights_fit ranges board) /\
  forall y, foldM (xevent p m dvs) sched y0 = Ret y -> length (xy_threads y) = threads /\
    forall tid t, nth_error (xy_threads y) tid = Some t ->
      (3 * threads + 4 * N.to_nat (prod_of cr_size (m_combined m)) < how_many (is_run tid) sched)%nat -> xdone t = true.
Proof. exact launch_ends. Qed.
Theorem C47_returns : forall p ranges board dead threads cancelled sched, usable ranges -> accepted (length ranges) board dead -> board < 2 ^ 64 -> dead < 2 ^ 64 ->
  weights_fit ranges board \/ p = Release ->
  (forall tid, (tid < threads)%nat -> (3 * threads + 4 * N.to_nat (prod_of (fun r => N.of_nat (length r)) ranges) < how_many (is_run tid) sched)%nat) ->
  exact_equity p ranges board dead threads cancelled sched = Ret (RErr ConflictingRanges) \/
  exists o, exact_equity p ranges board dead threads cancelled sched = Ret (ROk o).
Proof. exact call_finishes. Qed.
Example C47_example : forall tid, (tid < 2)%nat -> (3 * 2 + 4 * N.to_nat (prod_of (fun r : list whand => N.of_nat (length r)) ex_ranges) < how_many (is_run tid) (ex_schedule ++ ex_schedule))%nat.
Proof. intros [|[|tid]] H; [cbn; lia|cbn; lia|lia]. Qed.

(* C49, C56: false, two hands of weight 1 which always tie: half a win is rounded to none,
   and the equities are 0/0 *)
Theorem C49_refuted : exists o, exact_equity Debug tie_ranges royal 0 1 false tie_schedule = Ret (ROk o) /\ map f_is_nan (r_equities (o_results o)) = [true; true].
Proof. destruct tied_run as (o & H & _ & _ & _ & He). exists o. auto. Qed.
Theorem C56_refuted : exists o, exact_equity Debug tie_ranges royal 0 1 false tie_schedule = Ret (ROk o) /\
  r_wins_by_mask (o_results o) = [0; 0; 0; 1] /\ r_wins (o_results o) = [0; 0] /\ r_ties (o_results o) = [f_zero; f_zero].
Proof. destruct tied_run as (o & H & H1 & H2 & H3 & _). exists o. auto. Qed.

(* C54: every deal and board that is counted uses every card once, and no dead card *)
Theorem C54_legal_deals : forall p ranges board dead threads cancelled sched o, usable ranges ->
  exact_equity p ranges board dead threads cancelled sched = Ret (ROk o) ->
  exists D, sums_over p ranges board dead D (o_results o) /\
  forall d l, In d D -> In l (boards board dead d) ->
    NoDup (dealt d ++ l) /\ length l = 5%nat /\ incl (mask_cards board) l /\
    Forall (fun c => N.testbit board c = false /\ N.testbit dead c = false) (dealt d) /\
    Forall (fun c => c < 52 /\ (N.testbit board c = true \/ N.testbit dead c = false)) l.
Proof. exact counted_deals_legal. Qed.

(* C55: players who change seats take their results with them *)
Theorem C55_seats : forall p ranges ks board dead threads threads' sched sched' o o', usable ranges -> Permutation ks (seq 0 (length ranges)) ->
  exact_equity p ranges board dead threads false sched = Ret (ROk o) -> ~ In Cancel sched -> (0 < threads)%nat ->
  exact_equity p (map (range_at ranges) ks) board dead threads' false sched' = Ret (ROk o') -> ~ In Cancel sched' -> (0 < threads')%nat ->
  ((length ranges <= 8)%nat -> forall m m', m < 2 ^ N.of_nat (length ranges) -> m' < 2 ^ N.of_nat (length ranges) ->
     (forall j, (j < length ranges)%nat -> N.testbit m' (N.of_nat j) = N.testbit m (N.of_nat (nth j ks 0%nat))) ->
     nth_error (r_wins_by_mask (o_results o')) (N.to_nat m') = nth_error (r_wins_by_mask (o_results o)) (N.to_nat m)) /\
  (forall j k, (j < length ranges)%nat -> (k < 1326)%nat -> exists u u', nth_error (r_hand_results (o_results o')) (1326 * j + k) = Some u' /\
     nth_error (r_hand_results (o_results o)) (1326 * nth j ks 0%nat + k) = Some u /\ u_wins u' = u_wins u /\ u_ties u' = u_ties u /\ u_total u' = u_total u).
Proof. exact seats. Qed.
Example C55_example : map (range_at ex_ranges) [1; 0]%nat = [[(47, 46, 3)]; [(51, 50, 2); (3, 2, 1)]] /\
  counts (exact_equity Debug (map (range_at ex_ranges) [1; 0]%nat) ex_board ex_dead 1 false (repeat (Run 0) 12)) =
  Some ([0; 15; 21; 0], [15; 21], 5, [(15, 0, 36); (18, 0, 24); (3, 0, 12)]).
Proof. split; vm_compute; reflexivity. Qed.

(* C117: false, boards that differ only in irrelevant cards are evaluated once *)
Definition deals_and_boards (ranges : list (list whand)) (board dead : N) : N := sum_of (fun d => N.of_nat (length (boards board dead d))) (deals ranges board dead).
Theorem C117_refuted : exists o, usable ex_ranges /\ weights_fit ex_ranges ex_board /\ ~ In Cancel ex_schedule /\
  exact_equity Debug ex_ranges ex_board ex_dead 2 false ex_schedule = Ret (ROk o) /\ r_eval_count (o_results o) = 5 /\ deals_and_boards ex_ranges ex_board ex_dead = 8.
Proof.
  pose proof ex_run as H. destruct (exact_equity Debug ex_ranges ex_board ex_dead 2 false ex_schedule) as [[o|e]|f]; try discriminate H. exists o.
  destruct ex_usable as (H1 & H2 & _). split; [exact H1|]. split; [exact H2|]. split; [cbn; intuition discriminate|]. split; [reflexivity|].
  unfold counts in H. injection H as _ _ H _. split; [exact H|]. vm_compute. reflexivity.
Qed.

(* C118: no deal is evaluated on more boards than there are *)
Theorem C118_at_most : forall p ranges board dead threads cancelled sched o, usable ranges ->
  exact_equity p ranges board dead threads cancelled sched = Ret (ROk o) -> r_eval_count (o_results o) <= deals_and_boards ranges board dead.
Proof. exact evaluations_le. Qed.
Example C118_example : deals_and_boards ex_ranges ex_board 0 = 88.
Proof. vm_compute. reflexivity. Qed.

(* C122: every deal that can be completed is evaluated, on a complete board exactly once *)
Theorem C122_at_least : forall p ranges board dead threads sched o, usable ranges -> p = Debug \/ deals_and_boards ranges board dead < 2 ^ 64 ->
  exact_equity p ranges board dead threads false sched = Ret (ROk o) -> ~ In Cancel sched -> (0 < threads)%nat ->
  N.of_nat (length (filter (fun d => negb (length (boards board dead d) =? 0)%nat) (deals ranges board dead))) <= r_eval_count (o_results o).
Proof. exact evaluations_ge. Qed.
Theorem C122_complete_board : forall p ranges board dead threads sched o, usable ranges -> length (mask_cards board) = 5%nat ->
  exact_equity p ranges board dead threads false sched = Ret (ROk o) -> ~ In Cancel sched -> (0 < threads)%nat ->
  r_eval_count (o_results o) = N.of_nat (length (deals ranges board dead)).
Proof. exact evaluations_river. Qed.
Example C122_example : length (filter (fun d => negb (length (boards ex_board ex_dead d) =? 0)%nat) (deals ex_ranges ex_board ex_dead)) = 2%nat /\ length (mask_cards royal) = 5%nat /\ length (deals tie_ranges royal 0) = 1%nat.
Proof. vm_compute. auto. Qed.

Print Assumptions C37_every_position_once.
Print Assumptions C40_masks.
Print Assumptions C41_hands.
Print Assumptions C42_threads_and_timing.
Print Assumptions C43_refuted.
Print Assumptions C43_ninth_never_credited.
Print Assumptions C43_masks_of_eight.
Print Assumptions C44_refuted.
Print Assumptions C44_only_overflow.
Print Assumptions C45_exact.
Print Assumptions C46_cancelled.
Print Assumptions C47_no_waiting.
Print Assumptions C47_returns.
Print Assumptions C49_refuted.
Print Assumptions C56_refuted.
Print Assumptions C54_legal_deals.
Print Assumptions C55_seats.
Print Assumptions C117_refuted.
Print Assumptions C118_at_most.
Print Assumptions C122_at_least.
Print Assumptions C122_complete_board.
