(* The ties of the hands of a player and the pots the player split. *)
From Verif Require Import Base Float64 Hand Range FastDivide Combined Sim Approx SpecPoker SpecHand SpecNames SpecEquity SpecResults SpecRun SpecApprox HandTieProofs PropExact.
Local Open Scope N_scope.

(* C169: with up to eight players the ties of a player's 1326 hands add up to the entries of wins_by_mask for this player
   together with others, in complete and cancelled exact runs ... *)
Theorem C169_exact : forall p ranges board dead threads cancelled sched o, usable ranges -> exact_equity p ranges board dead threads cancelled sched = Ret (ROk o) -> p = Debug \/ weights_fit ranges board ->
  (length ranges <= 8)%nat -> forall i, (i < length ranges)%nat ->
  let split m := N.testbit (N.of_nat m) (N.of_nat i) && negb (m =? 2 ^ i)%nat in
  sum_of u_ties (firstn 1326 (skipn (1326 * i) (r_hand_results (o_results o)))) = sum_of (fun m => nth m (r_wins_by_mask (o_results o)) 0) (filter split (seq 0 (2 ^ length ranges))).
Proof. exact exact_splits. Qed.
(* ... and in approximate runs *)
Theorem C169_approx : forall p ranges board dead threads target cancelled shuf rngs fuel sched o, Forall range_ok ranges -> permutes shuf ->
  approx_equity p ranges board dead threads target cancelled shuf rngs fuel sched = Ret (ROk o) -> p = Debug \/ N.of_nat (length sched) * heaviest ranges < 2 ^ 64 ->
  (length ranges <= 8)%nat -> forall i, (i < length ranges)%nat ->
  let split m := N.testbit (N.of_nat m) (N.of_nat i) && negb (m =? 2 ^ i)%nat in
  sum_of u_ties (firstn 1326 (skipn (1326 * i) (r_hand_results (o_results o)))) = sum_of (fun m => nth m (r_wins_by_mask (o_results o)) 0) (filter split (seq 0 (2 ^ length ranges))).
Proof. exact approx_splits. Qed.
(* 3d 2c (weight 2), 3c 2s (weight 3) and Ad 4d (weight 5) or 5d 4c (weight 1) on 9c Th Jd Qs Kh: the ace wins, without it all share *)
Definition tie_ranges : list (list whand) := [[(7, 2, 2)]; [(6, 0, 3)]; [(51, 11, 5); (15, 10, 1)]].
Definition tie_board : N := 2 ^ 30 + 2 ^ 33 + 2 ^ 39 + 2 ^ 40 + 2 ^ 45.
Example C169_example : forall threads sched o, exact_equity Debug tie_ranges tie_board 0 (S threads) false sched = Ret (ROk o) -> ~ In Cancel sched ->
  forall i, (i < 3)%nat -> sum_of u_ties (firstn 1326 (skipn (1326 * i) (r_hand_results (o_results o)))) = 6.
Proof.
  intros threads sched o E Hc i Hi. assert (HU : usable tie_ranges) by (split; [repeat constructor; cbn; lia || discriminate|reflexivity]).
  rewrite (C169_exact Debug tie_ranges tie_board 0 (S threads) false sched o HU E (or_introl eq_refl) ltac:(cbn; lia) i Hi).
  destruct (C40_masks Debug tie_ranges tie_board 0 (S threads) sched o HU ltac:(cbn; lia) E Hc ltac:(lia)) as [_ HM]. cbn [counter] in HM.
  assert (M3 : nth 3 (r_wins_by_mask (o_results o)) 0 = 0) by (etransitivity; [exact (HM 3 eq_refl)|vm_compute; reflexivity]).
  assert (M5 : nth 5 (r_wins_by_mask (o_results o)) 0 = 0) by (etransitivity; [exact (HM 5 eq_refl)|vm_compute; reflexivity]).
  assert (M6 : nth 6 (r_wins_by_mask (o_results o)) 0 = 0) by (etransitivity; [exact (HM 6 eq_refl)|vm_compute; reflexivity]).
  assert (M7 : nth 7 (r_wins_by_mask (o_results o)) 0 = 6) by (etransitivity; [exact (HM 7 eq_refl)|vm_compute; reflexivity]).
  clear HM E. remember (r_wins_by_mask (o_results o)) as w eqn:Ew.
  destruct i as [|[|[|i]]]; [| | |lia].
  - change (nth 3 w 0 + (nth 5 w 0 + (nth 7 w 0 + 0)) = 6). rewrite M3, M5, M7. reflexivity.
  - change (nth 3 w 0 + (nth 6 w 0 + (nth 7 w 0 + 0)) = 6). rewrite M3, M6, M7. reflexivity.
  - change (nth 5 w 0 + (nth 6 w 0 + (nth 7 w 0 + 0)) = 6). rewrite M5, M6, M7. reflexivity.
Qed.

Print Assumptions C169_exact.
Print Assumptions C169_approx.
