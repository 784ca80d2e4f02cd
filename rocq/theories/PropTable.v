(* Properties of runs of ranges given as texts, and of asking for results by name. *)
From Verif Require Import Base Float64 Hand Range FastDivide Combined Sim Approx SpecPoker SpecHand SpecNames SpecEquity SpecResults SpecRun SpecApprox SpecFinal SpecTable
  ShareProofs TableProofs TableRunProofs PropExact.
Local Open Scope N_scope.

(* C156: two players, or three on a flop, whose ranges are texts: nothing can overflow, so the
   call returns in both builds, with the error exactly if no deal is possible ... *)
Theorem C156_returns : forall lower p texts (ranges : list (list whand)) board dead, from_strings lower p texts = Ret ranges -> small_table (length texts) board ->
  board < 2 ^ 64 -> dead < 2 ^ 64 -> accepted (length texts) board dead ->
  forall q threads cancelled sched, (forall tid, (tid < threads)%nat -> (3 * threads + 4 * N.to_nat (prod_of (fun r => N.of_nat (length r)) ranges) < how_many (is_run tid) sched)%nat) ->
  exact_equity q ranges board dead threads cancelled sched = Ret (RErr ConflictingRanges) /\ deals ranges board dead = [] \/
  (exists o, exact_equity q ranges board dead threads cancelled sched = Ret (ROk o)) /\ deals ranges board dead <> [].
Proof. exact text_returns. Qed.
(* ... and a complete run has counted every deal on every board: each name gives the entry of its hand *)
Theorem C156_by_name : forall lower p texts (ranges : list (list whand)) board dead q threads sched o, from_strings lower p texts = Ret ranges -> small_table (length texts) board ->
  exact_equity q ranges board dead threads false sched = Ret (ROk o) -> ~ In Cancel sched -> (0 < threads)%nat ->
  (forall m, m < 2 ^ N.of_nat (length texts) -> nth (N.to_nat m) (r_wins_by_mask (o_results o)) 0 = won_by ranges board dead m) /\
  forall i a b, (i < length texts)%nat -> hole a b -> name_order a b ->
    exists u, get_hand_result q (r_hand_results (o_results o)) (N.of_nat i) (hand_name a b) = Ret (ROk u) /\ entry_told ranges board dead i a b u.
Proof. exact text_by_name. Qed.
(* 7s 2d with half the weight of the aces makes two pairs against kings on 2h 3h 7c 9d Jd *)
Definition duel_texts : list (list char) := [chars "AhAs,7s2d@50"; chars "KdKc"].
Definition duel_board : N := 2 ^ 1 + 2 ^ 5 + 2 ^ 22 + 2 ^ 31 + 2 ^ 39.
Definition duel_ranges : list (list whand) := [[(20, 3, 50); (49, 48, 100)]; [(47, 46, 100)]].
Example C156_example : exists ranges, from_strings (map to_ascii_lowercase) Debug duel_texts = Ret ranges /\
  (forall q, exists o, exact_equity q ranges duel_board 0 2 false (repeat (Run 0) 100 ++ repeat (Run 1) 100) = Ret (ROk o)) /\
  forall q threads sched o, exact_equity q ranges duel_board 0 (S threads) false sched = Ret (ROk o) -> ~ In Cancel sched ->
  (exists u, get_hand_result q (r_hand_results (o_results o)) 0 (chars "7s2d") = Ret (ROk u) /\ u_wins u = 5000 /\ u_total u = 5000 /\ u_valid u = true /\ u_weight u = 50) /\
  (exists u, get_hand_result q (r_hand_results (o_results o)) 0 (chars "QsQh") = Ret (ROk u) /\ u_total u = 0 /\ u_valid u = false).
Proof.
  exists duel_ranges. assert (HT : from_strings (map to_ascii_lowercase) Debug duel_texts = Ret duel_ranges) by (vm_compute; reflexivity).
  assert (Hs : small_table (length duel_texts) duel_board) by (left; cbn; lia). split; [exact HT|]. split.
  - intros q. assert (Ha : accepted (length duel_texts) duel_board 0) by (repeat split; vm_compute; try lia; discriminate).
    assert (Hf : forall tid, (tid < 2)%nat -> (3 * 2 + 4 * N.to_nat (prod_of (fun r : list whand => N.of_nat (length r)) duel_ranges) < how_many (is_run tid) (repeat (Run 0) 100 ++ repeat (Run 1) 100))%nat).
    { intros [|[|tid]] H; [vm_compute; lia|vm_compute; lia|lia]. }
    destruct (C156_returns _ _ _ _ duel_board 0 HT Hs eq_refl eq_refl Ha q 2%nat false _ Hf) as [[_ E]|[H _]]; [|exact H]. exfalso. revert E. vm_compute. discriminate.
  - intros q threads sched o H Hc. destruct (C156_by_name _ _ _ _ duel_board 0 q (S threads) sched o HT Hs H Hc ltac:(lia)) as [_ HN]. split.
    + destruct (HN 0%nat 20 3 ltac:(cbn; lia)) as (u & G & W & T & TT & V & WW); [repeat split; discriminate|left; reflexivity|]. exists u. split; [exact G|].
      assert (Hv : u_valid u = true). { apply V. split; [exists (20, 3, 50); split; [left; reflexivity|left; split; reflexivity]|split; vm_compute; reflexivity]. }
      split; [rewrite W; vm_compute; reflexivity|]. split; [rewrite TT; vm_compute; reflexivity|]. split; [exact Hv|]. exact (WW (20, 3, 50) (or_introl eq_refl) (or_introl (conj eq_refl eq_refl)) Hv).
    + destruct (HN 0%nat 40 41 ltac:(cbn; lia)) as (u & G & W & T & TT & V & WW); [repeat split; discriminate|right; split; reflexivity|]. exists u. split; [exact G|].
      split; [rewrite TT; vm_compute; reflexivity|]. destruct (u_valid u) eqn:Ev; [|reflexivity]. exfalso. destruct (proj1 V eq_refl) as [(h & Hin & Hh) _]. destruct Hin as [<-|[<-|[]]]; destruct Hh as [[E _]|[E _]]; discriminate E.
Qed.

(* C157: results are only returned for players of the run: false.  Without overflow checks, player 2^63 is player 0. *)
Theorem C157_refuted : ~ (forall p ranges board dead threads cancelled sched o player text u, usable ranges ->
  exact_equity p ranges board dead threads cancelled sched = Ret (ROk o) -> get_hand_result p (r_hand_results (o_results o)) player text = Ret (ROk u) ->
  player < N.of_nat (length ranges)).
Proof.
  intros H. assert (HE : exists o, exact_equity Debug ex_ranges ex_board ex_dead 2 false ex_schedule = Ret (ROk o)).
  { pose proof ex_run as HR. destruct (exact_equity Debug ex_ranges ex_board ex_dead 2 false ex_schedule) as [[o|e]|f]; try discriminate HR. exists o. reflexivity. }
  destruct HE as [o E].
  destruct ex_usable as (Hu & Hw & _). pose proof (exact_same Debug Release ex_ranges ex_board ex_dead 2 false ex_schedule o Hu Hw E) as ER.
  destruct (wrapped_found ex_ranges ex_board ex_dead 2 false ex_schedule o Hu ER ltac:(cbn; lia)) as (u & HG).
  specialize (H Release ex_ranges ex_board ex_dead 2%nat false ex_schedule o (2 ^ 63) _ u Hu ER HG). revert H. vm_compute. discriminate.
Qed.

(* C158: with overflow checks, or for smaller numbers, asking for a player who is not there panics *)
Theorem C158_exact : forall p ranges board dead threads cancelled sched o player a b, usable ranges ->
  exact_equity p ranges board dead threads cancelled sched = Ret (ROk o) -> N.of_nat (length ranges) <= player -> p = Debug \/ player <= 2 ^ 53 -> hole a b -> name_order a b ->
  let answer := get_hand_result p (r_hand_results (o_results o)) player (hand_name a b) in answer = Fail IndexOOB \/ p = Debug /\ answer = Fail Overflow.
Proof. exact absent_exact. Qed.
Theorem C158_exact_combo : forall p ranges board dead threads cancelled sched o player j k, usable ranges ->
  exact_equity p ranges board dead threads cancelled sched = Ret (ROk o) -> N.of_nat (length ranges) <= player -> p = Debug \/ player <= 2 ^ 53 -> nth_error kinds j = Some k ->
  let answer := get_combo_result p (r_combo_results (o_results o)) player (kind_name k) in answer = Fail IndexOOB \/ p = Debug /\ answer = Fail Overflow.
Proof. exact absent_exact_combo. Qed.
Theorem C158_approx : forall p ranges board dead threads target cancelled shuf rngs fuel sched o player a b, Forall range_ok ranges -> permutes shuf ->
  approx_equity p ranges board dead threads target cancelled shuf rngs fuel sched = Ret (ROk o) -> N.of_nat (length ranges) <= player -> p = Debug \/ player <= 2 ^ 53 -> hole a b -> name_order a b ->
  let answer := get_hand_result p (r_hand_results (o_results o)) player (hand_name a b) in answer = Fail IndexOOB \/ p = Debug /\ answer = Fail Overflow.
Proof. exact absent_approx. Qed.
Example C158_example : get_hand_result Debug [] (2 ^ 60) (chars "AcAd") = Fail Overflow /\ get_hand_result Release (repeat unit_default 1326) 1 (chars "AcAd") = Fail IndexOOB /\
  get_hand_result Debug (repeat unit_default 1326) 0 (chars "AcAd") = Ret (ROk unit_default).
Proof. vm_compute. auto. Qed.

Print Assumptions C156_returns.
Print Assumptions C156_by_name.
Print Assumptions C157_refuted.
Print Assumptions C158_exact.
Print Assumptions C158_exact_combo.
Print Assumptions C158_approx.
