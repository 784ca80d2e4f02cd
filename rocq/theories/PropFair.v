(* C88-C91: the deals and boards of an approximate run are chosen fairly. *)
From Verif Require Import Base Float64 Hand Range FastDivide Combined Sim Approx SpecPoker SpecNames SpecHand SpecEquity SpecResults SpecRun SpecApprox SpecFair
  FairCountProofs FairBoardProofs FairRunProofs PropExact PropApprox.
From Coq Require Import Permutation.
Local Open Scope N_scope.

(* Two players with separate combined ranges: Ad Ac or Ah As, and Ad Kd or Kd Kc. *)
Definition two_ranges : list (list whand) := [[(51, 50, 1); (49, 48, 2)]; [(51, 47, 1); (47, 46, 3)]].
Definition with_two {A} (f : simulator -> A) : outcome A :=
  a <- from_range Debug (nth 0 two_ranges []) 0 ;; b <- from_range Debug (nth 1 two_ranges []) 1 ;;
  m <- sim_new Debug two_ranges [a; b] ex_board 0 false ex_target ;; Ret (f m).

(* C88: the legal choices of combos are the possible deals, each once.  When a reached thread
   deals afresh, each attempt samples a combo of every combined range, and the first legal
   choice is taken, in at most 1000 attempts. *)
Theorem C88_fresh_deals : forall p ranges board dead threads target cancelled shuf rngs m flag y0, Forall range_ok ranges -> permutes shuf ->
  alaunch p ranges board dead threads target cancelled shuf rngs m flag y0 ->
  Permutation (map (choice_deal m) (legal_choices m board dead)) (deals ranges board dead) /\
  forall fuel sched y t, foldM (aevent p m fuel) sched y0 = Ret y -> In t (ay_threads y) ->
    exists o r' w', randomize_hole_cards p m (a_rng t) (a_walk t) = Ret (match o with Some _ => true | None => false end, r', w') /\
      attempts m board dead 1000 (a_rng t) o r' /\ forall v, o = Some v -> walk_at p m board dead w' v.
Proof.
  intros p ranges board dead threads target cancelled shuf rngs m flag y0 Hr Hs HL. split; [eapply run_choices; eassumption|].
  intros fuel sched y t Hf Ht. eapply run_fresh; eassumption.
Qed.
Example C88_example :
  with_two (fun m => (choices m, legal_choices m ex_board 0, map (choice_deal m) (legal_choices m ex_board 0))) =
  Ret ([[0; 0]; [0; 1]; [1; 0]; [1; 1]]%nat, [[0; 1]; [1; 0]; [1; 1]]%nat,
       [[(51, 50, 1); (47, 46, 3)]; [(49, 48, 2); (51, 47, 1)]; [(49, 48, 2); (47, 46, 3)]]) /\
  with_two (fun m => map (fun n => sampled_choice (m_combined m) {| draws := fun i => N.shiftr n i; drawn := 0 |}) [0; 1; 2; 3]) =
  Ret [[0; 0]; [1; 0]; [0; 1]; [1; 1]]%nat.
Proof. split; vm_compute; reflexivity. Qed.

(* C89: a step of the walk moves from one legal choice to another, in the combined range which
   was sampled; the steps in one range permute the legal choices.  So if the first choice is
   any of them with the same probability, the choice after t steps is, too: each comes from
   the same number of first choices and sampled ranges. *)
Theorem C89_walk_fair : forall p ranges board dead threads target cancelled shuf rngs m flag y0, Forall range_ok ranges -> permutes shuf ->
  alaunch p ranges board dead threads target cancelled shuf rngs m flag y0 ->
  (forall fuel sched y t, foldM (aevent p m fuel) sched y0 = Ret y -> In t (ay_threads y) -> a_phase t = AWalk ->
    exists v r' w', walk_at p m board dead (a_walk t) v /\ walk_step p m (a_rng t) (a_walk t) = Ret (r', w') /\ r' = later (a_rng t) 1 /\
      walk_at p m board dead w' (step_choice m board dead v (N.to_nat (draws (a_rng t) (drawn (a_rng t)) mod N.of_nat (length (m_combined m)))))) /\
  (forall i, (i < length (m_combined m))%nat ->
    Permutation (map (fun v => step_choice m board dead v i) (legal_choices m board dead)) (legal_choices m board dead)) /\
  (forall t v, In v (legal_choices m board dead) ->
    length (filter (fun x => choice_eqb (walk_choice m board dead (fst x) (snd x)) v) (list_prod (legal_choices m board dead) (paths m t))) =
    (length (m_combined m) ^ t)%nat).
Proof.
  intros p ranges board dead threads target cancelled shuf rngs m flag y0 Hr Hs HL. split; [|split].
  - intros fuel sched y t Hf Ht Hph. eapply run_step; eassumption.
  - intros i Hi. destruct (nth_error (m_combined m) i) as [cr|] eqn:E; [exact (step_perm m board dead i cr E)|]. apply nth_error_None in E. exfalso. exact (Nat.lt_irrefl _ (Nat.lt_le_trans _ _ _ Hi E)).
  - intros t v Hv. apply walk_ways. exact Hv.
Qed.
Example C89_example :
  with_two (fun m => map (fun i => map (fun v => step_choice m ex_board 0 v i) (legal_choices m ex_board 0)) [0; 1]%nat) =
  Ret [[[1; 1]; [1; 0]; [0; 1]]; [[0; 1]; [1; 1]; [1; 0]]]%nat /\
  with_two (fun m => map (fun v => length (filter (fun x => choice_eqb (walk_choice m ex_board 0 (fst x) (snd x)) v) (list_prod (legal_choices m ex_board 0) (paths m 3)))) (choices m)) =
  Ret [0; 8; 8; 8]%nat.
Proof. split; vm_compute; reflexivity. Qed.

(* C90: a thread completes the board with the first new cards among its samples; of the cards
   which are not seen, each sequence comes from the same number of samples. *)
Theorem C90_boards_fair : forall p ranges board dead threads target cancelled shuf rngs m flag y0, Forall range_ok ranges -> permutes shuf ->
  alaunch p ranges board dead threads target cancelled shuf rngs m flag y0 ->
  (forall fuel sched y t, foldM (aevent p m fuel) sched y0 = Ret y -> In t (ay_threads y) -> a_phase t = AEval ->
    exists v, walk_at p m board dead (a_walk t) v /\
      forall k l, (k <= fuel)%nat -> first_new (5 - length (mask_cards board)) (taken_cards board dead (choice_deal m v)) (stream (a_rng t) k) = Some l ->
        NoDup l /\ incl l (unseen board dead (choice_deal m v)) /\
        exists b r', run p (board_with board l) = Ret b /\
          walk_eval p m fuel (a_rng t) (a_walk t) (a_stats t) = (st <- evaluated p m (a_walk t) b (a_stats t) ;; Ret (r', st))) /\
  (forall t d l l', NoDup l -> NoDup l' -> incl l (unseen board dead d) -> incl l' (unseen board dead d) -> length l = length l' ->
    ways t (taken_cards board dead d) l = ways t (taken_cards board dead d) l').
Proof.
  intros p ranges board dead threads target cancelled shuf rngs m flag y0 Hr Hs HL. split.
  - intros fuel sched y t Hf Ht Hph. eapply run_boards; eassumption.
  - intros t d l l'. apply ways_equal.
Qed.
(* the samples 43 (on the board), 51 (dealt), 45, 45 and 1; two samples give Kh in 100 ways if
   50 cards are seen *)
Example C90_example :
  let r := {| draws := fun i => nth (N.to_nat i) [43; 51; 45; 45; 1] 0; drawn := 0 |} in
  let d := [(51, 50, 1); (47, 46, 3)] in
  (first_new 1 (taken_cards ex_board 0 d) (stream r 5), first_new 2 (taken_cards ex_board 0 d) (stream r 5), first_new 3 (taken_cards ex_board 0 d) (stream r 5)) = (Some [45], Some [45; 1], None) /\
  (ways 2 (taken_cards ex_board ex_dead [(51, 50, 2); (47, 46, 3)]) [45], ways 2 (taken_cards ex_board ex_dead [(51, 50, 2); (47, 46, 3)]) [1]) = (100, 100)%nat.
Proof. split; vm_compute; reflexivity. Qed.

(* C91: over all legal choices and all sequences of unseen cards the sampled counters are the
   exact ones, times the number of orders of the cards. *)
Theorem C91_unbiased : forall p ranges board dead threads target cancelled shuf rngs m flag y0, Forall range_ok ranges -> permutes shuf ->
  alaunch p ranges board dead threads target cancelled shuf rngs m flag y0 ->
  let E := all_samples m board dead in
  let orders := N.of_nat (fact (5 - length (mask_cards board))) in
  (forall k, sampled E (fun d l => nats_eqb (first_eight (winners d l)) (players_of (length ranges) k)) =
    orders * total_of ranges board dead (fun d l => nats_eqb (first_eight (winners d l)) (players_of (length ranges) k))) /\
  (forall i a b, sampled E (wins_with i a b) = orders * total_of ranges board dead (wins_with i a b) /\
    sampled E (ties_with i a b) = orders * total_of ranges board dead (ties_with i a b) /\
    sampled E (fun d _ => holds i a b d) = orders * total_of ranges board dead (fun d _ => holds i a b d)) /\
  N.of_nat (length E) = orders * sum_of (fun d => N.of_nat (length (boards board dead d))) (deals ranges board dead).
Proof. exact run_unbiased. Qed.
Example C91_example :
  with_two (fun m => let b := 2 ^ 39 + 2 ^ 20 + 2 ^ 12 in let dead := 2 ^ 46 - 1 - (b + 2 ^ 45 + 2 ^ 1) in
    (length (all_samples m b dead), sampled (all_samples m b dead) (wins_with 1 47 46), total_of two_ranges b dead (wins_with 1 46 47))) = Ret (36%nat, 18, 9).
Proof. vm_compute. reflexivity. Qed.

Print Assumptions C88_fresh_deals.
Print Assumptions C89_walk_fair.
Print Assumptions C90_boards_fair.
Print Assumptions C91_unbiased.
