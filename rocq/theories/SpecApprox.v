(* Specification: what an approximate run may evaluate and what it counts. *)
From Verif Require Import Base Float64 Hand Range FastDivide Combined Sim Approx SpecPoker SpecNames SpecHand SpecEquity SpecResults SpecRun.
From Coq Require Import Permutation.
Local Open Scope N_scope.

(* a sample: a deal and the five cards of the board *)
Definition sample_of : Type := (list whand * list N)%type.

(* The deal gives every player a hand of their range with the weight it has there.  The board
   extends the given cards to five.  No card appears twice; no card in a hand is on the board
   given or dead; no card added to the board is dead. *)
Definition legal_sample (ranges : list (list whand)) (board dead : N) (s : sample_of) : Prop :=
  let (d, l) := s in
  Forall2 (fun h r => In h r) d ranges /\
  (exists added, l = mask_cards board ++ added /\ Forall (fun c => c < 52 /\ N.testbit dead c = false) added) /\
  length l = 5%nat /\ NoDup (dealt d ++ l) /\ Forall (fun c => N.testbit dead c = false /\ N.testbit board c = false) (dealt d).

(* the weight of the samples where something happens *)
Definition sampled (E : list sample_of) (what : list whand -> list N -> bool) : N :=
  sum_of (fun s => if what (fst s) (snd s) then deal_weight (fst s) else 0) E.
(* the counters of the results sum up the samples E *)
Definition counts_samples (p : profile) (n : nat) (E : list sample_of) (r : results) : Prop :=
  (forall m, m < 2 ^ N.of_nat n -> counter p (nth (N.to_nat m) (r_wins_by_mask r) 0)
     (sampled E (fun d l => nats_eqb (first_eight (winners d l)) (players_of n m)))) /\
  (forall i a b k, (i < n)%nat -> hole a b -> get_card_index p a b = Ret k ->
   exists u, nth_error (r_hand_results r) (1326 * i + N.to_nat k) = Some u /\
    counter p (u_wins u) (sampled E (wins_with i a b)) /\ counter p (u_ties u) (sampled E (ties_with i a b)) /\
    counter p (u_total u) (sampled E (fun d _ => holds i a b d))) /\
  counter p (r_eval_count r) (N.of_nat (length E)).

(* the largest weight a deal can have, hands of weight 0 counted as weight 1 *)
Definition heaviest (ranges : list (list whand)) : N :=
  prod_of (fun r => fold_right (fun h w => N.max (weight h) w) 1 r) ranges.

(* the shuffling of the combos only changes their order *)
Definition permutes (shuf : nat -> list ccombo -> list ccombo) : Prop := forall i l, Permutation (shuf i l) l.

(* approx_equity has prepared the simulator m and spawns its threads: y0 *)
Definition alaunch (p : profile) (ranges : list (list whand)) (board dead : N) (threads : nat) (target : f64) (cancelled : bool)
    (shuf : nat -> list ccombo -> list ccombo) (rngs : nat -> N -> N) (m : simulator) (flag : N) (y0 : asys) : Prop :=
  validate (length ranges) board dead = None /\
  exists hrs crs r0, combine_ranges p ranges board dead = Ret (ROk (hrs, crs)) /\
    sim_new p hrs (shuffle_ranges shuf crs) board dead false target = Ret m /\
    prepare p m = Ret (r0, flag) /\ ainit (m_n_players m) threads cancelled rngs r0 = Ret y0.

(* the combo the walk has chosen in the i-th combined range *)
Definition chosen_combo (m : simulator) (w : walk) (i : nat) (c : ccombo) : Prop :=
  exists cr j, nth_error (m_combined m) i = Some cr /\ nth_error (w_indexes w) i = Some j /\ nth_error (cr_combos cr) j = Some c.
(* the used cards are those of the table and of the chosen combos; no card is chosen twice *)
Definition mask_exact (m : simulator) (board dead : N) (w : walk) : Prop :=
  (forall i, (i < length (m_combined m))%nat -> exists c, chosen_combo m w i c /\ N.land (cc_mask c) (N.lor board dead) = 0) /\
  (forall x, N.testbit (w_used w) x = true <->
     N.testbit (N.lor board dead) x = true \/ exists i c, chosen_combo m w i c /\ N.testbit (cc_mask c) x = true) /\
  (forall i i' c c', i <> i' -> chosen_combo m w i c -> chosen_combo m w i' c' -> N.land (cc_mask c) (cc_mask c') = 0).
(* The step from w to w' exchanges the combo of the i-th combined range.  Its cards are taken
   out of the used ones without a borrow.  The new combo is the first free one below the old
   one, cyclically, found within one round. *)
Definition steps_down (m : simulator) (w w' : walk) (i : nat) : Prop :=
  exists cr j c k c', nth_error (m_combined m) i = Some cr /\ nth_error (w_indexes w) i = Some j /\ nth_error (cr_combos cr) j = Some c /\
    N.ldiff (cc_mask c) (w_used w) = 0 /\
    let size := length (cr_combos cr) in let rest := N.ldiff (w_used w) (cc_mask c) in
    (1 <= k <= size)%nat /\
    (forall k', (1 <= k' < k)%nat -> exists c1, nth_error (cr_combos cr) ((j + size - k') mod size) = Some c1 /\ N.land (cc_mask c1) rest <> 0) /\
    nth_error (cr_combos cr) ((j + size - k) mod size) = Some c' /\ N.land (cc_mask c') rest = 0 /\
    nth_error (w_indexes w') i = Some ((j + size - k) mod size)%nat /\ w_used w' = N.lor rest (cc_mask c') /\
    forall i', i' <> i -> nth_error (w_indexes w') i' = nth_error (w_indexes w) i'.
