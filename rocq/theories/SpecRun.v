(* Specification: the arguments a run accepts, combined ranges and what a deal means. *)
From Verif Require Import Base Float64 Hand Range FastDivide Combined Sim SpecPoker SpecNames SpecHand SpecEquity SpecResults.
Local Open Scope N_scope.

(* the number of cards in a 64-bit card mask *)
Definition ones (m : N) : N := N.of_nat (length (filter (N.testbit m) (nseq 0 64))).
(* the arguments which are not rejected at once *)
Definition accepted (players : nat) (board dead : N) : Prop :=
  (2 <= players <= 9)%nat /\ ones board <= 5 /\ 2 * N.of_nat players + ones dead + 5 <= 52.
(* the ranges fit the memory, and the number of ways to combine them fits 63 bits *)
Definition usable (ranges : list (list whand)) : Prop :=
  Forall range_ok ranges /\ prod_of (fun r => N.of_nat (length r)) ranges < 2 ^ 63.

(* every hand of the range uses a card of the board or a dead card *)
Definition emptied (board dead : N) (r : list whand) : Prop :=
  forall h, In h r -> on_table board dead (first_card h) = true \/ on_table board dead (second_card h) = true.

(* the ways to give one hand of their range to each of some players, without a common card *)
Definition range_at (ranges : list (list whand)) (i : nat) : list whand := nth i ranges [].
Definition joint (ranges : list (list whand)) (ps : list nat) : list (list whand) :=
  filter (fun hs => distinct (dealt hs)) (picks (map (range_at ranges) ps)).
Definition common_card (a b : list whand) : bool :=
  existsb (fun c => existsb (N.eqb c) (dealt b)) (dealt a).
(* how many pairs of combinations have no common card *)
Definition pairs_without (A C : list (list whand)) : N :=
  sum_of (fun a => sum_of (fun b => if common_card a b then 0 else 1) C) A.

(* all cards seen when a deal is complete *)
Definition table_cards (board : N) (d : list whand) (l : list N) : list N := dealt d ++ l.

(* the completions of the board of one deal where something happens *)
Definition boards_with (board dead : N) (d : list whand) (what : list N -> bool) : N :=
  sum_of (fun l => if what l then 1 else 0) (boards board dead d).
(* the winners whose seat fits an 8-bit mask *)
Definition first_eight (l : list nat) : list nat := filter (fun i => (i <? 8)%nat) l.

(* ------------------------------------------------------------------------- *)
(** * What the model's values mean *)

(* the error for arguments which are not accepted: the first applicable one *)
Definition rejection (n : nat) (board dead : N) : option sim_error :=
  if (n <? 2)%nat then Some TooFewPlayers
  else if (9 <? n)%nat then Some TooManyPlayers
  else if 5 <? ones board then Some TooManyBoardCards
  else if 52 <? 2 * N.of_nat n + ones dead + 5 then Some TooManyDeadCards
  else None.

(* a combined range of the players ps holds exactly their joint combinations, in order, each
   with its cards, weights, card mask and Hand values *)
Definition describes (p : profile) (ranges : list (list whand)) (ps : list nat) (cr : crange) : Prop :=
  cr_player_count cr = length ps /\ firstn (length ps) (cr_players cr) = ps /\ cr_size cr = N.of_nat (length (cr_combos cr)) /\
  Forall2 (fun hs c => firstn (length ps) (cc_hole c) = hs /\
             (forall x, N.testbit (cc_mask c) x = existsb (N.eqb x) (dealt hs)) /\
             (forall i, (i < length ps)%nat -> from_hole_cards p (first_card (holding hs i)) (second_card (holding hs i)) = get (cc_hands c) i))
          (joint ranges ps) (cr_combos cr).

(* position x is skipped, or decodes to the deal d of all players *)
Definition decoded (p : profile) (dvs : list divider) (crs : list crange) (n : nat) (board dead x : N) (o : option (list whand)) : Prop :=
  let run := decode_position p (combine dvs crs) x (N.lor board dead) (repeat hwi_default 9) in
  match o with
  | None => run = Ret None
  | Some d => exists used phs, run = Ret (Some (used, phs)) /\ map h_cards (firstn n phs) = d /\ map h_player_idx (firstn n phs) = seq 0 n /\
                forall c, N.testbit used c = on_table board dead c || existsb (N.eqb c) (dealt d)
  end.

(* everything the statistics of a thread count after the boards of one deal *)
Definition counted (p : profile) (board dead : N) (d : list whand) (w : N) (st : stats) : Prop :=
  (forall m, m < 2 ^ N.of_nat (length d) -> counter p (nth (N.to_nat m) (b_wins_by_mask (s_batch st)) 0)
     (w * boards_with board dead d (fun l => nats_eqb (first_eight (winners d l)) (players_of (length d) m)))) /\
  (forall i a b k, (i < length d)%nat -> hole a b -> get_card_index p a b = Ret k ->
     let u := nth (1326 * i + N.to_nat k) (s_hands st) unit_default in
     counter p (u_total u) (w * boards_with board dead d (fun _ => holds i a b d)) /\
     counter p (u_wins u) (w * boards_with board dead d (fun l => wins_with i a b d l)) /\
     counter p (u_ties u) (w * boards_with board dead d (fun l => ties_with i a b d l))) /\
  b_eval_count (s_batch st) <= N.of_nat (length (boards board dead d)).

(* ------------------------------------------------------------------------- *)
(** * The worker threads of exact_equity *)

(* exact_equity has prepared the simulator m and the dividers, and spawns its threads: y0 *)
Definition launch (p : profile) (ranges : list (list whand)) (board dead : N) (threads : nat) (cancelled : bool)
    (m : simulator) (flag : N) (dvs : list divider) (y0 : xsys) : Prop :=
  validate (length ranges) board dead = None /\
  exists hrs crs r0, combine_ranges p ranges board dead = Ret (ROk (hrs, crs)) /\ sim_new p hrs crs board dead true f_zero = Ret m /\
    prepare p m = Ret (r0, flag) /\ mapM (fun cr => divide_by p (cr_size cr)) crs = Ret dvs /\ xinit (m_n_players m) threads cancelled r0 = Ret y0.

(* the position processed by an event, if any *)
Definition works_on (y : xsys) (e : event) : list N :=
  match e with
  | Run tid => match nth_error (xy_threads y) tid with
               | Some t => match x_phase t with XWork => [x_pos t] | _ => [] end
               | None => []
               end
  | Cancel => []
  end.
(* the positions processed by the events of a schedule, in order *)
Fixpoint processed (p : profile) (m : simulator) (dvs : list divider) (sched : list event) (y : xsys) : list N :=
  match sched with
  | [] => []
  | e :: sched' => match xevent p m dvs y e with Ret y' => works_on y e ++ processed p m dvs sched' y' | Fail _ => [] end
  end.

(* the event is a step of thread tid *)
Definition is_run (tid : nat) (e : event) : bool := match e with Run t => (t =? tid)%nat | Cancel => false end.

(* the counters of the results sum up the deals D *)
Definition sums_over (p : profile) (ranges : list (list whand)) (board dead : N) (D : list (list whand)) (r : results) : Prop :=
  (forall m, m < 2 ^ N.of_nat (length ranges) -> counter p (nth (N.to_nat m) (r_wins_by_mask r) 0)
     (sum_over board dead D (fun d l => nats_eqb (first_eight (winners d l)) (players_of (length ranges) m)))) /\
  forall i a b k, (i < length ranges)%nat -> hole a b -> get_card_index p a b = Ret k ->
  exists u, nth_error (r_hand_results r) (1326 * i + N.to_nat k) = Some u /\
    counter p (u_wins u) (sum_over board dead D (wins_with i a b)) /\ counter p (u_ties u) (sum_over board dead D (ties_with i a b)) /\
    counter p (u_total u) (sum_over board dead D (fun d _ => holds i a b d)).
