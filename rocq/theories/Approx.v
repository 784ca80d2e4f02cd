(* Model of the Monte Carlo half of src/equity_calculator/simulator.rs: approx_equity,
   sim_random_walk_monte_carlo, randomize_hole_cards, randomize_board. *)
From Verif Require Import Base Float64 Hand FastDivide Range Combined Sim.
Local Open Scope N_scope.

(* A random generator is an arbitrary stream of numbers and a read position.  A uniform
   sample below a bound is the next number reduced modulo the bound: every sequence of
   in-range samples is produced by some stream, and nothing about the distribution is
   assumed.  (Simplification: the number of raw words rand consumes per sample is not
   modelled.) *)
Record rng := mkRng { draws : N -> N; drawn : N }.
Definition sample (r : rng) (bound : N) : N * rng :=
  (draws r (drawn r) mod bound, {| draws := draws r; drawn := N.succ (drawn r) |}).

(* the local variables of sim_random_walk_monte_carlo, simulator.rs:1001-1005 *)
Record walk := mkWalk {
  w_used : N; w_indexes : list nat; w_hands : list hand; w_weights : list N; w_lookup : list nat }.
Definition walk_init : walk :=
  {| w_used := 0; w_indexes := repeat 0%nat MAX_PLAYERS; w_hands := repeat hand_default MAX_PLAYERS;
     w_weights := repeat 1 MAX_PLAYERS; w_lookup := repeat 0%nat MAX_PLAYERS |}.

Definition with_used (w : walk) (u : N) : walk :=
  {| w_used := u; w_indexes := w_indexes w; w_hands := w_hands w; w_weights := w_weights w;
     w_lookup := w_lookup w |}.
Definition with_indexes (w : walk) (l : list nat) : walk :=
  {| w_used := w_used w; w_indexes := l; w_hands := w_hands w; w_weights := w_weights w;
     w_lookup := w_lookup w |}.

(* simulator.rs:1068-1073 and 1102-1107: give the players of a combined range the cards of
   one of its combos *)
Definition place_combo (p : profile) (cr : crange) (c : ccombo) (w : walk) : outcome walk :=
  foldM (fun w j =>
    player_idx <- get (cr_players cr) j ;;
    h <- get (cc_hands c) j ;;
    hands <- upd (w_hands w) player_idx h ;;
    x <- get (cc_hole c) j ;;
    k <- get_card_index p (c_1 x) (c_2 x) ;;
    lookup <- upd (w_lookup w) player_idx (NUM_HANDS * player_idx + N.to_nat k)%nat ;;
    weights <- upd (w_weights w) player_idx (c_w x) ;;
    Ret {| w_used := w_used w; w_indexes := w_indexes w; w_hands := hands; w_weights := weights;
           w_lookup := lookup |})
    (seq 0 (cr_player_count cr)) w.

(* simulator.rs:1094-1109, one attempt; the bool is ok *)
Fixpoint deal_attempt (p : profile) (crs : list crange) (i : nat) (r : rng) (w : walk)
  : outcome (bool * rng * walk) :=
  match crs with
  | [] => Ret (true, r, w)
  | cr :: crs' =>
      let (combo_idx, r) := sample r (cr_size cr) in
      idx <- upd (w_indexes w) i (N.to_nat combo_idx) ;;
      let w := with_indexes w idx in
      c <- get (cr_combos cr) (N.to_nat combo_idx) ;;
      if negb (N.land (w_used w) (cc_mask c) =? 0) then Ret (false, r, w)
      else
        w <- place_combo p cr c w ;;
        deal_attempt p crs' (S i) r (with_used w (N.lor (w_used w) (cc_mask c)))
  end.

(* simulator.rs:1080-1115 *)
Fixpoint deal_attempts (p : profile) (m : simulator) (tries : nat) (r : rng) (w : walk)
  : outcome (bool * rng * walk) :=
  match tries with
  | O => Ret (false, r, w)
  | S tries' =>
      '(ok, r, w) <- deal_attempt p (m_combined m) 0 r
                       (with_used w (N.lor (m_board_mask m) (m_dead_mask m))) ;;
      if (ok : bool) then Ret (true, r, w) else deal_attempts p m tries' r w
  end.
Definition randomize_hole_cards (p : profile) (m : simulator) (r : rng) (w : walk)
  : outcome (bool * rng * walk) := deal_attempts p m 1000 r w.

(* simulator.rs:1315-1321: the rejection loop for one card.  The fuel bounds the number of
   rejections; theorems hold for every fuel. *)
Fixpoint draw_card (fuel : nat) (used : N) (r : rng) : outcome (N * rng) :=
  match fuel with
  | O => Fail OutOfFuel
  | S fuel' =>
      let (card, r) := sample r CARD_COUNT in
      if N.land used (N.shiftl 1 card) =? 0 then Ret (card, r) else draw_card fuel' used r
  end.

(* simulator.rs:1304-1325 *)
Fixpoint randomize_board (p : profile) (fuel : nat) (cards_remaining : nat) (used : N) (r : rng)
    (board : hand) : outcome (hand * rng) :=
  match cards_remaining with
  | O => Ret (board, r)
  | S k =>
      '(card, r) <- draw_card fuel used r ;;
      x <- CARDS_get card ;;
      board <- hand_add p board x ;;
      randomize_board p fuel k (N.lor used (N.shiftl 1 card)) r board
  end.

(* simulator.rs:1057-1066: step down through the combos, wrapping, to the first one that
   does not conflict; returns its index *)
Fixpoint next_combo (fuel : nat) (cr : crange) (used : N) (combo_idx : nat) : outcome nat :=
  match fuel with
  | O => Fail OutOfFuel
  | S fuel' =>
      let combo_idx := if (combo_idx =? 0)%nat then N.to_nat (cr_size cr) else combo_idx in
      let combo_idx := (combo_idx - 1)%nat in
      c <- get (cr_combos cr) combo_idx ;;
      if N.land (cc_mask c) used =? 0 then Ret combo_idx else next_combo fuel' cr used combo_idx
  end.

(* simulator.rs:1052-1074 *)
Definition walk_step (p : profile) (m : simulator) (r : rng) (w : walk) : outcome (rng * walk) :=
  let (i, r) := sample r (N.of_nat (length (m_combined m))) in
  let i := N.to_nat i in
  cr <- get (m_combined m) i ;;
  combo_idx <- get (w_indexes w) i ;;
  c <- get (cr_combos cr) combo_idx ;;
  used <- sub_ 64 p (w_used w) (cc_mask c) ;;
  combo_idx <- next_combo (S (length (cr_combos cr))) cr used combo_idx ;;
  c <- get (cr_combos cr) combo_idx ;;
  w <- place_combo p cr c (with_used w (N.lor used (cc_mask c))) ;;
  idx <- upd (w_indexes w) i combo_idx ;;
  Ret (r, with_indexes w idx).

(* simulator.rs:1018-1030: one random board for the current deal, and its evaluation *)
Definition walk_eval (p : profile) (m : simulator) (fuel : nat) (r : rng) (w : walk) (st : stats)
  : outcome (rng * stats) :=
  weight <- foldM (fun acc c => mul_ 64 p acc c) (w_weights w) 1 ;;
  rem <- sub_ 32 p 5 (count (m_fixed_board m)) ;;
  '(board, r) <- randomize_board p fuel (N.to_nat rem) (N.lor (w_used w) (m_dead_mask m)) r
                   (m_fixed_board m) ;;
  st <- evaluate_hands p (m_n_players m) (w_hands w) (w_lookup w) weight board true st ;;
  Ret (r, st).

(* ------------------------------------------------------------------------- *)
(** * The threads as a state machine, as for exact mode *)

Inductive aphase :=
| AStart      (* simulator.rs:1008-1016: first deal *)
| AEval       (* simulator.rs:1018-1032: one board *)
| AFlush      (* simulator.rs:1033-1035: update_results(.., false) *)
| ACheck      (* simulator.rs:1036-1049: stopped.load, then a fresh deal *)
| AWalk       (* simulator.rs:1052-1074 *)
| AFinal      (* simulator.rs:1077: update_results(.., true) *)
| ADone.

Record athread := mkAT { a_phase : aphase; a_rng : rng; a_walk : walk; a_stats : stats }.

Definition astep (p : profile) (m : simulator) (fuel : nat) (sh : xshared) (t : athread)
  : outcome (xshared * athread) :=
  match a_phase t with
  | AStart =>
      (* Uniform::try_from(0..n).unwrap() on every size, simulator.rs:996-1000 *)
      (if existsb (fun cr => cr_size cr =? 0) (m_combined m) || (length (m_combined m) =? 0)%nat
       then Fail AssertFail else
      '(ok, r, w) <- randomize_hole_cards p m (a_rng t) (a_walk t) ;;
      Ret (sh, {| a_phase := if (ok : bool) then AEval else AFinal; a_rng := r; a_walk := w;
                  a_stats := a_stats t |}))
  | AEval =>
      '(r, st) <- walk_eval p m fuel (a_rng t) (a_walk t) (a_stats t) ;;
      Ret (sh, {| a_phase := if N.land (b_eval_count (s_batch st)) 0xfff =? 0 then AFlush else AWalk;
                  a_rng := r; a_walk := a_walk t; a_stats := st |})
  | AFlush =>
      '(r, stop, msg) <- update_results p m (xs_enum_pos sh) (xs_stopped sh) (xs_results sh) (a_stats t) false ;;
      fresh <- stats_init (m_n_players m) ;;
      Ret ({| xs_enum_pos := xs_enum_pos sh; xs_stopped := stop; xs_results := r;
              xs_msgs := xs_msgs sh ++ [msg] |},
           {| a_phase := ACheck; a_rng := a_rng t; a_walk := a_walk t; a_stats := fresh |})
  | ACheck =>
      if xs_stopped sh
      then Ret (sh, {| a_phase := AFinal; a_rng := a_rng t; a_walk := a_walk t; a_stats := a_stats t |})
      else
        '(ok, r, w) <- randomize_hole_cards p m (a_rng t) (a_walk t) ;;
        Ret (sh, {| a_phase := if (ok : bool) then AWalk else AFinal; a_rng := r; a_walk := w;
                    a_stats := a_stats t |})
  | AWalk =>
      '(r, w) <- walk_step p m (a_rng t) (a_walk t) ;;
      Ret (sh, {| a_phase := AEval; a_rng := r; a_walk := w; a_stats := a_stats t |})
  | AFinal =>
      '(r, stop, msg) <- update_results p m (xs_enum_pos sh) (xs_stopped sh) (xs_results sh) (a_stats t) true ;;
      Ret ({| xs_enum_pos := xs_enum_pos sh; xs_stopped := stop; xs_results := r;
              xs_msgs := xs_msgs sh ++ [msg] |},
           {| a_phase := ADone; a_rng := a_rng t; a_walk := a_walk t; a_stats := a_stats t |})
  | ADone => Ret (sh, t)
  end.

Record asys := mkASys { ay_shared : xshared; ay_threads : list athread }.

Definition aevent (p : profile) (m : simulator) (fuel : nat) (y : asys) (e : event) : outcome asys :=
  match e with
  | Cancel =>
      Ret {| ay_shared := {| xs_enum_pos := xs_enum_pos (ay_shared y); xs_stopped := true;
                             xs_results := xs_results (ay_shared y); xs_msgs := xs_msgs (ay_shared y) |};
             ay_threads := ay_threads y |}
  | Run tid =>
      match nth_error (ay_threads y) tid with
      | None => Ret y
      | Some t =>
          '(sh, t') <- astep p m fuel (ay_shared y) t ;;
          Ret {| ay_shared := sh; ay_threads := set_nth (ay_threads y) tid t' |}
      end
  end.

Definition adone (t : athread) : bool := match a_phase t with ADone => true | _ => false end.

(* CombinedRange::shuffle, combined_range.rs:161-163: [shuf i] is what the shuffle of the
   i-th combined range did to its combos *)
Definition shuffle_ranges (shuf : nat -> list ccombo -> list ccombo) (crs : list crange) : list crange :=
  map (fun '(i, cr) => {| cr_player_count := cr_player_count cr; cr_players := cr_players cr;
                          cr_combos := shuf i (cr_combos cr); cr_size := cr_size cr |})
      (combine (seq 0 (length crs)) crs).

Definition ainit (n_players n_threads : nat) (cancelled : bool) (rngs : nat -> N -> N) (r : results)
  : outcome asys :=
  st <- stats_init n_players ;;
  Ret {| ay_shared := {| xs_enum_pos := 0; xs_stopped := cancelled; xs_results := r; xs_msgs := [] |};
         ay_threads := map (fun i => {| a_phase := AStart; a_rng := {| draws := rngs i; drawn := 0 |};
                                        a_walk := walk_init; a_stats := st |}) (seq 0 n_threads) |}.

(* simulator.rs:175-254; [rngs i] is the random stream of thread i.  The code shuffles a
   combined range before it checks the next one for emptiness; the result is the same. *)
Definition approx_equity (p : profile) (hand_ranges : list (list combo)) (board_mask dead_mask : N)
    (n_threads : nat) (stdev_target : f64) (cancelled : bool)
    (shuf : nat -> list ccombo -> list ccombo) (rngs : nat -> N -> N) (fuel : nat)
    (schedule : list event) : outcome (result observed sim_error) :=
  match validate (length hand_ranges) board_mask dead_mask with
  | Some e => Ret (RErr e)
  | None =>
      c <- combine_ranges p hand_ranges board_mask dead_mask ;;
      match c with
      | RErr e => Ret (RErr e)
      | ROk (hrs, crs) =>
          m <- sim_new p hrs (shuffle_ranges shuf crs) board_mask dead_mask false stdev_target ;;
          '(r0, flag) <- prepare p m ;;
          y0 <- ainit (m_n_players m) n_threads cancelled rngs r0 ;;
          y <- foldM (aevent p m fuel) schedule y0 ;;
          if forallb adone (ay_threads y) then
            r <- finish p m flag (xs_results (ay_shared y)) ;;
            Ret (ROk {| o_results := r; o_progress := xs_msgs (ay_shared y);
                        o_token := xs_stopped (ay_shared y) |})
          else Fail OutOfFuel
      end
  end.
