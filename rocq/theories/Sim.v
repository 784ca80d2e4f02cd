(* Model of src/equity_calculator/simulator.rs and src/string_lookup.rs:1332-1338,1512-1518. *)
From Verif Require Import Base Float64 Hand FastDivide Range Combined TStrings.
Local Open Scope N_scope.

Definition MIN_PLAYERS : nat := 2.            (* simulator.rs:25 *)
Definition BOARD_CARDS : N := 5.              (* simulator.rs:27 *)
Definition NUM_HANDS : nat := 1326.           (* simulator.rs:28 *)
Definition NUM_COMBOS : nat := 169.           (* simulator.rs:29 *)

(* simulator.rs:32-38 *)
Inductive sim_error :=
| TooManyPlayers | TooFewPlayers | TooManyBoardCards | TooManyDeadCards | ConflictingRanges.

(* ------------------------------------------------------------------------- *)
(** * Result records *)

(* simulator.rs:530-542 *)
Record unit_results := mkUnit {
  u_wins : N; u_ties : N; u_total : N;
  u_corrected_ties : f64; u_equity : f64; u_winrate : f64; u_tierate : f64;
  u_weight : N; u_rank : N; u_draw : N; u_valid : bool }.

(* simulator.rs:544-560 *)
Definition unit_default : unit_results :=
  {| u_wins := 0; u_ties := 0; u_total := 0; u_corrected_ties := f_zero; u_equity := f_zero;
     u_winrate := f_zero; u_tierate := f_zero; u_weight := 0; u_rank := U8MAX; u_draw := 0;
     u_valid := false |}.

Definition with_wins (u : unit_results) (w : N) : unit_results :=
  {| u_wins := w; u_ties := u_ties u; u_total := u_total u; u_corrected_ties := u_corrected_ties u;
     u_equity := u_equity u; u_winrate := u_winrate u; u_tierate := u_tierate u;
     u_weight := u_weight u; u_rank := u_rank u; u_draw := u_draw u; u_valid := u_valid u |}.
Definition with_ties (u : unit_results) (t : N) (ct : f64) : unit_results :=
  {| u_wins := u_wins u; u_ties := t; u_total := u_total u; u_corrected_ties := ct;
     u_equity := u_equity u; u_winrate := u_winrate u; u_tierate := u_tierate u;
     u_weight := u_weight u; u_rank := u_rank u; u_draw := u_draw u; u_valid := u_valid u |}.
Definition with_total (u : unit_results) (t : N) : unit_results :=
  {| u_wins := u_wins u; u_ties := u_ties u; u_total := t; u_corrected_ties := u_corrected_ties u;
     u_equity := u_equity u; u_winrate := u_winrate u; u_tierate := u_tierate u;
     u_weight := u_weight u; u_rank := u_rank u; u_draw := u_draw u; u_valid := u_valid u |}.
Definition with_weight (u : unit_results) (w : N) (v : bool) : unit_results :=
  {| u_wins := u_wins u; u_ties := u_ties u; u_total := u_total u; u_corrected_ties := u_corrected_ties u;
     u_equity := u_equity u; u_winrate := u_winrate u; u_tierate := u_tierate u;
     u_weight := w; u_rank := u_rank u; u_draw := u_draw u; u_valid := v |}.
Definition with_rank (u : unit_results) (r d : N) : unit_results :=
  {| u_wins := u_wins u; u_ties := u_ties u; u_total := u_total u; u_corrected_ties := u_corrected_ties u;
     u_equity := u_equity u; u_winrate := u_winrate u; u_tierate := u_tierate u;
     u_weight := u_weight u; u_rank := r; u_draw := d; u_valid := u_valid u |}.
Definition with_rates (u : unit_results) (eq wr tr : f64) : unit_results :=
  {| u_wins := u_wins u; u_ties := u_ties u; u_total := u_total u; u_corrected_ties := u_corrected_ties u;
     u_equity := eq; u_winrate := wr; u_tierate := tr;
     u_weight := u_weight u; u_rank := u_rank u; u_draw := u_draw u; u_valid := u_valid u |}.

(* simulator.rs:563-575 *)
Definition update_total (p : profile) (weight : N) (u : unit_results) : outcome unit_results :=
  t <- add_ 64 p (u_total u) weight ;; Ret (with_total u t).
Definition update_wins (p : profile) (weight : N) (u : unit_results) : outcome unit_results :=
  t <- add_ 64 p (u_wins u) weight ;; Ret (with_wins u t).
Definition update_ties (p : profile) (weight : N) (counter : nat) (u : unit_results) : outcome unit_results :=
  t <- add_ 64 p (u_ties u) weight ;;
  Ret (with_ties u t (f_add (u_corrected_ties u) (f_div (f_of_N weight) (f_of_N (N.of_nat counter))))).

(* simulator.rs:578-586 AddAssign *)
Definition unit_add_assign (p : profile) (a b : unit_results) : outcome unit_results :=
  w <- add_ 64 p (u_wins a) (u_wins b) ;;
  t <- add_ 64 p (u_ties a) (u_ties b) ;;
  n <- add_ 64 p (u_total a) (u_total b) ;;
  let ct := f_add (u_corrected_ties a) (u_corrected_ties b) in
  let eq := f_div (f_add (f_of_N w) ct) (f_of_N n) in
  Ret {| u_wins := w; u_ties := t; u_total := n; u_corrected_ties := ct; u_equity := eq;
         u_winrate := u_winrate a; u_tierate := u_tierate a; u_weight := u_weight a;
         u_rank := u_rank a; u_draw := u_draw a; u_valid := u_valid a |}.

(* simulator.rs:258-284 *)
Record results := mkResults {
  r_wins : list N; r_ties : list f64; r_wins_by_mask : list N; r_equities : list f64;
  r_eval_count : N; r_batch_sum : f64; r_batch_sum2 : f64; r_batch_count : f64; r_stdev : f64;
  r_hand_results : list unit_results; r_combo_results : list unit_results;
  r_board_results : list unit_results; r_board_draws : list unit_results }.

(* simulator.rs:287-303; 1 << n_players with n_players <= 9 *)
Definition results_init (n_players : nat) : results :=
  {| r_wins := repeat 0 n_players; r_ties := repeat f_zero n_players;
     r_wins_by_mask := repeat 0 (2 ^ n_players); r_equities := repeat f_zero n_players;
     r_eval_count := 0; r_batch_sum := f_zero; r_batch_sum2 := f_zero; r_batch_count := f_zero;
     r_stdev := f_zero; r_hand_results := repeat unit_default (NUM_HANDS * n_players);
     r_combo_results := []; r_board_results := repeat unit_default (9 * n_players);
     r_board_draws := repeat unit_default (10 * n_players) |}.

(* simulator.rs:614-632 *)
Record batch := mkBatch { b_wins_by_mask : list N; b_player_ids : list nat; b_eval_count : N }.
Definition batch_init (n_players : nat) : outcome batch :=
  ids <- foldM (fun l i => upd l i i) (seq 0 n_players) (repeat 0%nat MAX_PLAYERS) ;;
  Ret {| b_wins_by_mask := repeat 0 (2 ^ MAX_PLAYERS); b_player_ids := ids; b_eval_count := 0 |}.

(* the mutable statistics of one thread: (stats | batch, hand_stats) *)
Record stats := mkStats { s_batch : batch; s_hands : list unit_results }.
Definition stats_init (n_players : nat) : outcome stats :=
  b <- batch_init n_players ;;
  Ret {| s_batch := b; s_hands := repeat unit_default (n_players * NUM_HANDS) |}.

(* simulator.rs:636-658, the immutable fields; results, enum_pos and stopped are in the
   machine state below *)
Record simulator := mkSim {
  m_hand_ranges : list (list combo);
  m_combined : list crange;
  m_board_mask : N;
  m_dead_mask : N;
  m_fixed_board : hand;
  m_n_players : nat;
  m_stdev_target : f64;
  m_calc_exact : bool }.

(* simulator.rs:661-685 *)
Definition sim_new (p : profile) (hand_ranges : list (list combo)) (combined : list crange)
    (board_mask dead_mask : N) (calc_exact : bool) (stdev_target : f64) : outcome simulator :=
  fb <- from_bit_mask p board_mask ;;
  Ret {| m_hand_ranges := hand_ranges; m_combined := combined; m_board_mask := board_mask;
         m_dead_mask := dead_mask; m_fixed_board := fb; m_n_players := length hand_ranges;
         m_stdev_target := stdev_target; m_calc_exact := calc_exact |}.

(* simulator.rs:492-504 HandWithIndex; its Ord is never used *)
Record hwi := mkHwi { h_cards : combo; h_player_idx : nat }.
Definition hwi_default : hwi := {| h_cards := (52, 52, 100); h_player_idx := 0 |}.

(* ------------------------------------------------------------------------- *)
(** * evaluate_hands, simulator.rs:1245-1301 *)

(* loop state: winner_mask (u8), best_score, player_mask (u8), counter, indexes *)
Record scan := mkScan {
  sc_winner_mask : N; sc_best : N; sc_player_mask : N; sc_counter : nat; sc_indexes : list nat }.
Definition scan_init : scan :=
  {| sc_winner_mask := 0; sc_best := 0; sc_player_mask := 1; sc_counter := 0;
     sc_indexes := repeat 0%nat MAX_PLAYERS |}.

(* simulator.rs:1262-1285, one player *)
Definition scan_step (p : profile) (player_hands : list hand) (board : hand) (flush_possible : bool)
    (s : scan) (i : nat) : outcome scan :=
  ph <- get player_hands i ;;
  h <- hand_add p board ph ;;
  score <- (if flush_possible then evaluate h else evaluate_without_flush h) ;;
  s' <- (if sc_best s <? score then
           idx <- upd (sc_indexes s) 0 i ;;
           Ret {| sc_winner_mask := sc_player_mask s; sc_best := score;
                  sc_player_mask := sc_player_mask s; sc_counter := 1; sc_indexes := idx |}
         else if score =? sc_best s then
           idx <- upd (sc_indexes s) (sc_counter s) i ;;
           Ret {| sc_winner_mask := N.lor (sc_winner_mask s) (sc_player_mask s); sc_best := sc_best s;
                  sc_player_mask := sc_player_mask s; sc_counter := S (sc_counter s); sc_indexes := idx |}
         else Ret s) ;;
  (* player_mask <<= 1 on u8: the top bit is lost, no overflow check on shifted-out bits *)
  Ret {| sc_winner_mask := sc_winner_mask s'; sc_best := sc_best s';
         sc_player_mask := trunc 8 (N.shiftl (sc_player_mask s') 1);
         sc_counter := sc_counter s'; sc_indexes := sc_indexes s' |}.

Definition evaluate_hands (p : profile) (n_players : nat) (player_hands : list hand) (lookup : list nat)
    (weight : N) (board : hand) (flush_possible : bool) (st : stats) : outcome stats :=
  s <- foldM (scan_step p player_hands board flush_possible) (seq 0 n_players) scan_init ;;
  hs <- foldM (fun hs i => k <- get lookup i ;; updf hs k (update_total p weight))
              (seq 0 n_players) (s_hands st) ;;
  hs <- (if (sc_counter s =? 1)%nat then
           i <- get (sc_indexes s) 0 ;; k <- get lookup i ;; updf hs k (update_wins p weight)
         else
           foldM (fun hs j => i <- get (sc_indexes s) j ;; k <- get lookup i ;;
                              updf hs k (update_ties p weight (sc_counter s)))
                 (seq 0 (sc_counter s)) hs) ;;
  wbm <- updf (b_wins_by_mask (s_batch st)) (N.to_nat (sc_winner_mask s))
              (fun x => add_ 64 p x weight) ;;
  ec <- add_ 64 p (b_eval_count (s_batch st)) 1 ;;
  Ret {| s_batch := {| b_wins_by_mask := wbm; b_player_ids := b_player_ids (s_batch st);
                       b_eval_count := ec |};
         s_hands := hs |}.

(* ------------------------------------------------------------------------- *)
(** * enumerate_board_rec, simulator.rs:828-957

   [emit weight board flush_possible st] stands for the call
   self.evaluate_hands(hands, weight, board, lookup, stats, hand_stats, flush_possible).
   [deck] is the initialised part of the array, n_deck = length deck: cells beyond n_deck
   are never read by the code.  suit_counts and cards_remaining are u8 in the code; they
   stay below 16, so they are plain naturals here. *)

Definition crank (c : N) : N := N.shiftr c 2.
Definition csuit (c : N) : nat := N.to_nat (N.land c 3).

Definition BINOM_COEFF : list (list N) :=         (* simulator.rs:907-913 *)
  [[0; 0; 0; 0; 0]; [0; 1; 0; 0; 0]; [1; 2; 1; 0; 0]; [1; 3; 3; 1; 0]; [1; 4; 6; 4; 1]].

(* slice::swap *)
Definition swap {A} (l : list A) (i j : nat) : outcome (list A) :=
  a <- get l i ;; b <- get l j ;; l' <- upd l i b ;; upd l' j a.

Section Enumerate.
  Context {St : Type}.
  Variable p : profile.
  Variable emit : N -> hand -> bool -> St -> outcome St.

  (* simulator.rs:854-857: how many cards after position i still have this rank *)
  Fixpoint same_rank_run (fuel : nat) (deck : list N) (i : nat) (rank : N) (multiplier : N)
    : outcome (N * nat) :=
    match fuel with
    | O => Fail OutOfFuel
    | S fuel' =>
        if (i <? length deck)%nat then
          c <- get deck i ;;
          if crank c =? rank then same_rank_run fuel' deck (S i) rank (multiplier + 1)
          else Ret (multiplier, i)
        else Ret (multiplier, i)
    end.

  (* simulator.rs:848-859: last card, no flush possible for anyone *)
  Fixpoint last_card_noflush (fuel : nat) (deck : list N) (board : hand) (weight : N) (i : nat) (st : St)
    : outcome St :=
    match fuel with
    | O => Fail OutOfFuel
    | S fuel' =>
        if (i <? length deck)%nat then
          c <- get deck i ;;
          x <- CARDS_get c ;;
          new_board <- hand_add p board x ;;
          '(multiplier, i) <- same_rank_run (S (length deck)) deck (S i) (crank c) 1 ;;
          w <- mul_ 64 p weight multiplier ;;
          st <- emit w new_board false st ;;
          last_card_noflush fuel' deck board weight i st
        else Ret st
    end.

  (* simulator.rs:869-876: cards after i of the same rank whose suit cannot make a flush *)
  Fixpoint irrelevant_run (deck : list N) (suit_counts : list nat) (js : list nat) (rank : N)
      (multiplier : N) : outcome N :=
    match js with
    | [] => Ret multiplier
    | j :: js' =>
        c <- get deck j ;;
        if negb (crank c =? rank) then Ret multiplier
        else
          n <- get suit_counts (csuit c) ;;
          irrelevant_run deck suit_counts js' rank
            (if (n <? 4)%nat then multiplier + 1 else multiplier)
    end.

  (* simulator.rs:862-881: last card, some flush possible; the state is (last_rank, st) *)
  Definition last_card_flush_step (deck : list N) (suit_counts : list nat) (board : hand) (weight : N)
      (s : N * St) (i : nat) : outcome (N * St) :=
    let (last_rank, st) := s in
    c <- get deck i ;;
    n <- get suit_counts (csuit c) ;;
    if (n <? 4)%nat && (crank c =? last_rank) then Ret (last_rank, st)
    else
      '(multiplier, last_rank) <-
        (if (n <? 4)%nat then
           m <- irrelevant_run deck suit_counts (range (S i) (length deck)) (crank c) 1 ;;
           Ret (m, crank c)
         else Ret (1, last_rank)) ;;
      x <- CARDS_get c ;;
      new_board <- hand_add p board x ;;
      w <- mul_ 64 p weight multiplier ;;
      st <- emit w new_board true st ;;
      Ret (last_rank, st).

  (* simulator.rs:842-884 *)
  Definition last_card (deck : list N) (suit_counts : list nat) (board : hand) (start : nat) (weight : N)
      (st : St) : outcome St :=
    n0 <- get suit_counts 0 ;; n1 <- get suit_counts 1 ;;
    n2 <- get suit_counts 2 ;; n3 <- get suit_counts 3 ;;
    if (n0 <? 4)%nat && (n1 <? 4)%nat && (n2 <? 4)%nat && (n3 <? 4)%nat then
      last_card_noflush (S (length deck)) deck board weight start st
    else
      '(_, st) <- foldM (last_card_flush_step deck suit_counts board weight)
                        (range start (length deck)) (U8MAX, st) ;;
      Ret st.

  (* simulator.rs:892-903: move the irrelevant cards of this rank next to position i *)
  Fixpoint gather_irrelevant (suit_counts : list nat) (cards_remaining : nat) (i : nat) (rank : N)
      (js : list nat) (deck : list N) (irrelevant_count : nat) : outcome (list N * nat) :=
    match js with
    | [] => Ret (deck, irrelevant_count)
    | j :: js' =>
        c <- get deck j ;;
        if negb (crank c =? rank) then Ret (deck, irrelevant_count)
        else
          n <- get suit_counts (csuit c) ;;
          if (n + cards_remaining <? 5)%nat then
            deck <- (if (j =? i + irrelevant_count)%nat then Ret deck
                     else swap deck j (i + irrelevant_count)) ;;
            gather_irrelevant suit_counts cards_remaining i rank js' deck (S irrelevant_count)
          else gather_irrelevant suit_counts cards_remaining i rank js' deck irrelevant_count
    end.

  (* simulator.rs:828-957; returns the deck too, because the code permutes it in place.
     suit_counts is restored by the code after the recursive call (line 953), so the
     caller's copy is unchanged. *)
  Fixpoint enumerate_board_rec (fuel : nat) (board : hand) (deck : list N) (suit_counts : list nat)
      (cards_remaining : nat) (start : nat) (weight : N) (st : St) {struct fuel}
    : outcome (list N * St) :=
    match fuel with
    | O => Fail OutOfFuel
    | S fuel' =>
        if (cards_remaining =? 1)%nat then
          st <- last_card deck suit_counts board start weight st ;;
          Ret (deck, st)
        else
          (fix while_loop (lfuel : nat) (i : nat) (deck : list N) (st : St) : outcome (list N * St) :=
             match lfuel with
             | O => Fail OutOfFuel
             | S lfuel' =>
                 if (i <? length deck)%nat then
                   c <- get deck i ;;
                   n <- get suit_counts (csuit c) ;;
                   if (n + cards_remaining <? 5)%nat then
                     '(deck, irrelevant_count) <-
                       gather_irrelevant suit_counts cards_remaining i (crank c)
                         (range (S i) (length deck)) deck 1 ;;
                     '(_, deck, st) <-
                       foldM (fun '(new_board, deck, st) repeats =>
                         row <- get BINOM_COEFF irrelevant_count ;;
                         b <- get row repeats ;;
                         new_weight <- mul_ 64 p b weight ;;
                         d <- get deck (i + repeats - 1) ;;
                         x <- CARDS_get d ;;
                         new_board <- hand_add p new_board x ;;
                         if (repeats =? cards_remaining)%nat then
                           st <- emit new_weight new_board true st ;;
                           Ret (new_board, deck, st)
                         else
                           '(deck, st) <- enumerate_board_rec fuel' new_board deck suit_counts
                             (cards_remaining - repeats) (i + irrelevant_count) new_weight st ;;
                           Ret (new_board, deck, st))
                         (range 1 (Nat.min irrelevant_count cards_remaining + 1)) (board, deck, st) ;;
                     while_loop lfuel' (i + irrelevant_count)%nat deck st
                   else
                     x <- CARDS_get c ;;
                     new_board <- hand_add p board x ;;
                     sc <- upd suit_counts (csuit c) (S n) ;;
                     '(deck, st) <- enumerate_board_rec fuel' new_board deck sc
                       (cards_remaining - 1) (S i) weight st ;;
                     while_loop lfuel' (S i) deck st
                 else Ret (deck, st)
             end)
            (S (length deck)) start deck st
    end.
End Enumerate.

(* ------------------------------------------------------------------------- *)
(** * enumerate_board, simulator.rs:764-826 *)

(* simulator.rs:788-795: the unused cards, highest first *)
Definition build_deck (used_cards_mask : N) : list N :=
  filter (fun i => N.land used_cards_mask (N.shiftl 1 i) =? 0) (rev (nseq 0 52)).

(* simulator.rs:797-808, one player *)
Definition hole_suits_step (player_hands : list hwi) (sc : list nat) (i : nat) : outcome (list nat) :=
  h <- get player_hands i ;;
  let s0 := csuit (c_1 (h_cards h)) in
  let s1 := csuit (c_2 (h_cards h)) in
  if (s0 =? s1)%nat then updf sc s0 (fun x => Ret (Nat.max 2 x))
  else sc <- updf sc s0 (fun x => Ret (Nat.max 1 x)) ;; updf sc s1 (fun x => Ret (Nat.max 1 x)).

Definition hole_suits (player_hands : list hwi) (n_players : nat) : outcome (list nat) :=
  foldM (hole_suits_step player_hands) (seq 0 n_players) (repeat 0%nat 4).

(* simulator.rs:809-811: suit_counts[i] += board.suit_count(i) as u8 *)
Definition add_board_suits (p : profile) (board : hand) (sc : list nat) : outcome (list nat) :=
  foldM (fun sc i => z <- suit_count p board i ;;
                     updf sc (N.to_nat i) (fun x => Ret (x + Z.to_nat (z mod 256))%nat))
        [0; 1; 2; 3] sc.

(* simulator.rs:773-780 *)
Definition setup_hands (p : profile) (player_hands : list hwi) (ids : list nat) (n_players : nat)
  : outcome (list hand * list nat) :=
  foldM (fun '(hands, lookup) i =>
           h <- get player_hands i ;;
           let card1 := c_1 (h_cards h) in
           let card2 := c_2 (h_cards h) in
           x <- from_hole_cards p card1 card2 ;;
           hands <- upd hands i x ;;
           id <- get ids i ;;
           k <- get_card_index p card1 card2 ;;
           lookup <- upd lookup i (NUM_HANDS * id + N.to_nat k)%nat ;;
           Ret (hands, lookup))
        (seq 0 n_players) (repeat hand_default MAX_PLAYERS, repeat 0%nat MAX_PLAYERS).

Definition enumerate_board (p : profile) (n_players : nat) (player_hands : list hwi) (weight : N)
    (board : hand) (used_cards_mask : N) (st : stats) : outcome stats :=
  '(hands, lookup) <- setup_hands p player_hands (b_player_ids (s_batch st)) n_players ;;
  rem <- sub_ 32 p BOARD_CARDS (count board) ;;
  let cards_remaining := N.to_nat (trunc 8 rem) in
  if (cards_remaining =? 0)%nat then
    evaluate_hands p n_players hands lookup weight board true st
  else
    let deck := build_deck used_cards_mask in
    sc <- hole_suits player_hands n_players ;;
    sc <- add_board_suits p board sc ;;
    '(_, st) <- enumerate_board_rec p (evaluate_hands p n_players hands lookup)
                  (S cards_remaining) board deck sc cards_remaining 0 weight st ;;
    Ret st.

(* ------------------------------------------------------------------------- *)
(** * Position enumeration, simulator.rs:687-762 and 959-990 *)

(* simulator.rs:968-974 *)
Definition get_preflop_combo_count (p : profile) (m : simulator) : outcome N :=
  foldM (fun n c => mul_ 64 p n (cr_size c)) (m_combined m) 1.

(* simulator.rs:976-990 *)
Definition get_postflop_combo_count (p : profile) (m : simulator) : outcome N :=
  d <- sub_ 64 p CARD_COUNT (count (m_fixed_board m)) ;;
  d <- sub_ 64 p d (count_ones (m_dead_mask m)) ;;
  d <- sub_ 64 p d (2 * N.of_nat (m_n_players m)) ;;
  k <- sub_ 64 p 5 (count (m_fixed_board m)) ;;
  n <- foldM (fun n i => x <- sub_ 64 p d i ;; mul_ 64 p n x) (n_range 0 k) 1 ;;
  Ret (fold_left (fun n i => n / (i + 1)) (n_range 0 k) n).

(* simulator.rs:727-731 *)
Definition deal_combo (c : ccombo) (cr : crange) (player_hands : list hwi) : outcome (list hwi) :=
  foldM (fun phs j =>
           idx <- get (cr_players cr) j ;;
           x <- get (cc_hole c) j ;;
           upd phs idx {| h_cards := x; h_player_idx := idx |})
        (seq 0 (cr_player_count cr)) player_hands.

(* simulator.rs:717-732; None when two ranges conflict (ok = false, break) *)
Fixpoint decode_position (p : profile) (dcs : list (divider * crange)) (rand_enum_pos : N)
    (used : N) (player_hands : list hwi) : outcome (option (N * list hwi)) :=
  match dcs with
  | [] => Ret (Some (used, player_hands))
  | (dv, cr) :: rest =>
      quotient <- divide p dv rand_enum_pos ;;
      qs <- mul_ 64 p quotient (cr_size cr) ;;
      remainder <- sub_ 64 p rand_enum_pos qs ;;
      c <- get (cr_combos cr) (N.to_nat remainder) ;;
      if negb (N.land used (cc_mask c) =? 0) then Ret None
      else
        phs <- deal_combo c cr player_hands ;;
        decode_position p rest quotient (N.lor used (cc_mask c)) phs
  end.

(* simulator.rs:712-748, one enum_pos *)
Definition process_position (p : profile) (m : simulator) (dividers : list divider) (enum_pos : N)
    (st : stats) : outcome stats :=
  o <- decode_position p (combine dividers (m_combined m)) enum_pos
         (N.lor (m_board_mask m) (m_dead_mask m)) (repeat hwi_default MAX_PLAYERS) ;;
  match o with
  | None => Ret st
  | Some (used, player_hands) =>
      weight <- foldM (fun w h => mul_ 64 p w (c_w (h_cards h)))
                      (firstn (m_n_players m) player_hands) 1 ;;
      enumerate_board p (m_n_players m) player_hands weight (m_fixed_board m) used st
  end.

(* ------------------------------------------------------------------------- *)
(** * update_results, simulator.rs:1117-1171 *)

(* zip of hand_results and hand_batch with += *)
Fixpoint merge_hands (p : profile) (rs bs : list unit_results) : outcome (list unit_results) :=
  match rs, bs with
  | r :: rs', b :: bs' => x <- unit_add_assign p r b ;; xs <- merge_hands p rs' bs' ;; Ret (x :: xs)
  | _, _ => Ret rs
  end.

Record merge := mkMerge {
  g_wins : list N; g_ties : list f64; g_wins_by_mask : list N;
  g_batch_hands : N; g_batch_equity : f64 }.

(* simulator.rs:1129-1145, one player of one mask; state (wins, ties, equity, actual mask) *)
Definition merge_player (p : profile) (b : batch) (wi : N) (i : nat) (winner_count : N)
    (s : list N * list f64 * f64 * N) (j : nat) : outcome (list N * list f64 * f64 * N) :=
  let '(wins, ties, equity, actual) := s in
  if N.testbit (N.of_nat i) (N.of_nat j) then
    id <- get (b_player_ids b) j ;;
    '(wins, ties, equity) <-
      (if winner_count =? 1 then
         wins <- updf wins id (fun x => add_ 64 p x wi) ;;
         Ret (wins, ties, if (id =? 0)%nat then f_add equity (f_of_N wi) else equity)
       else
         let share := f_of_N (wi / winner_count) in
         ties <- updf ties id (fun x => Ret (f_add x share)) ;;
         Ret (wins, ties, if (id =? 0)%nat then f_add equity share else equity)) ;;
    Ret (wins, ties, equity, N.lor actual (N.shiftl 1 (N.of_nat id)))
  else Ret s.

(* simulator.rs:1125-1147, one mask *)
Definition merge_mask (p : profile) (n_players : nat) (b : batch) (g : merge) (i : nat) : outcome merge :=
  let winner_count := count_ones (N.of_nat i) in
  wi <- get (b_wins_by_mask b) i ;;
  bh <- add_ 64 p (g_batch_hands g) wi ;;
  '(wins, ties, equity, actual) <-
    foldM (merge_player p b wi i winner_count) (seq 0 n_players)
          (g_wins g, g_ties g, g_batch_equity g, 0) ;;
  wbm <- updf (g_wins_by_mask g) (N.to_nat actual) (fun x => add_ 64 p x wi) ;;
  Ret {| g_wins := wins; g_ties := ties; g_wins_by_mask := wbm; g_batch_hands := bh;
         g_batch_equity := equity |}.

Definition f_100 : f64 := f_of_N 100.
Definition f_1 : f64 := f_of_N 1.

(* simulator.rs:1152-1158 *)
Definition batch_stdev (sum sum2 cnt : f64) : f64 :=
  f_div (f_sqrt (f_sub (f_add f_1e_9 sum2) (f_div (f_mul sum sum) cnt))) cnt.

(* simulator.rs:1160: (1.0 / (stdev / target).powi(2) * 100.0) as u8; powi(2) is taken to
   be x * x *)
Definition approx_progress (stdev target : f64) : N :=
  let q := f_div stdev target in
  f_to_u8 (f_mul (f_div f_1 (f_mul q q)) f_100).

(* simulator.rs:1168 *)
Definition exact_progress (enum_pos total : N) : N :=
  f_to_u8 (f_mul (f_div (f_of_N enum_pos) (f_of_N total)) f_100).

(* The whole of update_results is one atomic step: it runs under the write lock of
   results.  Returns the new results, the value of the stop flag and the progress message.
   enum_pos is read at this point (line 1168); another thread may reserve a batch between
   the lock and that read, which is the same as having reserved it just before. *)
Definition update_results (p : profile) (m : simulator) (enum_pos : N) (stopped : bool)
    (r : results) (st : stats) (finished : bool) : outcome (results * bool * N) :=
  let b := s_batch st in
  hs <- merge_hands p (r_hand_results r) (s_hands st) ;;
  g <- foldM (merge_mask p (m_n_players m) b) (seq 0 (2 ^ m_n_players m))
         {| g_wins := r_wins r; g_ties := r_ties r; g_wins_by_mask := r_wins_by_mask r;
            g_batch_hands := 0; g_batch_equity := f_zero |} ;;
  let batch_equity := f_div (g_batch_equity g) (f_add (f_of_N (g_batch_hands g)) f_1e_9) in
  ec <- add_ 64 p (r_eval_count r) (b_eval_count b) ;;
  if negb (m_calc_exact m) then
    let sum := f_add (r_batch_sum r) batch_equity in
    let sum2 := f_add (r_batch_sum2 r) (f_mul batch_equity batch_equity) in
    let cnt := f_add (r_batch_count r) f_1 in
    let stdev := batch_stdev sum sum2 cnt in
    Ret ({| r_wins := g_wins g; r_ties := g_ties g; r_wins_by_mask := g_wins_by_mask g;
            r_equities := r_equities r; r_eval_count := ec; r_batch_sum := sum;
            r_batch_sum2 := sum2; r_batch_count := cnt; r_stdev := stdev;
            r_hand_results := hs; r_combo_results := r_combo_results r;
            r_board_results := r_board_results r; r_board_draws := r_board_draws r |},
         if negb finished && f_ltb stdev (m_stdev_target m) then true else stopped,
         approx_progress stdev (m_stdev_target m))
  else
    total <- get_preflop_combo_count p m ;;
    Ret ({| r_wins := g_wins g; r_ties := g_ties g; r_wins_by_mask := g_wins_by_mask g;
            r_equities := r_equities r; r_eval_count := ec; r_batch_sum := r_batch_sum r;
            r_batch_sum2 := r_batch_sum2 r; r_batch_count := r_batch_count r; r_stdev := r_stdev r;
            r_hand_results := hs; r_combo_results := r_combo_results r;
            r_board_results := r_board_results r; r_board_draws := r_board_draws r |},
         stopped, exact_progress enum_pos total).

(* ------------------------------------------------------------------------- *)
(** * Exact mode as a state machine over interleavings

   Shared state: enum_pos (Mutex), results (RwLock), stopped (AtomicBool), and the list of
   progress messages sent on the channel, newest last.  A thread's atomic steps are the
   calls that touch shared state; local work is merged into the step that precedes the
   next shared access. *)

Inductive xphase :=
| XTop        (* simulator.rs:701-710: top of the loop, possibly reserve_batch *)
| XWork       (* simulator.rs:712-750: process one position *)
| XFlush      (* simulator.rs:751: update_results(.., false) *)
| XCheck      (* simulator.rs:754: stopped.load *)
| XFinal      (* simulator.rs:761: update_results(.., true) *)
| XDone.

Record xthread := mkXT { x_phase : xphase; x_pos : N; x_end : N; x_stats : stats }.

Record xshared := mkXS { xs_enum_pos : N; xs_stopped : bool; xs_results : results; xs_msgs : list N }.

(* simulator.rs:959-966, the critical section *)
Definition reserve_batch (p : profile) (total batch_size enum_pos : N) : outcome (N * N) :=
  e <- add_ 64 p enum_pos batch_size ;; Ret (enum_pos, N.min total e).

(* one step of one thread of enumerate_all *)
Definition xstep (p : profile) (m : simulator) (dividers : list divider) (sh : xshared) (t : xthread)
  : outcome (xshared * xthread) :=
  match x_phase t with
  | XTop =>
      if x_end t <=? x_pos t then
        post <- get_postflop_combo_count p m ;;
        (if post =? 0 then Fail AssertFail (* division by zero *) else
        let batch_size := N.max (2000000 / post) 1 in
        total <- get_preflop_combo_count p m ;;
        '(s, e) <- reserve_batch p total batch_size (xs_enum_pos sh) ;;
        Ret ({| xs_enum_pos := e; xs_stopped := xs_stopped sh; xs_results := xs_results sh;
                xs_msgs := xs_msgs sh |},
             {| x_phase := if e <=? s then XFinal else XWork; x_pos := s; x_end := e;
                x_stats := x_stats t |}))
      else Ret (sh, {| x_phase := XWork; x_pos := x_pos t; x_end := x_end t; x_stats := x_stats t |})
  | XWork =>
      st <- process_position p m dividers (x_pos t) (x_stats t) ;;
      if 10000 <=? b_eval_count (s_batch st)
      then Ret (sh, {| x_phase := XFlush; x_pos := x_pos t; x_end := x_end t; x_stats := st |})
      else
        pos <- add_ 64 p (x_pos t) 1 ;;
        Ret (sh, {| x_phase := XTop; x_pos := pos; x_end := x_end t; x_stats := st |})
  | XFlush =>
      '(r, stop, msg) <- update_results p m (xs_enum_pos sh) (xs_stopped sh) (xs_results sh) (x_stats t) false ;;
      fresh <- stats_init (m_n_players m) ;;
      Ret ({| xs_enum_pos := xs_enum_pos sh; xs_stopped := stop; xs_results := r;
              xs_msgs := xs_msgs sh ++ [msg] |},
           {| x_phase := XCheck; x_pos := x_pos t; x_end := x_end t; x_stats := fresh |})
  | XCheck =>
      if xs_stopped sh
      then Ret (sh, {| x_phase := XFinal; x_pos := x_pos t; x_end := x_end t; x_stats := x_stats t |})
      else
        pos <- add_ 64 p (x_pos t) 1 ;;
        Ret (sh, {| x_phase := XTop; x_pos := pos; x_end := x_end t; x_stats := x_stats t |})
  | XFinal =>
      '(r, stop, msg) <- update_results p m (xs_enum_pos sh) (xs_stopped sh) (xs_results sh) (x_stats t) true ;;
      Ret ({| xs_enum_pos := xs_enum_pos sh; xs_stopped := stop; xs_results := r;
              xs_msgs := xs_msgs sh ++ [msg] |},
           {| x_phase := XDone; x_pos := x_pos t; x_end := x_end t; x_stats := x_stats t |})
  | XDone => Ret (sh, t)
  end.

(* what happens next: a thread takes a step, or the user sets the cancel token *)
Inductive event := Run (tid : nat) | Cancel.

Record xsys := mkXSys { xy_shared : xshared; xy_threads : list xthread }.

Definition xevent (p : profile) (m : simulator) (dividers : list divider) (y : xsys) (e : event)
  : outcome xsys :=
  match e with
  | Cancel =>
      Ret {| xy_shared := {| xs_enum_pos := xs_enum_pos (xy_shared y); xs_stopped := true;
                             xs_results := xs_results (xy_shared y); xs_msgs := xs_msgs (xy_shared y) |};
             xy_threads := xy_threads y |}
  | Run tid =>
      match nth_error (xy_threads y) tid with
      | None => Ret y
      | Some t =>
          '(sh, t') <- xstep p m dividers (xy_shared y) t ;;
          Ret {| xy_shared := sh; xy_threads := set_nth (xy_threads y) tid t' |}
      end
  end.

Definition xdone (t : xthread) : bool := match x_phase t with XDone => true | _ => false end.

(* ------------------------------------------------------------------------- *)
(** * Weights, ranks, final aggregation *)

(* NUM_HANDS*i + get_card_index(hand.0, hand.1) *)
Definition hand_slot (p : profile) (i : nat) (h : combo) : outcome nat :=
  k <- get_card_index p (c_1 h) (c_2 h) ;; Ret (NUM_HANDS * i + N.to_nat k)%nat.

(* simulator.rs:1198-1226; flag: u16 *)
Definition save_player_weights (p : profile) (i : nat) (hands : list combo)
    (hr : list unit_results) (flag : N) : outcome (list unit_results * N) :=
  let flag := N.lor flag (N.shiftl 1 (N.of_nat i)) in
  '(hr, check, flag) <-
    foldM (fun '(hr, check, flag) h =>
      k <- hand_slot p i h ;;
      hr <- updf hr k (fun u => Ret (with_weight u (c_w h) true)) ;;
      if check && negb (c_w h =? 100)
      then Ret (hr, false, N.lxor flag (N.shiftl 1 (N.of_nat i)))
      else Ret (hr, check, flag)) hands (hr, true, flag) ;;
  hr <- (if check then
           foldM (fun hr h => k <- hand_slot p i h ;;
                    updf hr k (fun u => Ret (if u_valid u then with_weight u 1 true else u))) hands hr
         else Ret hr) ;;
  Ret (hr, flag).

Definition save_hand_weights (p : profile) (ranges : list (list combo)) (hr : list unit_results)
  : outcome (list unit_results * N) :=
  foldM (fun '(hr, flag) '(i, hands) => save_player_weights p i hands hr flag)
        (combine (seq 0 (length ranges)) ranges) (hr, 0).

(* simulator.rs:1228-1242 *)
Definition fix_hand_weights (p : profile) (flag : N) (ranges : list (list combo)) (hr : list unit_results)
  : outcome (list unit_results) :=
  foldM (fun hr '(i, hands) =>
    if N.testbit flag (N.of_nat i) then
      foldM (fun hr h => k <- hand_slot p i h ;;
               updf hr k (fun u => Ret (if u_valid u then with_weight u 100 true else u))) hands hr
    else Ret hr)
    (combine (seq 0 (length ranges)) ranges) hr.

(* simulator.rs:1173-1196 *)
Definition set_ranks (p : profile) (board_mask : N) (ranges : list (list combo)) (hr : list unit_results)
  : outcome (list unit_results) :=
  board <- from_bit_mask p board_mask ;;
  let get_draws := count_ones (mask board) <? 5 in
  foldM (fun hr '(i, hands) =>
    foldM (fun hr h =>
      holding <- from_hole_cards p (c_1 h) (c_2 h) ;;
      x <- hand_add p board holding ;;
      rank <- evaluate x ;;
      let category := trunc 8 (rank / HAND_CATEGORY_OFFSET) in
      let category := if 0 <? category then category - 1 else category in
      draw <- (if get_draws then get_draw p holding board category else Ret 0) ;;
      k <- hand_slot p i h ;;
      updf hr k (fun u => Ret (with_rank u category draw))) hands hr)
    (combine (seq 0 (length ranges)) ranges) hr.

(* simulator.rs:304-316 *)
Definition get_equity (wins : list N) (ties : list f64) : list f64 :=
  let equity := map (fun '(w, t) => f_add (f_add f_zero (f_of_N w)) t) (combine wins ties) in
  let equity_sum := fold_left f_add equity f_zero in
  map (fun e => f_div e equity_sum) equity.

(* simulator.rs:342-346 *)
Definition batch_size_at (j : nat) : nat :=
  if (j <? 78)%nat then 6%nat else if (j <? 390)%nat then 4%nat else 12%nat.

(* accumulators of simulator.rs:336-341 *)
Record fin := mkFin { f_counter : nat; f_weight : N; f_wins : N; f_ties : N; f_ct : f64; f_total : N }.

(* simulator.rs:347-364, one hand; u128 sums cannot overflow here *)
Definition final_hand (p : profile) (s : fin * list unit_results) (hand_index : nat)
  : outcome (fin * list unit_results) :=
  let (a, hr) := s in
  h <- get hr hand_index ;;
  if u_valid h then
    if 0 <? u_total h then
      let wr := f_div (f_of_N (u_wins h)) (f_of_N (u_total h)) in
      let tr := f_div (f_of_N (u_ties h)) (f_of_N (u_total h)) in
      w <- add_ 32 p (f_weight a) (u_weight h) ;;
      hr <- upd hr hand_index (with_rates h (u_equity h) wr tr) ;;
      Ret ({| f_counter := S (f_counter a); f_weight := w; f_wins := f_wins a + u_wins h;
              f_ties := f_ties a + u_ties h; f_ct := f_add (f_ct a) (u_corrected_ties h);
              f_total := f_total a + u_total h |}, hr)
    else
      hr <- upd hr hand_index (with_rates h f_zero (u_winrate h) (u_tierate h)) ;;
      Ret (a, hr)
  else Ret (a, hr).

(* simulator.rs:365-391 *)
Definition final_combo (batch_size : nat) (a : fin) : unit_results :=
  if (0 <? f_counter a)%nat then
    let ratio := if U64MAX <? f_total a then f_total a / U64MAX + 1 else 1 in
    let wins := if U64MAX <? f_total a then f_wins a / ratio else f_wins a in
    let ties := if U64MAX <? f_total a then f_ties a / ratio else f_ties a in
    let total := if U64MAX <? f_total a then f_total a / ratio else f_total a in
    let ct := if U64MAX <? f_total a then f_div (f_ct a) (f_of_N ratio) else f_ct a in
    {| u_wins := trunc 64 wins; u_ties := trunc 64 ties; u_total := trunc 64 total;
       u_corrected_ties := ct;
       u_equity := f_div (f_add (f_of_N wins) ct) (f_of_N total);
       u_winrate := f_div (f_of_N wins) (f_of_N total);
       u_tierate := f_div (f_of_N ties) (f_of_N total);
       u_weight := f_weight a / N.of_nat batch_size;
       u_rank := U8MAX; u_draw := 0; u_valid := true |}
  else unit_default.

(* simulator.rs:334-393, one player: j runs over the 169 batch starts *)
Fixpoint final_player (p : profile) (fuel : nat) (i j : nat) (hr combos : list unit_results)
  : outcome (list unit_results * list unit_results) :=
  match fuel with
  | O => Fail OutOfFuel
  | S fuel' =>
      if (j <? NUM_HANDS)%nat then
        let bs := batch_size_at j in
        '(a, hr) <- foldM (final_hand p) (map (fun k => i * NUM_HANDS + j + k)%nat (seq 0 bs))
          ({| f_counter := 0; f_weight := 0; f_wins := 0; f_ties := 0; f_ct := f_zero; f_total := 0 |}, hr) ;;
        final_player p fuel' i (j + bs) hr (combos ++ [final_combo bs a])
      else Ret (hr, combos)
  end.

(* simulator.rs:331-396 *)
Definition generate_final_data (p : profile) (n_players : nat) (hr : list unit_results)
  : outcome (list unit_results * list unit_results) :=
  foldM (fun '(hr, combos) i => final_player p (S NUM_HANDS) i 0 hr combos) (seq 0 n_players) (hr, []).

(* simulator.rs:591-610 *)
Record big := mkBig { bg_wins : N; bg_ties : N; bg_total : N; bg_ct : f64; bg_weight : N }.
Definition big_default : big :=
  {| bg_wins := 0; bg_ties := 0; bg_total := 0; bg_ct := f_zero; bg_weight := 0 |}.

(* simulator.rs:407-411, 418-422, 442-446 *)
Definition big_add (p : profile) (h : unit_results) (b : big) : outcome big :=
  w <- add_ 32 p (bg_weight b) (u_weight h) ;;
  Ret {| bg_wins := bg_wins b + u_wins h; bg_ties := bg_ties b + u_ties h;
         bg_total := bg_total b + u_total h; bg_ct := f_add (bg_ct b) (u_corrected_ties h);
         bg_weight := w |}.

(* simulator.rs:403-449, one hand *)
Definition board_hand (p : profile) (hr : list unit_results) (i : nat) (s : list big * list big) (j : nat)
  : outcome (list big * list big) :=
  let (ranks, draws) := s in
  h <- get hr (i * NUM_HANDS + j) ;;
  if u_valid h then
    ranks <- updf ranks (i * 9 + N.to_nat (u_rank h)) (big_add p h) ;;
    draws <- foldM (fun ds k => if N.testbit (u_draw h) (N.of_nat k)
                                then updf ds (i * 10 + k) (big_add p h) else Ret ds)
                   (seq 0 7) draws ;;
    draws <- (if N.testbit (u_draw h) 7 then
                let check_1 := N.testbit (u_draw h) 6 in
                let check_2 := N.testbit (u_draw h) 5 in
                let draw_rank := if check_2 then 8%nat else if check_1 then 7%nat else 9%nat in
                updf draws (i * 10 + draw_rank) (big_add p h)
              else Ret draws) ;;
    Ret (ranks, draws)
  else Ret s.

(* simulator.rs:452-469 and 470-487 *)
Definition big_to_unit (b : big) (u : unit_results) : unit_results :=
  if 0 <? bg_total b then
    let ratio := if U64MAX <? bg_total b then bg_total b / U64MAX + 1 else 1 in
    let wins := trunc 64 (bg_wins b / ratio) in
    let ties := trunc 64 (bg_ties b / ratio) in
    let total := trunc 64 (bg_total b / ratio) in
    let ct := f_div (bg_ct b) (f_of_N ratio) in
    {| u_wins := wins; u_ties := ties; u_total := total; u_corrected_ties := ct;
       u_equity := f_div (f_add (f_of_N wins) ct) (f_of_N total);
       u_winrate := f_div (f_of_N wins) (f_of_N total);
       u_tierate := f_div ct (f_of_N total);
       u_weight := bg_weight b; u_rank := u_rank u; u_draw := u_draw u; u_valid := u_valid u |}
  else u.

Definition zip_with {A B C} (f : A -> B -> C) (l : list A) (k : list B) : list C :=
  map (fun '(a, b) => f a b) (combine l k).

(* simulator.rs:397-488; returns (board_results, board_draws) *)
Definition generate_board_data (p : profile) (n_players : nat) (hr board_results board_draws : list unit_results)
  : outcome (list unit_results * list unit_results) :=
  '(ranks, draws) <-
    foldM (fun s i => foldM (board_hand p hr i) (seq 0 NUM_HANDS) s) (seq 0 n_players)
          (repeat big_default (9 * n_players), repeat big_default (10 * n_players)) ;;
  Ret (zip_with big_to_unit ranks board_results, zip_with big_to_unit draws board_draws).

(* ------------------------------------------------------------------------- *)
(** * exact_equity, simulator.rs:69-143 *)

(* simulator.rs:77-88 / 184-195 *)
Definition validate (n : nat) (board_mask dead_mask : N) : option sim_error :=
  if (n <? MIN_PLAYERS)%nat then Some TooFewPlayers
  else if (MAX_PLAYERS <? n)%nat then Some TooManyPlayers
  else if BOARD_CARDS <? count_ones board_mask then Some TooManyBoardCards
  else if CARD_COUNT <? 2 * N.of_nat n + count_ones dead_mask + BOARD_CARDS then Some TooManyDeadCards
  else None.

Definition with_hand_results (r : results) (hr : list unit_results) : results :=
  {| r_wins := r_wins r; r_ties := r_ties r; r_wins_by_mask := r_wins_by_mask r;
     r_equities := r_equities r; r_eval_count := r_eval_count r; r_batch_sum := r_batch_sum r;
     r_batch_sum2 := r_batch_sum2 r; r_batch_count := r_batch_count r; r_stdev := r_stdev r;
     r_hand_results := hr; r_combo_results := r_combo_results r;
     r_board_results := r_board_results r; r_board_draws := r_board_draws r |}.

(* simulator.rs:111-115 / 220-224: the results before the threads start, and the flag *)
Definition prepare (p : profile) (m : simulator) : outcome (results * N) :=
  let r := results_init (m_n_players m) in
  '(hr, flag) <- save_hand_weights p (m_hand_ranges m) (r_hand_results r) ;;
  hr <- (if 2 <? count_ones (m_board_mask m)
         then set_ranks p (m_board_mask m) (m_hand_ranges m) hr else Ret hr) ;;
  Ret (with_hand_results r hr, flag).

(* simulator.rs:134-142 / 245-253: after the threads have joined *)
Definition finish (p : profile) (m : simulator) (flag : N) (r : results) : outcome results :=
  hr <- fix_hand_weights p flag (m_hand_ranges m) (r_hand_results r) ;;
  let equities := get_equity (r_wins r) (r_ties r) in
  '(hr, combos) <- generate_final_data p (length equities) hr ;;
  '(br, bd) <- (if 2 <? count_ones (m_board_mask m)
                then generate_board_data p (length equities) hr (r_board_results r) (r_board_draws r)
                else Ret (r_board_results r, r_board_draws r)) ;;
  Ret {| r_wins := r_wins r; r_ties := r_ties r; r_wins_by_mask := r_wins_by_mask r;
         r_equities := equities; r_eval_count := r_eval_count r; r_batch_sum := r_batch_sum r;
         r_batch_sum2 := r_batch_sum2 r; r_batch_count := r_batch_count r; r_stdev := r_stdev r;
         r_hand_results := hr; r_combo_results := combos;
         r_board_results := br; r_board_draws := bd |}.

(* simulator.rs:90-99 / 198-206 (without the shuffle): the filtered ranges and the combined
   ranges, or the ConflictingRanges error *)
Definition combine_ranges (p : profile) (hand_ranges : list (list combo)) (board_mask dead_mask : N)
  : outcome (result (list (list combo) * list crange) sim_error) :=
  hrs <- mapM (fun h => remove_conflicting_combos p h board_mask dead_mask) hand_ranges ;;
  crs <- from_ranges p hrs ;;
  Ret (if existsb (fun cr => cr_size cr =? 0) crs then RErr ConflictingRanges else ROk (hrs, crs)).

(* the machine when the threads are spawned: simulator.rs:119-127 *)
Definition xinit (n_players : nat) (n_threads : nat) (cancelled : bool) (r : results) : outcome xsys :=
  st <- stats_init n_players ;;
  Ret {| xy_shared := {| xs_enum_pos := 0; xs_stopped := cancelled; xs_results := r; xs_msgs := [] |};
         xy_threads := repeat {| x_phase := XTop; x_pos := 0; x_end := 0; x_stats := st |} n_threads |}.

(* What the caller observes: the results, the progress values passed to the callback in
   order, and the final value of the cancel token. *)
Record observed := mkObs { o_results : results; o_progress : list N; o_token : bool }.

(* exact_equity under a given schedule of the worker threads and of the user's
   cancellation.  [cancelled] is the value of the cancel token at the call.
   thread::scope returns only when every thread is done: a schedule that leaves a thread
   running is not a complete execution, and yields OutOfFuel. *)
Definition exact_equity (p : profile) (hand_ranges : list (list combo)) (board_mask dead_mask : N)
    (n_threads : nat) (cancelled : bool) (schedule : list event)
  : outcome (result observed sim_error) :=
  match validate (length hand_ranges) board_mask dead_mask with
  | Some e => Ret (RErr e)
  | None =>
      c <- combine_ranges p hand_ranges board_mask dead_mask ;;
      match c with
      | RErr e => Ret (RErr e)
      | ROk (hrs, crs) =>
          m <- sim_new p hrs crs board_mask dead_mask true f_zero ;;
          '(r0, flag) <- prepare p m ;;
          dividers <- mapM (fun cr => divide_by p (cr_size cr)) crs ;;
          y0 <- xinit (m_n_players m) n_threads cancelled r0 ;;
          y <- foldM (xevent p m dividers) schedule y0 ;;
          if forallb xdone (xy_threads y) then
            r <- finish p m flag (xs_results (xy_shared y)) ;;
            Ret (ROk {| o_results := r; o_progress := xs_msgs (xy_shared y);
                        o_token := xs_stopped (xy_shared y) |})
          else Fail OutOfFuel
      end
  end.

(* ------------------------------------------------------------------------- *)
(** * Lookup of one hand or combo in the results *)

(* string_lookup.rs:1332-1338 and 1512-1518: for i in 0..n { m.insert(T[i], i); }: a later
   insertion of the same key replaces the value *)
Definition map_get (tbl : list string) (k : list char) : option nat :=
  fold_left (fun acc '(i, s) => if chars_eqb (chars s) k then Some i else acc)
            (combine (seq 0 (length tbl)) tbl) None.

Inductive lookup_error := InvalidHand | InvalidCombo.

(* simulator.rs:317-323 *)
Definition get_hand_result (p : profile) (hand_results : list unit_results) (player : N) (hand : list char)
  : outcome (result unit_results lookup_error) :=
  match map_get INDEX_TO_HAND hand with
  | None => Ret (RErr InvalidHand)
  | Some index =>
      base <- mul_ 64 p (N.of_nat NUM_HANDS) player ;; i <- add_ 64 p base (N.of_nat index) ;;
      u <- get hand_results (N.to_nat i) ;; Ret (ROk u)
  end.
(* simulator.rs:324-330 *)
Definition get_combo_result (p : profile) (combo_results : list unit_results) (player : N) (hand : list char)
  : outcome (result unit_results lookup_error) :=
  match map_get INDEX_TO_COMBO hand with
  | None => Ret (RErr InvalidCombo)
  | Some index =>
      base <- mul_ 64 p (N.of_nat NUM_COMBOS) player ;; i <- add_ 64 p base (N.of_nat index) ;;
      u <- get combo_results (N.to_nat i) ;; Ret (ROk u)
  end.
