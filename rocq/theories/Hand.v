(* Model of src/constants.rs, src/hand_evaluator/cards.rs and src/hand_evaluator/hand.rs.
   Line numbers refer to the pinned commit in /repo. *)
From Verif Require Import Base TLookup TSmall TMap.
Local Open Scope N_scope.

(* ------------------------------------------------------------------------- *)
(** * src/constants.rs *)

Definition CARD_COUNT : N := 52.                 (* constants.rs:2 *)
Definition SUIT_COUNT : N := 4.                  (* constants.rs:7 *)

(* constants.rs:10-12 RANK_TO_CHAR, constants.rs:15 SUIT_TO_CHAR *)
Definition RANK_TO_CHAR : list char := chars "23456789TJQKA".
Definition SUIT_TO_CHAR : list char := chars "shcd".

(* constants.rs:21-24 *)
Definition RANKS : list N :=
  [8192; 32769; 69632; 237568; 593920; 1531909; 3563520; 4300819; 4685870; 4690024;
   4767972; 4780561; 4801683].

Definition PERF_HASH_ROW_SHIFT : N := 12.        (* constants.rs:29 *)
Definition CARD_COUNT_SHIFT : N := 32.           (* constants.rs:31 *)
Definition SUITS_SHIFT : N := 48.                (* constants.rs:32 *)
(* constants.rs:33-34: 0x8888 << SUITS_SHIFT and 0x8888 << (SUITS_SHIFT - 32) *)
Definition FLUSH_CHECK_MASK64 : N := N.shiftl 0x8888 SUITS_SHIFT.
Definition FLUSH_CHECK_MASK32 : N := N.shiftl 0x8888 (SUITS_SHIFT - 32).
Definition HAND_CATEGORY_OFFSET : N := 0x1000.   (* constants.rs:36 *)

(* ------------------------------------------------------------------------- *)
(** * struct Hand, hand.rs:159-162 *)

Record hand := mkHand { key : N; mask : N }.

(* cards.rs:4-57: entry c of the literal array CARDS is the Rust constant expression
     key:  (1 << (4 * (c & 3) + SUITS_SHIFT)) + (1 << CARD_COUNT_SHIFT) + RANKS[c >> 2]
     mask: 1 << ((3 - (c & 3)) * 16 + (c >> 2))
   written out for c = 0..51; the model writes the expression once.  (Evaluated at compile
   time, where an overflow would be a compile error, so there is no profile here.) *)
Definition card_const (c : N) : hand :=
  {| key := N.shiftl 1 (4 * N.land c 3 + SUITS_SHIFT) + N.shiftl 1 CARD_COUNT_SHIFT
            + nth (N.to_nat (N.shiftr c 2)) RANKS 0;
     mask := N.shiftl 1 ((3 - N.land c 3) * 16 + N.shiftr c 2) |}.
Definition CARDS : list hand := map card_const (nseq 0 52).
Definition CARDS_get (c : N) : outcome hand := get CARDS (N.to_nat c).

(* hand.rs:295-314 Default: suit counters start at 3, so that bit 3 of a counter is set
   exactly when the suit has five or more cards *)
Definition hand_default : hand := {| key := N.shiftl 0x3333 SUITS_SHIFT; mask := 0 |}.

(* hand.rs:316-325 Add, hand.rs:327-332 AddAssign *)
Definition hand_add (p : profile) (a b : hand) : outcome hand :=
  k <- add_ 64 p (key a) (key b) ;;
  Ret {| key := k; mask := N.lor (mask a) (mask b) |}.

(* hand.rs:334-338 PartialEq *)
Definition hand_eqb (a b : hand) : bool := (mask a =? mask b) && (key a =? key b).

(* hand.rs:166-168 *)
Definition from_hole_cards (p : profile) (c1 c2 : N) : outcome hand :=
  a <- CARDS_get c1 ;; b <- CARDS_get c2 ;; hand_add p a b.

(* hand.rs:171-179; c ranges over 0..52, so 1u64 << c never overflows *)
Definition from_bit_mask (p : profile) (m : N) : outcome hand :=
  foldM (fun board c =>
           if negb (N.land m (N.shiftl 1 c) =? 0)
           then x <- CARDS_get c ;; hand_add p board x
           else Ret board)
        (nseq 0 52) hand_default.

(* hand.rs:182-186.  card is u8: (3 - card % 4) * 16 + card / 4 <= 111 does not overflow
   u8; the shift of 1u64 overflows when that amount is >= 64. *)
Definition contains (p : profile) (h : hand) (card : N) : outcome bool :=
  cm <- shl_ 64 p 1 ((3 - card mod 4) * 16 + card / 4) ;;
  Ret (negb (N.land (mask h) cm =? 0)).

(* hand.rs:199-204; suit is u8, 3 - suit underflows for suit > 3, then 16 * _ is u8 too *)
Definition get_suit_mask (p : profile) (h : hand) (suit : N) : outcome N :=
  d <- sub_ 8 p 3 suit ;;
  s <- mul_ 8 p 16 d ;;
  m <- shr_ 64 p (mask h) s ;;
  Ret (N.land m 0xFFFF).

(* hand.rs:206-213 *)
Definition get_rank_mask (h : hand) : N :=
  fold_left (fun rm i => N.lor rm (N.land (N.shiftr (mask h) (16 * (3 - i))) 0xFFFF))
            [0; 1; 2; 3] 0.

(* hand.rs:216-221: key as u32 *)
Definition get_rank_key (h : hand) : N := trunc 32 (key h).
(* hand.rs:224-226: (key >> 32) as u32 *)
Definition get_counters (h : hand) : N := trunc 32 (N.shiftr (key h) 32).
(* hand.rs:246-248 *)
Definition has_flush (h : hand) : bool := negb (N.land (key h) FLUSH_CHECK_MASK64 =? 0).
(* hand.rs:231-244.  The shift is leading_zeros << 2 <= 48 when has_flush holds. *)
Definition get_flush_key (h : hand) : N :=
  if has_flush h then
    let flush_check_bits := N.land (get_counters h) FLUSH_CHECK_MASK32 in
    let shift := N.shiftl (leading_zeros 32 flush_check_bits) 2 in
    trunc 16 (N.shiftr (mask h) shift)
  else 0.
(* hand.rs:251-253: CARD_COUNT_SHIFT - 32 = 0 *)
Definition count (h : hand) : N := N.land (N.shiftr (get_counters h) (CARD_COUNT_SHIFT - 32)) 0xf.
(* hand.rs:257-260; suit is u8; the result is an i32 *)
Definition suit_count (p : profile) (h : hand) (suit : N) : outcome Z :=
  a <- mul_ 8 p 4 suit ;;
  s <- add_ 8 p a (SUITS_SHIFT - 32) ;;
  c <- shr_ 32 p (get_counters h) s ;;
  Ret (Z.of_N (N.land c 0xf) - 3)%Z.

Definition MASK_MAP_T : table Z := table_of MASK_MAP.
Definition CARD_MAP_T : table Z := table_of CARD_MAP.
Definition LOOKUP_T : table N := table_of LOOKUP.
Definition LOOKUP_FLUSH_T : table N := table_of LOOKUP_FLUSH.
Definition PERF_HASH_OFFSETS_T : table N := table_of PERF_HASH_OFFSETS.

(* i16 as usize: sign extension *)
Definition i16_as_usize (z : Z) : N := Z.to_N (z mod 2 ^ 64)%Z.

(* hand.rs:264-271, method get_card_index.  63 - leading_zeros underflows (u32) on an
   empty mask. *)
Definition hand_card_index (p : profile) (h : hand) : outcome N :=
  let s := trailing_zeros 64 (mask h) in
  b <- sub_ 32 p 63 (leading_zeros 64 (mask h)) ;;
  let index := N.lor b (N.shiftl s 6) in
  z <- unchecked MASK_MAP_T index ;;
  Ret (i16_as_usize z).

(* hand.rs:13-21, free function get_card_index; usize arithmetic.  101 - card1 and the
   final - 1 can underflow. *)
Definition get_card_index (p : profile) (card1 card2 : N) : outcome N :=
  let (card1, card2) := if card2 <? card1 then (card2, card1) else (card1, card2) in
  d <- sub_ 64 p 101 card1 ;;
  m <- mul_ 64 p card1 d ;;
  a <- add_ 64 p (m / 2) card2 ;;
  index <- sub_ 64 p a 1 ;;
  z <- unchecked CARD_MAP_T index ;;
  Ret (i16_as_usize z).

(* hand.rs:287-292 *)
Definition evaluate_without_flush (h : hand) : outcome N :=
  let rank_key := get_rank_key h in
  offset <- unchecked PERF_HASH_OFFSETS_T (N.shiftr rank_key PERF_HASH_ROW_SHIFT) ;;
  let hash_key := wrapping_add 32 rank_key offset in
  unchecked LOOKUP_T hash_key.

(* hand.rs:275-284 *)
Definition evaluate (h : hand) : outcome N :=
  if has_flush h then unchecked LOOKUP_FLUSH_T (get_flush_key h)
  else
    let rank_key := get_rank_key h in
    offset <- unchecked PERF_HASH_OFFSETS_T (N.shiftr rank_key PERF_HASH_ROW_SHIFT) ;;
    let hash_key := wrapping_add 32 rank_key offset in
    unchecked LOOKUP_T hash_key.

(* ------------------------------------------------------------------------- *)
(** * get_draw, hand.rs:33-150 *)

(* u16 arithmetic on masks: << 1 drops the top bit, >> 1 the bottom bit *)
Definition shl1_16 (m : N) : N := trunc 16 (N.shiftl m 1).

(* The seven masks of the straight-draw loop, hand.rs:39-45. *)
Record sd_masks := mkSd
  { oesd : N; bdsd : N; gsd1 : N; gsd2 : N; gsd3 : N; dgsd1 : N; dgsd2 : N }.
Definition sd_init : sd_masks :=
  {| oesd := 0x0F; bdsd := 0x1F; gsd1 := 0x17; gsd2 := 0x1B; gsd3 := 0x1D;
     dgsd1 := 0x5D; dgsd2 := 0xDB |}.
(* hand.rs:77-83 *)
Definition sd_next (m : sd_masks) : sd_masks :=
  {| oesd := shl1_16 (oesd m); bdsd := shl1_16 (bdsd m);
     gsd1 := shl1_16 (gsd1 m); gsd2 := shl1_16 (gsd2 m); gsd3 := shl1_16 (gsd3 m);
     dgsd1 := shl1_16 (dgsd1 m); dgsd2 := shl1_16 (dgsd2 m) |}.

Definition covers (rank_mask m : N) : bool := N.land rank_mask m =? m.

(* one iteration of the loop of hand.rs:46-84 *)
Definition sd_step (rank_mask : N) (get_backdoors : bool) (st : N * sd_masks) (i : N) : N * sd_masks :=
  let (draw, m) := st in
  let draw := if covers rank_mask (oesd m)
              then if (i =? 0) || (i =? 9) then N.lor draw 2 else N.lor draw 1
              else draw in
  let draw := if get_backdoors then
                if count_ones (N.land rank_mask (bdsd m)) =? 3 then
                  let check_1 := 3 <? count_ones (N.land rank_mask (shl1_16 (bdsd m))) in
                  let check_2 := 3 <? count_ones (N.land rank_mask (N.shiftr (bdsd m) 1)) in
                  if negb check_1 && negb check_2 then N.lor draw 8 else draw
                else draw
              else draw in
  let draw := if covers rank_mask (gsd1 m) || covers rank_mask (gsd2 m) || covers rank_mask (gsd3 m)
              then N.lor draw 2 else draw in
  let draw := if covers rank_mask (dgsd1 m) || covers rank_mask (dgsd2 m)
              then N.lor draw 4 else draw in
  (draw, sd_next m).

Definition straight_draws (rank_mask : N) (get_backdoors : bool) (draw : N) : N :=
  fst (fold_left (sd_step rank_mask get_backdoors) (nseq 0 10) (draw, sd_init)).

(* hand.rs:86-102: the loop with break, on the ten masks 0b1111100000000 >> k *)
Fixpoint nut_straight_loop (n : nat) (mask rank_mask board_mask draw : N) : N :=
  match n with
  | O => draw
  | S n' =>
      if 3 <=? count_ones (N.land board_mask mask)
      then if covers rank_mask mask then N.lor draw 16 else draw
      else nut_straight_loop n' (N.shiftr mask 1) rank_mask board_mask draw
  end.

Definition TOP5 : N := 0x1F00.   (* 0b1111100000000 *)

(* hand.rs:103-125, one suit *)
Definition flush_draw_step (p : profile) (hole_cards board hand : hand) (get_backdoors : bool)
    (draw : N) (i : N) : outcome N :=
  suit_cnt <- suit_count p hand i ;;
  let draw := if (suit_cnt =? 4)%Z then N.lor draw 32
              else if (suit_cnt =? 3)%Z then (if get_backdoors then N.lor draw 64 else draw)
              else draw in
  if (suit_cnt =? 4)%Z || ((suit_cnt =? 3)%Z && get_backdoors) then
    bm <- get_suit_mask p board i ;;
    hm <- get_suit_mask p hole_cards i ;;
    let board_mask := N.land bm TOP5 in
    let hole_mask := N.land hm TOP5 in
    let xor_mask := N.land (N.lxor board_mask TOP5) TOP5 in
    Ret (if leading_zeros 16 xor_mask =? leading_zeros 16 hole_mask
         then N.lor draw 128 else draw)
  else Ret draw.

(* hand.rs:127-134: first suit with five cards, u8::MAX if none *)
Fixpoint flush_suit (p : profile) (h : hand) (suits : list N) : outcome N :=
  match suits with
  | [] => Ret U8MAX
  | i :: rest =>
      c <- suit_count p h i ;;
      if (5 <=? c)%Z then Ret i else flush_suit p h rest
  end.

(* hand.rs:33-150 *)
Definition get_draw (p : profile) (hole_cards board : hand) (rank : N) : outcome N :=
  hand <- hand_add p hole_cards board ;;
  let rank_mask := get_rank_mask hand in
  let get_backdoors := count_ones (mask board) <? 4 in
  let draw := if rank <? 4 then straight_draws rank_mask get_backdoors 0 else 0 in
  let draw := if rank =? 4 then nut_straight_loop 10 TOP5 rank_mask (get_rank_mask board) draw
              else draw in
  draw <- (if rank <? 5
           then foldM (flush_draw_step p hole_cards board hand get_backdoors) [0; 1; 2; 3] draw
           else Ret draw) ;;
  if rank =? 5 then
    suit <- flush_suit p hand [0; 1; 2; 3] ;;
    bm <- get_suit_mask p board suit ;;
    hm <- get_suit_mask p hole_cards suit ;;
    let board_mask := N.land bm TOP5 in
    let hole_mask := N.land hm TOP5 in
    let xor_mask := N.land (N.lxor board_mask TOP5) TOP5 in
    if xor_mask =? 0 then Ret (N.lor draw 128)
    else Ret (if leading_zeros 16 xor_mask =? leading_zeros 16 hole_mask
              then N.lor draw 128 else draw)
  else Ret draw.
