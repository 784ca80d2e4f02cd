(* Model of src/hand_range.rs. *)
From Verif Require Import Base Hand.
Local Open Scope N_scope.

(* ------------------------------------------------------------------------- *)
(** * Characters *)

Definition is_char (c : char) (a : ascii) : bool := c =? char_of_ascii a.

(* hand_range.rs:501-518 *)
Definition char_to_rank (c : char) : N :=
  if is_char c "a" then 12 else if is_char c "k" then 11 else if is_char c "q" then 10
  else if is_char c "j" then 9 else if is_char c "t" then 8 else if is_char c "9" then 7
  else if is_char c "8" then 6 else if is_char c "7" then 5 else if is_char c "6" then 4
  else if is_char c "5" then 3 else if is_char c "4" then 2 else if is_char c "3" then 1
  else if is_char c "2" then 0 else U8MAX.

(* hand_range.rs:528-536 *)
Definition char_to_suit (c : char) : N :=
  if is_char c "s" then 0 else if is_char c "h" then 1 else if is_char c "c" then 2
  else if is_char c "d" then 3 else U8MAX.

(* char::to_digit(10) *)
Definition to_digit (c : char) : option N :=
  if (char_of_ascii "0" <=? c) && (c <=? char_of_ascii "9") then Some (c - char_of_ascii "0") else None.

(* char::to_ascii_lowercase *)
Definition to_ascii_lowercase (c : char) : char :=
  if (char_of_ascii "A" <=? c) && (c <=? char_of_ascii "Z") then c + 32 else c.

(* ------------------------------------------------------------------------- *)
(** * Combo, hand_range.rs:19-75 *)

(* pub struct Combo(pub u8, pub u8, pub u8) *)
Definition combo : Type := N * N * N.
Definition c_1 (c : combo) : N := fst (fst c).
Definition c_2 (c : combo) : N := snd (fst c).
Definition c_w (c : combo) : N := snd c.

(* hand_range.rs:31-39 Display; indexing panics for a card above 51 *)
Definition combo_display (c : combo) : outcome (list char) :=
  a <- get RANK_TO_CHAR (N.to_nat (N.shiftr (c_1 c) 2)) ;;
  b <- get SUIT_TO_CHAR (N.to_nat (N.land (c_1 c) 3)) ;;
  d <- get RANK_TO_CHAR (N.to_nat (N.shiftr (c_2 c) 2)) ;;
  e <- get SUIT_TO_CHAR (N.to_nat (N.land (c_2 c) 3)) ;;
  Ret [a; b; d; e].

(* hand_range.rs:42-59 Ord *)
Definition combo_cmp (x y : combo) : comparison :=
  if negb (N.shiftr (c_1 x) 2 =? N.shiftr (c_1 y) 2)
  then N.compare (N.shiftr (c_1 x) 2) (N.shiftr (c_1 y) 2)
  else if negb (N.shiftr (c_2 x) 2 =? N.shiftr (c_2 y) 2)
  then N.compare (N.shiftr (c_2 x) 2) (N.shiftr (c_2 y) 2)
  else if negb (N.land (c_1 x) 3 =? N.land (c_1 y) 3)
  then N.compare (N.land (c_1 x) 3) (N.land (c_1 y) 3)
  else N.compare (N.land (c_2 x) 3) (N.land (c_2 y) 3).

(* hand_range.rs:67-73 PartialEq: the weight is ignored *)
Definition combo_eqb (x y : combo) : bool :=
  N.lor (N.shiftl (c_1 x) 8) (c_2 x) =? N.lor (N.shiftl (c_1 y) 8) (c_2 y).

(* ------------------------------------------------------------------------- *)
(** * Building ranges: hands is modelled as the list of pushed combos, oldest first *)

(* hand_range.rs:302-320 add_combo *)
Definition add_combo (hands : list combo) (c1 c2 weight : N) : list combo :=
  if (51 <? c1) || (51 <? c2) then hands
  else if c1 =? c2 then hands
  else
    let h := if (N.shiftr c1 2 <? N.shiftr c2 2)
                || ((N.shiftr c1 2 =? N.shiftr c2 2) && (N.land c1 3 <? N.land c2 3))
             then (c2, c1, weight) else (c1, c2, weight) in
    hands ++ [h].

(* hand_range.rs:392-410 add_combos.  rank1 and rank2 are ranks 0..12 at every call, so
   4 * rank + suit does not overflow u8 (simplification: no profile here). *)
Definition add_combos (hands : list combo) (rank1 rank2 : N) (suited offsuited : bool) (weight : N)
  : list combo :=
  let hands :=
    if suited && negb (rank1 =? rank2)
    then fold_left (fun hs suit => add_combo hs (4 * rank1 + suit) (4 * rank2 + suit) weight)
                   [0; 1; 2; 3] hands
    else hands in
  if offsuited then
    fold_left (fun hs suit1 =>
      fold_left (fun hs suit2 =>
        let hs := add_combo hs (4 * rank1 + suit1) (4 * rank2 + suit2) weight in
        if negb (rank1 =? rank2)
        then add_combo hs (4 * rank1 + suit2) (4 * rank2 + suit1) weight else hs)
        (nseq (suit1 + 1) (N.to_nat (4 - (suit1 + 1)))) hs)
      [0; 1; 2; 3] hands
  else hands.

(* a..b and a..=b on u8 *)
Definition n_range (a b : N) : list N := nseq a (N.to_nat (b - a)).
Definition n_range_incl (a b : N) : list N := nseq a (N.to_nat (b + 1 - a)).

(* hand_range.rs:325-337 *)
Definition add_combos_plus (hands : list combo) (rank1 rank2 : N) (suited offsuited : bool) (weight : N)
  : list combo :=
  if rank1 =? rank2
  then fold_left (fun hs r => add_combos hs r r suited offsuited weight) (n_range rank1 13) hands
  else fold_left (fun hs r => add_combos hs rank1 r suited offsuited weight) (n_range rank2 rank1) hands.

(* hand_range.rs:339-387 *)
Definition add_combos_dash (hands : list combo) (rank1 rank2 rank3 rank4 : N)
    (suited offsuited : bool) (weight : N) : list combo :=
  let each (fixed a b : N) :=
    fold_left (fun hs r => add_combos hs fixed r suited offsuited weight) (n_range_incl a b) hands in
  if rank1 =? rank2 then
    fold_left (fun hs r => add_combos hs r r suited offsuited weight) (n_range_incl rank3 rank1) hands
  else if rank1 =? rank3 then
    (if rank4 <? rank2 then each rank1 rank4 rank2 else each rank1 rank2 rank4)
  else if rank1 =? rank4 then
    (if rank3 <? rank2 then each rank1 rank3 rank2 else each rank1 rank2 rank3)
  else if rank2 =? rank3 then
    (if rank4 <? rank1 then each rank2 rank4 rank1 else each rank2 rank1 rank4)
  else if rank2 =? rank4 then
    (if rank3 <? rank1 then each rank2 rank3 rank1 else each rank2 rank1 rank3)
  else hands.

(* hand_range.rs:415-421 *)
Definition add_all (hands : list combo) : list combo :=
  fold_left (fun hs c1 =>
    fold_left (fun hs c2 => add_combo hs c1 c2 100) (n_range 0 c1) hs)
    (n_range 0 CARD_COUNT) hands.

(* hand_range.rs:428 self.hands.sort(): std's sort is stable; the stable sort of a list
   under a total preorder is unique, so a stable insertion sort models it *)
Fixpoint insert_combo (x : combo) (l : list combo) : list combo :=
  match l with
  | [] => [x]
  | y :: l' => match combo_cmp x y with
               | Gt => y :: insert_combo x l'
               | _ => x :: l
               end
  end.
Fixpoint sort_combos (l : list combo) : list combo :=
  match l with [] => [] | x :: l' => insert_combo x (sort_combos l') end.

(* hand_range.rs:430 self.hands.dedup(): removes all but the first of consecutive equals *)
Fixpoint dedup_from (prev : combo) (l : list combo) : list combo :=
  match l with
  | [] => []
  | x :: l' => if combo_eqb x prev then dedup_from prev l' else x :: dedup_from x l'
  end.
Definition dedup (l : list combo) : list combo :=
  match l with [] => [] | x :: l' => x :: dedup_from x l' end.

(* hand_range.rs:426-431 *)
Definition remove_duplicates (hands : list combo) : list combo := dedup (sort_combos hands).

(* ------------------------------------------------------------------------- *)
(** * Parser.  [cs] is char_vec, [i] the cursor; functions return the new cursor. *)

(* hand_range.rs:242-249 *)
Definition parse_char (cs : list char) (i : nat) (c : ascii) : outcome (bool * nat) :=
  x <- get cs i ;;
  Ret (if is_char x c then (true, S i) else (false, i)).

(* hand_range.rs:251-258; returns (ok, rank, cursor) *)
Definition parse_rank (cs : list char) (i : nat) : outcome (bool * N * nat) :=
  x <- get cs i ;;
  let rank := char_to_rank x in
  Ret (if rank =? U8MAX then (false, rank, i) else (true, rank, S i)).

(* hand_range.rs:260-267 *)
Definition parse_suit (cs : list char) (i : nat) : outcome (bool * N * nat) :=
  x <- get cs i ;;
  let suit := char_to_suit x in
  Ret (if suit =? U8MAX then (false, suit, i) else (true, suit, S i)).

(* hand_range.rs:218-240; number is a u32 (the type of to_digit's result).  Returns the
   new weight and cursor; on failure both are unchanged (the bool result is ignored by
   every caller).  The fuel bounds the loop; S (length cs) always suffices. *)
Fixpoint parse_weight_loop (p : profile) (fuel : nat) (cs : list char) (backtrack i : nat)
    (number weight : N) : outcome (N * nat) :=
  match fuel with
  | O => Fail OutOfFuel
  | S fuel' =>
      x <- get cs i ;;
      match to_digit x with
      | Some num =>
          m <- mul_ 32 p number 10 ;;
          n <- add_ 32 p m num ;;
          parse_weight_loop p fuel' cs backtrack (S i) n weight
      | None =>
          if 100 <? number then Ret (weight, backtrack)
          else Ret (trunc 8 number, i)
      end
  end.
Definition parse_weight (p : profile) (cs : list char) (i : nat) (weight : N) : outcome (N * nat) :=
  parse_weight_loop p (S (length cs)) cs i i 0 weight.

(* the repeated  if self.parse_char(i, '@') { self.parse_weight(i, &mut weight); } *)
Definition parse_opt_weight (p : profile) (cs : list char) (i : nat) : outcome (N * nat) :=
  '(b, i) <- parse_char cs i "@" ;;
  if b then parse_weight p cs i 100 else Ret (100, i).

(* hand_range.rs:269-297; returns (ok, rank3, rank4, cursor).  suited / offsuited are
   passed by &mut but only read. *)
Definition parse_combos_dash (cs : list char) (rank1 rank2 : N) (suited offsuited : bool) (i : nat)
  : outcome (bool * N * N * nat) :=
  '(ok3, rank3, i) <- parse_rank cs i ;;
  if negb ok3 then Ret (false, rank3, U8MAX, i) else
  '(ok4, rank4, i) <- parse_rank cs i ;;
  if negb ok4 then Ret (false, rank3, rank4, i) else
  '(o, i) <- parse_char cs i "o" ;;
  if o && negb offsuited then Ret (false, rank3, rank4, i) else
  if o && suited then Ret (false, rank3, rank4, i) else
  '(s, i) <- parse_char cs i "s" ;;
  if s && negb suited then Ret (false, rank3, rank4, i) else
  if s && offsuited then Ret (false, rank3, rank4, i) else
  if (rank1 =? rank2) && negb (rank3 =? rank4) then Ret (false, rank3, rank4, i) else
  if negb (rank1 =? rank2) && (rank3 =? rank4) then Ret (false, rank3, rank4, i) else
  if (rank1 =? rank2) && (rank3 =? rank4) then Ret (true, rank3, rank4, i) else
  if negb (rank1 =? rank3) && negb (rank1 =? rank4) && negb (rank2 =? rank3) && negb (rank2 =? rank4)
  then Ret (false, rank3, rank4, i) else
  Ret (true, rank3, rank4, i).

(* hand_range.rs:150-216; returns (ok, hands, cursor) *)
Definition parse_hand (p : profile) (cs : list char) (hands : list combo) (i : nat)
  : outcome (bool * list combo * nat) :=
  let backtrack := i in
  '(ok1, r1, i) <- parse_rank cs i ;;
  if negb ok1 then Ret (false, hands, i) else
  '(explicit_suits, s1, i) <- parse_suit cs i ;;
  '(ok2, r2, i) <- parse_rank cs i ;;
  if negb ok2 then Ret (false, hands, backtrack) else
  if explicit_suits then
    '(oks, s2, i) <- parse_suit cs i ;;
    if negb oks then Ret (false, hands, backtrack) else
    let c1 := 4 * r1 + s1 in
    let c2 := 4 * r2 + s2 in
    if c1 =? c2 then Ret (false, hands, backtrack) else
    '(weight, i) <- parse_opt_weight p cs i ;;
    Ret (true, add_combo hands c1 c2 weight, i)
  else
    '(o, i) <- parse_char cs i "o" ;;
    '(s, i) <- (if o then Ret (false, i) else parse_char cs i "s") ;;
    let suited := negb o in
    let offsuited := negb s in
    '(plus, i) <- parse_char cs i "+" ;;
    if plus then
      '(weight, i) <- parse_opt_weight p cs i ;;
      Ret (true, add_combos_plus hands r1 r2 suited offsuited weight, i)
    else
      '(dash, i) <- parse_char cs i "-" ;;
      if dash then
        '(okd, r3, r4, i) <- parse_combos_dash cs r1 r2 suited offsuited i ;;
        if negb okd then Ret (false, hands, backtrack) else
        '(weight, i) <- parse_opt_weight p cs i ;;
        Ret (true, add_combos_dash hands r1 r2 r3 r4 suited offsuited weight, i)
      else
        '(weight, i) <- parse_opt_weight p cs i ;;
        Ret (true, add_combos hands r1 r2 suited offsuited weight, i).

(* hand_range.rs:143: while parse_hand && parse_char(',') {} *)
Fixpoint parse_loop (p : profile) (fuel : nat) (cs : list char) (hands : list combo) (i : nat)
  : outcome (list combo) :=
  match fuel with
  | O => Fail OutOfFuel
  | S fuel' =>
      '(ok, hands, i) <- parse_hand p cs hands i ;;
      if negb ok then Ret hands else
      '(comma, i) <- parse_char cs i "," ;;
      if comma then parse_loop p fuel' cs hands i else Ret hands
  end.

(* hand_range.rs:140-144, after to_lowercase: [lower] is the lowercased text *)
Definition parse_lowered (p : profile) (lower : list char) : outcome (list combo) :=
  let cs := lower ++ [char_of_ascii " "] in
  hands <- parse_loop p (S (length cs)) cs [] 0 ;;
  Ret (remove_duplicates hands).

(* hand_range.rs:134-148.  str::to_lowercase (full Unicode) is a parameter; see
   [from_string_ascii].  The field char_vec of the result is dropped: it is scratch space
   of the parser and nothing reads it afterwards. *)
Definition from_string (to_lowercase : list char -> list char) (p : profile) (text : list char)
  : outcome (list combo) :=
  if chars_eqb text (chars "random") then Ret (add_all [])
  else parse_lowered p (to_lowercase text).

(* on ASCII text, str::to_lowercase is to_ascii_lowercase on each char *)
Definition from_string_ascii (p : profile) (text : list char) : outcome (list combo) :=
  from_string (map to_ascii_lowercase) p text.

(* hand_range.rs:109-114 *)
Definition from_strings (to_lowercase : list char -> list char) (p : profile) (arr : list (list char))
  : outcome (list (list combo)) :=
  mapM (from_string to_lowercase p) arr.

(* hand_range.rs:117-120; the shift overflows for a card >= 64 *)
Definition remove_conflicting_combos (p : profile) (hands : list combo) (board_mask dead_mask : N)
  : outcome (list combo) :=
  foldM (fun kept x =>
           a <- shl_ 64 p 1 (c_1 x) ;;
           b <- shl_ 64 p 1 (c_2 x) ;;
           Ret (if N.land (N.lor a b) (N.lor board_mask dead_mask) =? 0 then kept ++ [x] else kept))
        hands [].

(* ------------------------------------------------------------------------- *)
(** * Cards and masks as text *)

(* Result<_, String> of the text functions *)
Inductive text_error := UnexpectedEnd | ExpectedThreeCards | CardsNotUnique | ExpectedTwoChars.
Inductive result (A E : Type) := ROk (a : A) | RErr (e : E).
Arguments ROk {A E} a.
Arguments RErr {A E} e.

(* hand_range.rs:457-465.  The iterator is the remaining list of chars; it is returned
   advanced.  4 * rank + suit is u8 arithmetic with no validity check. *)
Definition card_from_chars (p : profile) (cs : list char) : outcome (result N text_error * list char) :=
  match cs with
  | [] => Ret (RErr UnexpectedEnd, [])
  | [_] => Ret (RErr UnexpectedEnd, [])
  | r :: s :: rest =>
      m <- mul_ 8 p 4 (char_to_rank (to_ascii_lowercase r)) ;;
      c <- add_ 8 p m (char_to_suit s) ;;
      Ret (ROk c, rest)
  end.

(* hand_range.rs:468-477 *)
Definition card_from_str (p : profile) (s : list char) : outcome (result N text_error) :=
  '(r, rest) <- card_from_chars p s ;;
  Ret (match r with
       | RErr e => RErr e
       | ROk c => match rest with [] => ROk c | _ => RErr ExpectedTwoChars end
       end).

(* Iterator::skip_while(is_whitespace), applied before the first item is delivered.
   [is_ws] is char::is_whitespace (Unicode White_Space), a parameter. *)
Fixpoint skip_ws (is_ws : char -> bool) (cs : list char) : list char :=
  match cs with
  | [] => []
  | c :: cs' => if is_ws c then skip_ws is_ws cs' else cs
  end.

(* hand_range.rs:447 sort_unstable on three u8 *)
Definition sort3 (a b c : N) : list N :=
  let ins := fix ins (x : N) (l : list N) :=
    match l with [] => [x] | y :: l' => if x <=? y then x :: l else y :: ins x l' end in
  ins a (ins b [c]).

(* hand_range.rs:435-454 *)
Definition flop_from_str (is_ws : char -> bool) (p : profile) (s : list char)
  : outcome (result (list N) text_error) :=
  '(r0, cs) <- card_from_chars p s ;;
  match r0 with RErr e => Ret (RErr e) | ROk a =>
  '(r1, cs) <- card_from_chars p (skip_ws is_ws cs) ;;
  match r1 with RErr e => Ret (RErr e) | ROk b =>
  '(r2, cs) <- card_from_chars p (skip_ws is_ws cs) ;;
  match r2 with RErr e => Ret (RErr e) | ROk c =>
  match cs with
  | _ :: _ => Ret (RErr ExpectedThreeCards)
  | [] =>
      match sort3 a b c with
      | [x; y; z] => if (x =? y) || (y =? z) || (x =? z) then Ret (RErr CardsNotUnique)
                     else Ret (ROk [x; y; z])
      | _ => Fail AssertFail (* unreachable: sort3 returns three elements *)
      end
  end end end end.

(* hand_range.rs:550-569, after to_lowercase.  The loop reads char_vec[i], char_vec[i+1];
   the length is even, so the two indices are in bounds: modelled by pairs. *)
Fixpoint card_mask_loop (cs : list char) (cards : N) : N :=
  match cs with
  | r :: s :: rest =>
      let rank := char_to_rank r in
      let suit := char_to_suit s in
      if (rank =? U8MAX) || (suit =? U8MAX) then 0
      else card_mask_loop rest (N.lor cards (N.shiftl 1 (4 * rank + suit)))
  | _ => cards
  end.
Definition get_card_mask (to_lowercase : list char -> list char) (text : list char) : N :=
  let char_vec := to_lowercase text in
  if negb (Nat.even (length char_vec)) then 0 else card_mask_loop char_vec 0.
Definition get_card_mask_ascii (text : list char) : N :=
  get_card_mask (map to_ascii_lowercase) text.

(* hand_range.rs:572-583; i ranges over 0..52 *)
Definition mask_to_string (card_mask : N) : outcome (list char) :=
  foldM (fun card_str i =>
           if negb (N.land (N.shiftl 1 i) card_mask =? 0) then
             r <- get RANK_TO_CHAR (N.to_nat (N.shiftr i 2)) ;;
             s <- get SUIT_TO_CHAR (N.to_nat (N.land i 3)) ;;
             Ret (card_str ++ [r; s])
           else Ret card_str)
        (nseq 0 52) [].

(* hand_range.rs:586-591 *)
Definition card_to_string (card : N) : outcome (list char) :=
  r <- get RANK_TO_CHAR (N.to_nat (N.shiftr card 2)) ;;
  s <- get SUIT_TO_CHAR (N.to_nat (N.land card 3)) ;;
  Ret [r; s].

(* hand_range.rs:485-491 *)
Definition hole_to_string (p : profile) (hole : N * N) : outcome (list char) :=
  a <- shl_ 64 p 1 (fst hole) ;;
  b <- shl_ 64 p 1 (snd hole) ;;
  mask_to_string (N.lor a b).

(* hand_range.rs:480-482 *)
Definition holes_to_strings (p : profile) (holes : list (N * N)) : outcome (list (list char)) :=
  mapM (hole_to_string p) holes.
