(* Base definitions of the model: outcomes (panics are values), build profiles,
   machine arithmetic, arrays and read-only tables.  No code of /repo is modelled in this
   file; it fixes the meaning of the Rust primitives the rest of the model uses. *)
From Coq Require Export Ascii String.
From Coq Require Export List NArith ZArith Arith Bool Lia.
From Coq Require Import FMapPositive.
Export ListNotations.
Local Open Scope N_scope.

(* ------------------------------------------------------------------------- *)
(** * Outcomes *)

(* Why a Rust execution did not return normally.
   - [Overflow]   arithmetic overflow detected by a build with overflow checks (panic);
   - [IndexOOB]   a checked index was out of bounds (panic);
   - [AssertFail] a failed assert! / unwrap (panic);
   - [UnsafeOOB]  [get_unchecked] was called out of bounds: undefined behaviour, not a panic;
   - [OutOfFuel]  artefact of the model: a loop was given too little fuel.  Theorems
                  exclude it; it is never a normal-looking value. *)
Inductive fault := Overflow | IndexOOB | AssertFail | UnsafeOOB | OutOfFuel.

Inductive outcome (A : Type) : Type :=
| Ret (a : A)
| Fail (f : fault).
Arguments Ret {A} a.
Arguments Fail {A} f.

Definition bind {A B} (m : outcome A) (k : A -> outcome B) : outcome B :=
  match m with Ret a => k a | Fail f => Fail f end.

Notation "x <- m ;; k" := (bind m (fun x => k))
  (at level 61, m at next level, right associativity).
Notation "' p <- m ;; k" := (bind m (fun x => match x with p => k end))
  (at level 61, p pattern, m at next level, right associativity).

(* for x in l { s = f(s, x) } *)
Fixpoint foldM {A S} (f : S -> A -> outcome S) (l : list A) (s : S) : outcome S :=
  match l with
  | [] => Ret s
  | x :: l' => s' <- f s x ;; foldM f l' s'
  end.

(* iter().map(f).collect() when f may panic *)
Fixpoint mapM {A B} (f : A -> outcome B) (l : list A) : outcome (list B) :=
  match l with
  | [] => Ret []
  | x :: l' => y <- f x ;; ys <- mapM f l' ;; Ret (y :: ys)
  end.

(* ------------------------------------------------------------------------- *)
(** * Machine arithmetic *)

(* Cargo profiles: [Debug] has overflow checks on (overflow panics), [Release] has them
   off (overflow wraps).  Every theorem ranges over both unless it says otherwise. *)
Inductive profile := Debug | Release.

Definition on_overflow (p : profile) (wrapped : N) : outcome N :=
  match p with Debug => Fail Overflow | Release => Ret wrapped end.

(* a + b, a - b, a * b on an unsigned type of [w] bits; operands are < 2^w *)
Definition add_ (w : N) (p : profile) (a b : N) : outcome N :=
  if a + b <? 2 ^ w then Ret (a + b) else on_overflow p ((a + b) mod 2 ^ w).
Definition sub_ (w : N) (p : profile) (a b : N) : outcome N :=
  if b <=? a then Ret (a - b) else on_overflow p ((a + 2 ^ w - b) mod 2 ^ w).
Definition mul_ (w : N) (p : profile) (a b : N) : outcome N :=
  if a * b <? 2 ^ w then Ret (a * b) else on_overflow p ((a * b) mod 2 ^ w).
(* a << s on [w] bits: with checks on, s >= w panics; otherwise s is reduced mod w.
   Bits shifted out are lost silently in both profiles. *)
Definition shl_ (w : N) (p : profile) (a s : N) : outcome N :=
  if s <? w then Ret (N.shiftl a s mod 2 ^ w)
  else on_overflow p (N.shiftl a (s mod w) mod 2 ^ w).
Definition shr_ (w : N) (p : profile) (a s : N) : outcome N :=
  if s <? w then Ret (N.shiftr a s)
  else on_overflow p (N.shiftr a (s mod w)).
(* wrapping_add *)
Definition wrapping_add (w : N) (a b : N) : N := (a + b) mod 2 ^ w.
(* x as uW *)
Definition trunc (w : N) (a : N) : N := a mod 2 ^ w.

Definition U8MAX : N := 255.
Definition U64MAX : N := 18446744073709551615.

(* count_ones *)
Fixpoint pos_ones (p : positive) : N :=
  match p with xH => 1 | xO q => pos_ones q | xI q => 1 + pos_ones q end.
Definition count_ones (n : N) : N := match n with 0 => 0 | Npos p => pos_ones p end.
(* leading_zeros of a [w]-bit value *)
Definition leading_zeros (w n : N) : N := w - N.size n.
(* trailing_zeros of a [w]-bit value *)
Fixpoint pos_tz (p : positive) : N :=
  match p with xO q => 1 + pos_tz q | _ => 0 end.
Definition trailing_zeros (w n : N) : N := match n with 0 => w | Npos p => pos_tz p end.
(* is_power_of_two *)
Definition is_power_of_two (n : N) : bool := (count_ones n =? 1).

(* ------------------------------------------------------------------------- *)
(** * Arrays and vectors: lists with checked access *)

Definition get {A} (l : list A) (i : nat) : outcome A :=
  match nth_error l i with Some a => Ret a | None => Fail IndexOOB end.

Fixpoint set_nth {A} (l : list A) (i : nat) (v : A) : list A :=
  match l, i with
  | [], _ => []
  | _ :: l', O => v :: l'
  | x :: l', S i' => x :: set_nth l' i' v
  end.

(* l[i] = v *)
Definition upd {A} (l : list A) (i : nat) (v : A) : outcome (list A) :=
  if (i <? length l)%nat then Ret (set_nth l i v) else Fail IndexOOB.

(* l[i] = f(l[i]) where f may panic *)
Definition updf {A} (l : list A) (i : nat) (f : A -> outcome A) : outcome (list A) :=
  x <- get l i ;; y <- f x ;; upd l i y.

(* a..b over naturals, and over N *)
Definition range (a b : nat) : list nat := seq a (b - a).
Fixpoint nseq (a : N) (len : nat) : list N :=
  match len with O => [] | S k => a :: nseq (N.succ a) k end.

(* ------------------------------------------------------------------------- *)
(** * Read-only lookup tables

   A table is a list literal; it is read through a binary trie so that the kernel can
   evaluate reads quickly.  [table_get_spec] (BaseProofs.v) shows that a read of index i
   is the i-th element of the list. *)

Definition table (A : Type) := PositiveMap.t A.

Fixpoint table_from {A} (l : list A) (i : N) (t : table A) : table A :=
  match l with
  | [] => t
  | x :: l' => table_from l' (N.succ i) (PositiveMap.add (N.succ_pos i) x t)
  end.

Definition table_of {A} (l : list A) : table A := table_from l 0 (PositiveMap.empty A).

Definition table_get {A} (t : table A) (i : N) : option A :=
  PositiveMap.find (N.succ_pos i) t.

(* *T.get_unchecked(i) : no check in the code, so reading outside is undefined behaviour *)
Definition unchecked {A} (t : table A) (i : N) : outcome A :=
  match table_get t i with Some v => Ret v | None => Fail UnsafeOOB end.

(* ------------------------------------------------------------------------- *)
(** * Characters: a Rust [char] is a Unicode scalar value, here its code point *)

Definition char := N.

Definition char_of_ascii (a : ascii) : char := N_of_ascii a.
(* a string literal as a list of chars *)
Fixpoint chars (s : string) : list char :=
  match s with
  | EmptyString => []
  | String a s' => char_of_ascii a :: chars s'
  end.

Arguments chars s%string.

Fixpoint chars_eqb (a b : list char) : bool :=
  match a, b with
  | [], [] => true
  | x :: a', y :: b' => (x =? y) && chars_eqb a' b'
  | _, _ => false
  end.
