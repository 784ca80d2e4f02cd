(* IEEE-754 binary64 arithmetic (Rust f64), as the executable specification floats of
   Coq's standard library (Coq.Floats.SpecFloat): axiom-free, round to nearest even. *)
From Coq Require Import Floats.SpecFloat.
From Verif Require Import Base.
Local Open Scope Z_scope.

Definition f64 : Type := spec_float.
Definition prec64 : Z := 53.
Definition emax64 : Z := 1024.

Definition f_zero : f64 := S754_zero false.
Definition f_add (x y : f64) : f64 := SFadd prec64 emax64 x y.
Definition f_sub (x y : f64) : f64 := SFsub prec64 emax64 x y.
Definition f_mul (x y : f64) : f64 := SFmul prec64 emax64 x y.
Definition f_div (x y : f64) : f64 := SFdiv prec64 emax64 x y.
Definition f_sqrt (x : f64) : f64 := SFsqrt prec64 emax64 x.
Definition f_ltb (x y : f64) : bool := SFltb x y.

(* u64 as f64, u128 as f64 *)
Definition f_of_N (n : N) : f64 := binary_normalize prec64 emax64 (Z.of_N n) 0 false.

(* the literal 1e-9: 0x3E112E0BE826D695 = 0x112E0BE826D695 * 2^-82 *)
Definition f_1e_9 : f64 := S754_finite false 0x112E0BE826D695 (-82).

(* f64 as u8: truncation towards zero, saturating; NaN is 0 *)
Definition f_to_u8 (x : f64) : N :=
  match x with
  | S754_zero _ => 0%N
  | S754_nan => 0%N
  | S754_infinity true => 0%N
  | S754_infinity false => 255%N
  | S754_finite true _ _ => 0%N
  | S754_finite false m e => N.min 255 (Z.to_N (Z.shiftl (Z.pos m) e))
  end.

Definition f_is_nan (x : f64) : bool := match x with S754_nan => true | _ => false end.
