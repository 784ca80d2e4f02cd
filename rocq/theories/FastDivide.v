(* Model of src/fastdivide.rs. *)
From Verif Require Import Base.
Local Open Scope N_scope.

(* fastdivide.rs:93-97 *)
Inductive divider :=
| Fast (magic shift : N)
| BitShift (shift : N)
| General (magic_low shift : N).

(* fastdivide.rs:100-104: (x as u128 * y as u128) >> 64, as u64 *)
Definition mullhi (x y : N) : N := trunc 64 (N.shiftr (x * y) 64).

(* fastdivide.rs:108-111 *)
Definition floor_log2 (n : N) : outcome N :=
  if n =? 0 then Fail AssertFail else Ret (63 - leading_zeros 64 n).

(* fastdivide.rs:114-123 *)
Definition power_of_2_division (divisor : N) : outcome (option divider) :=
  if divisor =? 0 then Ret None
  else if negb (is_power_of_two divisor) then Ret None
  else l <- floor_log2 divisor ;; Ret (Some (BitShift l)).

(* fastdivide.rs:125-145; u128 and u64 arithmetic *)
Definition fast_path (p : profile) (divisor : N) : outcome (option divider) :=
  if is_power_of_two divisor then Ret None
  else
    fl <- floor_log2 divisor ;;
    s <- add_ 8 p fl 64 ;;
    u <- shl_ 128 p 1 s ;;
    let proposed := u / divisor in
    pd <- mul_ 128 p proposed divisor ;;
    r128 <- sub_ 128 p u pd ;;
    let reminder := trunc 64 r128 in
    if negb ((0 <? reminder) && (reminder <? divisor)) then Fail AssertFail
    else
      e <- sub_ 64 p divisor reminder ;;
      lim <- shl_ 64 p 1 fl ;;
      if lim <=? e then Ret None
      else
        magic <- add_ 64 p (trunc 64 proposed) 1 ;;
        Ret (Some (Fast magic fl)).

(* fastdivide.rs:147-158 *)
Definition general_path (pr : profile) (divisor : N) : outcome divider :=
  p <- sub_ 8 pr 64 (leading_zeros 64 divisor) ;;
  s <- add_ 8 pr 63 p ;;
  e <- shl_ 128 pr 1 s ;;
  d <- sub_ 128 pr e divisor ;;
  n <- add_ 128 pr e d ;;
  m <- add_ 128 pr 2 (n / divisor) ;;
  sh <- sub_ 8 pr p 1 ;;
  Ret (General (trunc 64 m) sh).

(* fastdivide.rs:160-165 *)
Definition divide_by (p : profile) (divisor : N) : outcome divider :=
  if negb (0 <? divisor) then Fail AssertFail
  else
    o1 <- power_of_2_division divisor ;;
    match o1 with
    | Some d => Ret d
    | None =>
        o2 <- fast_path p divisor ;;
        match o2 with
        | Some d => Ret d
        | None => general_path p divisor
        end
    end.

(* fastdivide.rs:168-184 *)
Definition divide (p : profile) (dv : divider) (n : N) : outcome N :=
  match dv with
  | Fast magic shift => shr_ 64 p (mullhi magic n) shift
  | BitShift d => shr_ 64 p n d
  | General magic_low shift =>
      let q := mullhi magic_low n in
      d <- sub_ 64 p n q ;;
      let t := wrapping_add 64 (N.shiftr d 1) q in
      shr_ 64 p t shift
  end.
