(* C32: division by a precomputed divisor. *)
From Verif Require Import Base FastDivide FastDivideProofs.
Local Open Scope N_scope.

(* C32: in both build profiles, for every non-zero 64-bit divisor the preprocessing succeeds
   and the result divides every 64-bit number exactly, without overflow. *)
Theorem C32_fastdivide_exact : forall (p : profile) (d : N), 0 < d -> d < 2 ^ 64 ->
  exists dv, divide_by p d = Ret dv /\ forall n, n < 2 ^ 64 -> divide p dv n = Ret (n / d).
Proof. exact divide_by_ok. Qed.

(* a divisor that needs the general path, the largest dividend *)
Example C32_example :
  divide_by Debug 7 = Ret (General 2635249153387078803 2) /\
  divide Debug (General 2635249153387078803 2) 18446744073709551615 = Ret 2635249153387078802.
Proof. split; vm_compute; reflexivity. Qed.

(* C32: zero is rejected, in both profiles *)
Theorem C32_zero_rejected : forall p : profile, divide_by p 0 = Fail AssertFail.
Proof. exact divide_by_zero. Qed.

Print Assumptions C32_fastdivide_exact.
Print Assumptions C32_zero_rejected.
