(* Square roots and quotients, more precisely than in FloatSumProofs: the standard deviation
   of one batch and one empty batch. *)
From Coq Require Import Floats.SpecFloat QArith Qpower Lqa.
From Verif Require Import Base Float64 FloatProofs FloatSumProofs Sim ConvergeProofs EquityFloatProofs.
Local Open Scope Z_scope.

(* the square of the square root *)
Lemma sqrt_near f v j k : -100 <= j -> j <= k <= j + 50 -> k <= 100 -> is_num f v -> (B (2 * j) <= v)%Q -> (v <= B (2 * k))%Q ->
  exists z, is_num (f_sqrt f) z /\ (z * z <= v * (1 + (1 # 1000000000000)))%Q /\ (v <= z * z * (1 + (1 # 1000000000000)))%Q.
Proof.
  intros Hj Hjk Hk (m & e & Ef & C & Ev) L H. subst f. rewrite Ev in L, H. pose proof (num_exp _ _ _ _ C L H) as R. destruct C as [C1 C2].
  unfold f_sqrt, prec64, emax64. cbn [SFsqrt]. unfold SFsqrt_core_binary. cbn [Zdigits2]. rewrite (digits_eq m 53) by lia.
  set (e' := Z.min (fexp 53 1024 (Z.div2 (53 + e + 1))) (Z.div2 e)).
  assert (Ee : e' = (54 + e) / 2 - 53).
  { unfold e'. rewrite !Z.div2_div. replace (53 + e + 1) with (54 + e) by lia.
    assert (Hq : (54 + e) / 2 = e / 2 + 27) by (replace (54 + e) with (e + 27 * 2) by lia; apply Z.div_add; lia).
    rewrite Hq. assert (-400 <= e / 2) by (apply Z.div_le_lower_bound; lia). assert (e / 2 <= 300) by (apply Z.div_le_upper_bound; lia).
    unfold fexp, SpecFloat.emin. lia. }
  clearbody e'. assert (Hs : 52 <= e - 2 * e' <= 53).
  { rewrite Ee. pose proof (Z.div_mod (54 + e) 2 ltac:(lia)) as K1. pose proof (Z.mod_pos_bound (54 + e) 2 ltac:(lia)) as K2. lia. }
  set (s := e - 2 * e') in *. assert (Em : (match s with Z0 => Z.pos m | Z.pos _ => Z.shiftl (Z.pos m) s | Z.neg _ => 0 end) = Z.pos m * 2 ^ s).
  { destruct s as [|q|q]; [lia| |lia]. rewrite Z.shiftl_mul_pow2 by lia. reflexivity. }
  rewrite Em. assert (Ps : 2 ^ 52 <= 2 ^ s <= 2 ^ 53) by (split; apply Z.pow_le_mono_r; lia).
  assert (Hsq := Z.sqrtrem_spec (Z.pos m * 2 ^ s) ltac:(nia)). destruct (Z.sqrtrem (Z.pos m * 2 ^ s)) as [q r]. destruct Hsq as [Hq Hr].
  assert (HM : 2 ^ 104 <= Z.pos m * 2 ^ s < 2 ^ 106).
  { change (2 ^ 104) with (2 ^ 52 * 2 ^ 52). change (2 ^ 106) with (2 ^ 53 * 2 ^ 53). nia. }
  assert (Hq0 : 0 <= q) by lia.
  assert (Hq52 : 2 ^ 52 <= q < 2 ^ 53).
  { split.
    - destruct (Z_le_gt_dec (2 ^ 52) q) as [Lq|Gq]; [exact Lq|]. exfalso. change (2 ^ 104) with (2 ^ 52 * 2 ^ 52) in HM. nia.
    - destruct (Z_lt_le_dec q (2 ^ 53)) as [Lq|Gq]; [exact Lq|]. exfalso. change (2 ^ 106) with (2 ^ 53 * 2 ^ 53) in HM. nia. }
  set (l := if Zeq_bool r 0 then loc_Exact else loc_Inexact (if r <=? q then Lt else Gt)).
  (* a number with the same place between its neighbours as the square root *)
  set (x := ((inject_Z q + match l with loc_Exact => 0 | loc_Inexact Lt => 1 # 4 | _ => 3 # 4 end) * B e')%Q).
  pose proof (B_pos e') as Hb.
  assert (Hrec : rec_ok x e' (shr_record_of_loc q l)).
  { split; [destruct l as [|[]]; cbn [shr_record_of_loc shr_m]; lia|].
    assert (Ex : (x * B (- e') == inject_Z q + match l with loc_Exact => 0 | loc_Inexact Lt => 1 # 4 | _ => 3 # 4 end)%Q).
    { unfold x. rewrite <- Qmult_assoc, B_opp. ring. }
    revert Ex. generalize (x * B (- e'))%Q. intros y Ey. unfold l in *.
    destruct (Zeq_bool r 0); [cbn [shr_record_of_loc shr_m shr_r shr_s at_rec]; lra|].
    destruct (r <=? q); cbn [shr_record_of_loc shr_m shr_r shr_s at_rec]; lra. }
  assert (E1 : (inject_Z (Z.pos m * 2 ^ s) * B (2 * e') == V (Z.pos m) e)%Q).
  { unfold V. rewrite inject_Z_mult, <- (B_Z s) by lia. rewrite <- Qmult_assoc, <- B_add. replace (s + 2 * e') with e by (unfold s; lia). reflexivity. }
  assert (Hdig : Zdigits2 q <= 53).
  { destruct q as [|q|q]; [lia| |lia]. cbn [Zdigits2]. rewrite (digits_eq q 53) by lia. lia. }
  assert (He' : -230 <= e' <= 150) by (rewrite Ee; assert (-150 <= (54 + e) / 2) by (apply Z.div_le_lower_bound; lia); assert ((54 + e) / 2 <= 200) by (apply Z.div_le_upper_bound; lia); lia).
  destruct (round_aux_ok x q e' l Hrec) as (m' & e1 & E & N & Cm & _); [lia|lia|lia|].
  assert (Fq : F (inject_Z q * B e')) by (exists q, e'; split; [lia|reflexivity]).
  assert (Fq1 : F (inject_Z (q + 1) * B e')) by (exists (q + 1), e'; split; [lia|reflexivity]).
  assert (Hx : (inject_Z q * B e' <= x /\ x <= inject_Z (q + 1) * B e')%Q).
  { unfold x. rewrite inject_Z_plus. change (inject_Z 1) with 1%Q. split; (apply Qmult_le_compat_r; [|lra]); destruct l as [|[]]; lra. }
  pose proof (nearest_le _ _ _ N Fq (proj1 Hx)) as Z1. pose proof (nearest_ge _ _ _ N Fq1 (proj2 Hx)) as Z2.
  exists (V (Z.pos m') e1). split; [exists m', e1; split; [exact E|split; [exact Cm|reflexivity]]|].
  set (z := V (Z.pos m') e1) in *. rewrite Ev.
  assert (E4 : (B (2 * e') == B e' * B e')%Q) by (rewrite <- B_add; replace (e' + e') with (2 * e') by lia; reflexivity).
  assert (M1 : (inject_Z q * inject_Z q <= inject_Z (Z.pos m * 2 ^ s))%Q) by (rewrite <- inject_Z_mult, <- Zle_Qle; lia).
  assert (M2 : (inject_Z (Z.pos m * 2 ^ s) <= inject_Z (q + 1) * inject_Z (q + 1))%Q) by (rewrite <- inject_Z_mult, <- Zle_Qle; lia).
  assert (Q52 : (inject_Z (2 ^ 52) <= inject_Z q)%Q) by (rewrite <- Zle_Qle; lia). change (inject_Z (2 ^ 52)) with 4503599627370496%Q in Q52.
  rewrite inject_Z_plus in *. change (inject_Z 1) with 1%Q in *. rewrite <- E1, E4.
  set (Q := inject_Z q) in *. set (M := inject_Z (Z.pos m * 2 ^ s)) in *. set (b := B e') in *. clearbody z Q M b. clear - Z1 Z2 M1 M2 Q52 Hb.
  assert (Zp : (0 <= z)%Q) by nra. assert (Qb : (0 <= Q * b)%Q) by nra.
  assert (S1 : (Q * b * (Q * b) <= z * z)%Q) by nra.
  assert (S2 : (z * z <= (Q + 1) * b * ((Q + 1) * b))%Q) by nra.
  assert (Bb : (0 <= b * b)%Q) by nra.
  assert (T : ((Q + 1) * (Q + 1) <= Q * Q * (1 + (1 # 1000000000000)))%Q) by nra.
  split.
  - apply Qle_trans with (1 := S2). assert (X : ((Q + 1) * (Q + 1) <= M * (1 + (1 # 1000000000000)))%Q) by nra. nra.
  - assert (X : (M <= Q * Q * (1 + (1 # 1000000000000)))%Q) by lra.
    apply Qle_trans with (Q * b * (Q * b) * (1 + (1 # 1000000000000)))%Q; [nra|]. nra.
Qed.

(* ------------------------------------------------------------------------- *)
(** * One batch and one empty batch *)

Lemma two_num : is_num (f_add (f_add f_zero f_1) f_1) 2.
Proof. exists 4503599627370496%positive, (-51). split; [vm_compute; reflexivity|]. split; [unfold canon; lia|reflexivity]. Qed.
Lemma nano_close : ((999 # 1000000000000) <= nano)%Q /\ (nano <= 1001 # 1000000000000)%Q.
Proof. split; vm_compute; discriminate. Qed.
Local Notation eps := (1 # 4503599627370496)%Q.

(* the batch equity: a of h, with 1e-9 added to h *)
Lemma batch_quotient (a h : N) : (0 < a)%N -> (a <= h)%N -> (h <= 2 ^ 53)%N -> let s := (inject_Z (Z.of_N a) / inject_Z (Z.of_N h))%Q in
  exists v, is_num (f_div (f_of_N a) (f_add (f_of_N h) f_1e_9)) v /\ (s * (1 - (1 # 100000000)) <= v)%Q /\ (v <= s * (1 + (1 # 100000000)))%Q.
Proof.
  intros Ha Hh H53 s. pose proof (int_float a ltac:(lia)) as Na. pose proof (int_float h ltac:(lia)) as Nh.
  set (x := inject_Z (Z.of_N a)) in *. set (y := inject_Z (Z.of_N h)) in *.
  assert (X1 : (1 <= x)%Q) by (change 1%Q with (inject_Z 1); unfold x; rewrite <- Zle_Qle; lia).
  assert (XY : (x <= y)%Q) by (unfold x, y; rewrite <- Zle_Qle; lia).
  assert (Y53 : (y <= B 53)%Q) by (rewrite (B_Z 53) by lia; unfold y; rewrite <- Zle_Qle; lia).
  destruct nano_close as [N1 N2].
  assert (C1 : (B (-30) <= 1)%Q) by (vm_compute; discriminate). assert (C2 : (1 <= B 53)%Q) by (vm_compute; discriminate). destruct nano_range as [N3 _].
  destruct (add_ok_range (f_of_N h) f_1e_9 y nano (-30) 53 ltac:(lia) ltac:(lia) ltac:(lia) Nh nano_num) as (d & Hd); try lra.
  assert (D1 : (y <= d)%Q) by (apply (nearest_le _ _ _ (proj2 Hd)); [exact (num_F _ _ Nh)|lra]).
  pose proof (rounded_up _ _ _ Hd) as D2.
  assert (M200 : (B (-200) <= 1)%Q) by (vm_compute; discriminate). assert (P54 : (B 53 * 2 <= B 200)%Q) by (vm_compute; discriminate).
  assert (D3 : (d <= y * (1 + (2 # 1000000000)))%Q) by lra.
  destruct (div_ok _ _ x d Na (proj1 Hd)) as (v & Hv); [split; lra|split; lra|].
  exists v. split; [exact (proj1 Hv)|]. pose proof (rounded_up _ _ _ Hv) as V1. pose proof (rounded_down _ _ _ Hv) as V2.
  assert (Ex : (s * y == x)%Q) by (unfold s; field; lra). assert (Ed : (x / d * d == x)%Q) by (field; lra).
  assert (S0 : (0 < s)%Q) by (unfold s; apply Qlt_shift_div_l; lra).
  set (q := (x / d)%Q) in *. assert (Q0 : (0 < q)%Q) by (unfold q; apply Qlt_shift_div_l; lra).
  assert (Q1 : (q <= s)%Q).
  { destruct (Qlt_le_dec s q) as [L|L]; [exfalso|exact L]. nra. }
  assert (Q2 : (s <= q * (1 + (2 # 1000000000)))%Q).
  { destruct (Qlt_le_dec (q * (1 + (2 # 1000000000))) s) as [L|L]; [exfalso|exact L].
    assert (L1 : (q * d <= q * (y * (1 + (2 # 1000000000))))%Q) by nra. nra. }
  split; nra.
Qed.

Lemma two_batches (a h : N) : (0 < a)%N -> (a <= h)%N -> (h <= 2 ^ 53)%N -> (h <= 1000 * a)%N ->
  let s := (inject_Z (Z.of_N a) / inject_Z (Z.of_N h))%Q in let e := f_div (f_of_N a) (f_add (f_of_N h) f_1e_9) in
  exists w, is_num (batch_stdev (f_add (f_add f_zero e) f_zero) (f_add (f_add f_zero (f_mul e e)) (f_mul f_zero f_zero)) (f_add (f_add f_zero f_1) f_1)) w /\
    ((353 # 1000) * s <= w)%Q /\ (w <= (354 # 1000) * s)%Q.
Proof.
  intros Ha Hh H53 H1000 s e. destruct (batch_quotient a h Ha Hh H53) as (v & Hv & V1 & V2). fold s in V1, V2. fold e in Hv.
  assert (S1 : (s <= 1)%Q).
  { unfold s. apply Qle_shift_div_r; [change 0%Q with (inject_Z 0); rewrite <- Zlt_Qlt; lia|]. rewrite Qmult_1_l, <- Zle_Qle. lia. }
  assert (S2 : ((1 # 1000) <= s)%Q).
  { unfold s. apply Qle_shift_div_l; [change 0%Q with (inject_Z 0); rewrite <- Zlt_Qlt; lia|]. assert (L : (inject_Z (Z.of_N h) <= inject_Z (1000 * Z.of_N a))%Q) by (rewrite <- Zle_Qle; lia).
    rewrite inject_Z_mult in L. change (inject_Z 1000) with 1000%Q in L. lra. }
  clearbody s e. clear Ha Hh H53 H1000 a h.
  assert (M1 : (B (-200) <= 1 # 1000000000)%Q) by (vm_compute; discriminate). assert (M2 : (2 <= B 200)%Q) by (vm_compute; discriminate).
  destruct (mul_ok e e v v Hv Hv) as (u & Hu); [split; lra|split; lra|].
  pose proof (rounded_up _ _ _ Hu) as U1. pose proof (rounded_down _ _ _ Hu) as U2.
  unfold batch_stdev. change (f_mul f_zero f_zero) with f_zero. rewrite (num_add e v Hv), (add_zero_r e v Hv), (num_add _ _ (proj1 Hu)), (add_zero_r _ _ (proj1 Hu)).
  set (t := (s * s)%Q). assert (T0 : ((1 # 1000000) <= t)%Q) by (unfold t; nra). assert (T1 : (t <= 1)%Q) by (unfold t; nra).
  assert (VV1 : (t * (1 - (3 # 100000000)) <= v * v)%Q) by (unfold t; nra). assert (VV2 : (v * v <= t * (1 + (3 # 100000000)))%Q) by (unfold t; nra).
  assert (U3 : (t * (1 - (4 # 100000000)) <= u)%Q) by lra. assert (U4 : (u <= t * (1 + (4 # 100000000)))%Q) by lra.
  destruct nano_close as [N1 N2]. destruct nano_range as [N3 _]. assert (C0 : (B (-30) <= 1 # 1000000000)%Q) by (vm_compute; discriminate).
  assert (C1 : (3 <= B 5)%Q) by (vm_compute; discriminate).
  destruct (add_ok_range f_1e_9 (f_mul e e) nano u (-30) 5 ltac:(lia) ltac:(lia) ltac:(lia) nano_num (proj1 Hu)) as (b & Hb); try lra.
  pose proof (rounded_up _ _ _ Hb) as A1. pose proof (rounded_down _ _ _ Hb) as A2.
  pose proof two_num as N22. set (two := f_add (f_add f_zero f_1) f_1) in *. clearbody two.
  destruct (div_ok _ two u 2 (proj1 Hu) N22) as (c & Hc); [split; lra|split; lra|].
  assert (Eh : (u / 2 == u * (1 # 2))%Q) by field.
  pose proof (rounded_up _ _ _ Hc) as K1. pose proof (rounded_down _ _ _ Hc) as K2. rewrite Eh in K1, K2.
  destruct (sub_ok_range _ _ b c (-30) 5 ltac:(lia) ltac:(lia) ltac:(lia) (proj1 Hb) (proj1 Hc)) as [[_ E0]|(D & HD & _)]; try lra.
  pose proof (rounded_up _ _ _ HD) as D1. pose proof (rounded_down _ _ _ HD) as D2.
  assert (D3 : (t * (49999 # 100000) <= D)%Q) by lra. assert (D4 : (D <= t * (50102 # 100000))%Q) by lra.
  assert (C2 : (B (2 * -15) <= 1 # 1000000000)%Q) by (vm_compute; discriminate). assert (C3 : (1 <= B (2 * 2))%Q) by (vm_compute; discriminate).
  destruct (sqrt_near _ D (-15) 2 ltac:(lia) ltac:(lia) ltac:(lia) (proj1 HD)) as (z & Hz & Z1 & Z2); [lra|lra|].
  pose proof (num_pos _ _ Hz) as Zp.
  assert (Z3 : (z * z <= t * (50103 # 100000))%Q) by lra. assert (Z4 : (t * (49998 # 100000) <= z * z)%Q) by lra.
  assert (Z5 : (z <= s * (70784 # 100000))%Q).
  { destruct (Qlt_le_dec (s * (70784 # 100000)) z) as [L|L]; [exfalso|exact L]. assert (L2 : (s * (70784 # 100000) * (s * (70784 # 100000)) <= z * z)%Q) by nra. unfold t in *. nra. }
  assert (Z6 : (s * (70700 # 100000) <= z)%Q).
  { destruct (Qlt_le_dec z (s * (70700 # 100000))) as [L|L]; [exfalso|exact L]. assert (L2 : (z * z <= s * (70700 # 100000) * (s * (70700 # 100000)))%Q) by nra. unfold t in *. nra. }
  destruct (div_ok _ two z 2 Hz N22) as (w & Hw); [split; lra|split; lra|]. exists w. split; [exact (proj1 Hw)|].
  assert (Ez : (z / 2 == z * (1 # 2))%Q) by field.
  pose proof (rounded_up _ _ _ Hw) as W1. pose proof (rounded_down _ _ _ Hw) as W2. rewrite Ez in W1, W2. split; lra.
Qed.
