(* The first batch of an approximate run always seems to have converged. *)
From Coq Require Import Floats.SpecFloat QArith Qpower Lqa.
From Verif Require Import Base BaseProofs Float64 FloatProofs FloatSumProofs Hand FastDivide Range Combined Sim.
Local Open Scope Z_scope.

(* ------------------------------------------------------------------------- *)
(** * The standard deviation after one batch *)

Lemma one_num : is_num f_1 1.
Proof. exists 4503599627370496%positive, (-52). split; [reflexivity|]. split; [unfold canon; lia|reflexivity]. Qed.
Lemma hundred_num : is_num f_100 100.
Proof. exists 7036874417766400%positive, (-46). split; [reflexivity|]. split; [unfold canon; lia|reflexivity]. Qed.
Definition nano : Q := V 0x112E0BE826D695 (-82).
Lemma nano_num : is_num f_1e_9 nano.
Proof. exists 0x112E0BE826D695%positive, (-82). split; [reflexivity|]. split; [unfold canon; lia|reflexivity]. Qed.
Lemma nano_range : (B (-30) <= nano)%Q /\ (nano <= (31 # 32) * B (-29))%Q.
Proof. split; vm_compute; discriminate. Qed.

Lemma div_one f v : is_num f v -> mid_range v -> exists w, is_num (f_div f f_1) w /\ (w == v)%Q.
Proof.
  intros Hf Hv. destruct (div_ok f f_1 v 1 Hf one_num Hv) as (z & Hz); [split; vm_compute; discriminate|].
  exists z. split; [exact (proj1 Hz)|]. assert (E : (v / 1 == v)%Q) by field.
  rewrite <- E. apply (rounded_exact _ _ _ Hz). destruct (num_F _ _ Hf) as (m & e & Hm & Em). exists m, e. split; [exact Hm|]. rewrite E. exact Em.
Qed.

(* the standard deviation lies between 2^-16 and 2^-14 *)
Definition tiny (s : f64) : Prop := exists v, is_num s v /\ (B (-16) <= v)%Q /\ (v <= B (-14))%Q.

Lemma deviation q u : is_num q u -> (B (-132) <= u)%Q -> (u <= B 4)%Q ->
  tiny (f_div (f_sqrt (f_sub (f_add f_1e_9 q) (f_div q f_1))) f_1).
Proof.
  intros Hq L H. destruct nano_range as [N1 N2].
  assert (Bs : (B (-132) <= B (-30))%Q /\ (B (-29) <= B 4)%Q /\ (B 4 + B 4 == B 5)%Q /\ (B (-29) * (31 # 32) + B 5 * (1 # 9007199254740992) <= B (-28))%Q /\
               (B (-32) + B 5 * (1 # 9007199254740992) <= B (-30))%Q /\ (0 < B (-29))%Q /\ (0 < B (-32))%Q).
  { repeat split; vm_compute; try discriminate; reflexivity. }
  destruct Bs as (B1 & B3 & B4 & B5 & B6 & B7 & B8).
  destruct (add_ok_range f_1e_9 q nano u (-132) 5) as (a & Ha); try lia; try assumption; try exact nano_num; try lra.
  pose proof (num_F _ _ Hq) as Fq.
  assert (Ha1 : (u <= a)%Q) by (apply (nearest_le _ _ _ (proj2 Ha)); [exact Fq|pose proof (num_pos _ _ nano_num); lra]).
  assert (Ha2 : (a <= B 5)%Q) by (apply (nearest_ge _ _ _ (proj2 Ha)); [apply F_B|lra]).
  destruct (rounded_err _ _ _ Ha) as [R1 R2]. rewrite B53_small in R1, R2.
  destruct (div_one q u Hq) as (q' & Hq' & Eq'); [split; [apply Qle_trans with (2 := L); apply B_le; lia|apply Qle_trans with (1 := H); apply B_le; lia]|].
  assert (D1 : (a - q' <= B (-28))%Q) by lra. assert (D2 : (B (-32) <= a - q')%Q) by lra.
  destruct (sub_ok_range (f_add f_1e_9 q) (f_div q f_1) a q' (-132) 5) as [[_ E0]|(D & HD & _)]; try lia; try assumption; try lra; [exact (proj1 Ha)|].
  assert (D3 : (D <= B (-28))%Q) by (apply (nearest_ge _ _ _ (proj2 HD)); [apply F_B|exact D1]).
  assert (D4 : (B (-32) <= D)%Q) by (apply (nearest_le _ _ _ (proj2 HD)); [apply F_B|exact D2]).
  destruct (sqrt_ok _ D (-16) (-14) ltac:(lia) ltac:(lia) ltac:(lia) (proj1 HD) D4 D3) as (s & Hs & S1 & S2).
  destruct (div_one _ s Hs) as (w & Hw & Ew).
  { split; [apply Qle_trans with (2 := S1)|apply Qle_trans with (1 := S2)]; apply B_le; lia. }
  exists w. split; [exact Hw|]. split; lra.
Qed.

(* a batch equity: zero or a number up to 4 *)
Definition share_of_one (e : f64) : Prop := e = f_zero \/ exists v, is_num e v /\ (B (-66) <= v)%Q /\ (v <= B 2)%Q.
Lemma num_add f v : is_num f v -> f_add f_zero f = f.
Proof. intros (m & e & -> & _). reflexivity. Qed.
Lemma first_deviation e : share_of_one e ->
  tiny (batch_stdev (f_add f_zero e) (f_add f_zero (f_mul e e)) (f_add f_zero f_1)).
Proof.
  intros [->|(v & Hv & L & H)].
  - assert (E : exists m e, batch_stdev (f_add f_zero f_zero) (f_add f_zero (f_mul f_zero f_zero)) (f_add f_zero f_1) = S754_finite false m e /\ canon m /\
      (B (-16) <= V (Z.pos m) e)%Q /\ (V (Z.pos m) e <= B (-14))%Q).
    { eexists _, _. split; [vm_compute; reflexivity|]. split; [unfold canon; lia|]. split; vm_compute; discriminate. }
    destruct E as (m & e & E & C & L & H). exists (V (Z.pos m) e). split; [|split; assumption]. exists m, e. split; [exact E|]. split; [exact C|reflexivity].
  - assert (Hm : mid_range v) by (split; [apply Qle_trans with (2 := L)|apply Qle_trans with (1 := H)]; apply B_le; lia).
    destruct (mul_ok e e v v Hv Hv Hm Hm) as (u & Hu).
    assert (Bs : (B (-132) == B (-66) * B (-66))%Q /\ (B 4 == B 2 * B 2)%Q /\ (0 < B (-66))%Q) by (split; [exact (B_add (-66) (-66))|split; [exact (B_add 2 2)|apply B_pos]]).
    destruct Bs as (B1 & B2 & B3).
    unfold batch_stdev. rewrite (num_add e v Hv), (num_add f_1 1 one_num), (num_add _ _ (proj1 Hu)). apply (deviation _ u).
    + exact (proj1 Hu).
    + apply (nearest_le _ _ _ (proj2 Hu)); [apply F_B|]. nra.
    + apply (nearest_ge _ _ _ (proj2 Hu)); [apply F_B|]. nra.
Qed.

(* ------------------------------------------------------------------------- *)
(** * Comparison with the target *)

Definition f_2_14 : f64 := S754_finite false 4503599627370496 (-66).
Lemma tiny_ltb s target : tiny s -> f_ltb f_2_14 target = true -> f_ltb s target = true.
Proof.
  intros (v & (m & e & -> & [C1 C2] & Ev) & L & H) Ht. unfold f_ltb, SFltb, f_2_14 in *.
  assert (Hc : canon m) by (split; assumption). rewrite Ev in L, H. pose proof (num_exp _ _ _ _ Hc L H) as R.
  destruct target as [b|b| |b m2 e2]; cbn [SFcompare] in *; try discriminate; try (destruct b; discriminate).
  - destruct b; [discriminate|reflexivity].
  - destruct b; [discriminate|]. change ((-66 ?= e2)%Z) with (Z.compare (-66) e2) in Ht. destruct (Z.compare_spec (-66) e2) as [E|E|E]; [|clear Ht|discriminate].
    + subst e2. change (Pcompare 4503599627370496 m2 Eq) with (Pos.compare 4503599627370496 m2) in Ht. destruct (Pos.compare_spec 4503599627370496 m2) as [E|E|E]; try discriminate.
      destruct (Z.compare_spec e (-66)) as [E2|E2|E2]; [|reflexivity|lia]. subst e. change (Pcompare m m2 Eq) with (Pos.compare m m2).
      assert (Hm : Z.pos m <= 2 ^ 52).
      { rewrite Zle_Qle. apply Qmult_le_r with (B (-66)); [apply B_pos|]. unfold V in H. rewrite <- (B_Z 52) by lia. rewrite <- B_add. exact H. }
      assert (m < m2)%positive by lia. destruct (Pos.compare_spec m m2); [lia|reflexivity|lia].
    + destruct (Z.compare_spec e e2) as [E2|E2|E2]; [lia|reflexivity|lia].
Qed.

(* targets from 2^-13 to 2^60 *)
Definition usual_target (t : f64) : Prop := exists m e, t = S754_finite false m e /\ 2 ^ 52 <= Z.pos m < 2 ^ 53 /\ -65 <= e <= 7.
Lemma usual_ltb t : usual_target t -> f_ltb f_2_14 t = true.
Proof.
  intros (m & e & -> & _ & He). unfold f_ltb, SFltb, f_2_14. cbn [SFcompare]. destruct (Z.compare_spec (-66) e); [lia|reflexivity|lia].
Qed.
Lemma tiny_progress s t : tiny s -> usual_target t -> approx_progress s t = 255%N.
Proof.
  intros (v & Hv & L & H) (m & e & -> & C & He). set (w := V (Z.pos m) e).
  assert (Hw : is_num (S754_finite false m e) w) by (exists m, e; split; [reflexivity|split; [exact C|reflexivity]]).
  assert (W1 : (B (-13) <= w)%Q).
  { apply Qle_trans with (B (e + 52)); [apply B_le; lia|]. unfold w, V. rewrite B_add, (B_Z 52), Qmult_comm by lia.
    apply Qmult_le_compat_r; [rewrite <- Zle_Qle; lia|]. apply Qlt_le_weak, B_pos. }
  assert (W2 : (w <= B 60)%Q).
  { apply Qle_trans with (B (e + 53)); [|apply B_le; lia]. unfold w, V. rewrite B_add, (B_Z 53), (Qmult_comm (B e)) by lia.
    apply Qmult_le_compat_r; [rewrite <- Zle_Qle; lia|]. apply Qlt_le_weak, B_pos. }
  assert (Mr : forall x a b, -200 <= a -> b <= 200 -> (B a <= x)%Q -> (x <= B b)%Q -> mid_range x).
  { intros x a b Ha Hb H1 H2. split; [apply Qle_trans with (2 := H1)|apply Qle_trans with (1 := H2)]; apply B_le; lia. }
  pose proof (num_pos _ _ Hv) as Pv. pose proof (num_pos _ _ Hw) as Pw. clearbody w.
  unfold approx_progress. cbv zeta.
  destruct (div_ok _ _ v w Hv Hw) as (r & Hr); [apply (Mr v (-16) (-14)); lia || assumption|apply (Mr w (-13) 60); lia || assumption|].
  assert (Br : (B (-76) <= v / w)%Q /\ (v / w <= B (-1))%Q).
  { assert (E1 : (B (-76) * B 60 == B (-16))%Q) by (symmetry; apply (B_eq_mul (-76) 60); lia).
    assert (E2 : (B (-1) * B (-13) == B (-14))%Q) by (symmetry; apply (B_eq_mul (-1) (-13)); lia).
    pose proof (B_pos (-76)). pose proof (B_pos (-1)).
    split; [apply Qle_shift_div_l|apply Qle_shift_div_r]; try exact Pw; nra. }
  assert (R1 : (B (-76) <= r)%Q) by (apply (nearest_le _ _ _ (proj2 Hr)); [apply F_B|apply Br]).
  assert (R2 : (r <= B (-1))%Q) by (apply (nearest_ge _ _ _ (proj2 Hr)); [apply F_B|apply Br]).
  pose proof (num_pos _ _ (proj1 Hr)) as Pr.
  destruct (mul_ok _ _ r r (proj1 Hr) (proj1 Hr)) as (q & Hq); [apply (Mr r (-76) (-1)); lia || assumption|apply (Mr r (-76) (-1)); lia || assumption|].
  assert (Bq : (B (-152) <= r * r)%Q /\ (r * r <= B (-2))%Q).
  { assert (E1 : (B (-76) * B (-76) == B (-152))%Q) by (symmetry; apply (B_eq_mul (-76) (-76)); lia).
    assert (E2 : (B (-1) * B (-1) == B (-2))%Q) by (symmetry; apply (B_eq_mul (-1) (-1)); lia).
    pose proof (B_pos (-76)). split; nra. }
  assert (Q1 : (B (-152) <= q)%Q) by (apply (nearest_le _ _ _ (proj2 Hq)); [apply F_B|apply Bq]).
  assert (Q2 : (q <= B (-2))%Q) by (apply (nearest_ge _ _ _ (proj2 Hq)); [apply F_B|apply Bq]).
  pose proof (num_pos _ _ (proj1 Hq)) as Pq.
  destruct (div_ok _ _ 1 q one_num (proj1 Hq)) as (d & Hd); [apply (Mr 1%Q 0 0); lia || (vm_compute; discriminate)|apply (Mr q (-152) (-2)); lia || assumption|].
  assert (Bd : (B 2 <= 1 / q)%Q /\ (1 / q <= B 152)%Q).
  { assert (E1 : (B 2 * B (-2) == 1)%Q) by (apply (B_opp 2)). assert (E2 : (B 152 * B (-152) == 1)%Q) by (apply (B_opp 152)).
    pose proof (B_pos 2). pose proof (B_pos 152).
    split; [apply Qle_shift_div_l|apply Qle_shift_div_r]; try exact Pq; nra. }
  assert (D1 : (B 2 <= d)%Q) by (apply (nearest_le _ _ _ (proj2 Hd)); [apply F_B|apply Bd]).
  assert (D2 : (d <= B 152)%Q) by (apply (nearest_ge _ _ _ (proj2 Hd)); [apply F_B|apply Bd]).
  destruct (mul_ok _ _ d 100 (proj1 Hd) hundred_num) as (x & Hx); [apply (Mr d 2 152); lia || assumption|apply (Mr 100%Q 0 7); lia || (vm_compute; discriminate)|].
  apply (to_u8_big _ x (proj1 Hx)). apply (nearest_le _ _ _ (proj2 Hx)); [apply (F_Z 255); lia|].
  assert (E4 : (B 2 == 4)%Q) by reflexivity. lra.
Qed.

(* ------------------------------------------------------------------------- *)
(** * The equity of a batch *)

(* after [k] additions: at most the hands counted, up to rounding *)
Definition eq_ok (k : nat) (H : N) (e : f64) : Prop :=
  e = f_zero \/ exists v, is_num e v /\ (1 <= v)%Q /\
    (v <= inject_Z (Z.of_N H) * (1 + inject_Z (Z.of_nat k + 1) * (1 # 2251799813685248)))%Q.

Lemma eq_ok_more k k' H H' e : eq_ok k H e -> (k <= k')%nat -> (H <= H')%N -> eq_ok k' H' e.
Proof.
  intros [->|(v & Hv & L & U)] Hk HH; [left; reflexivity|]. right. exists v. split; [exact Hv|]. split; [exact L|].
  apply Qle_trans with (1 := U).
  assert (A : (inject_Z (Z.of_N H) <= inject_Z (Z.of_N H'))%Q) by (rewrite <- Zle_Qle; lia).
  assert (A2 : (inject_Z (Z.of_nat k + 1) <= inject_Z (Z.of_nat k' + 1))%Q) by (rewrite <- Zle_Qle; lia).
  assert (A0 : (0 <= inject_Z (Z.of_N H))%Q) by (change 0%Q with (inject_Z 0); rewrite <- Zle_Qle; lia).
  assert (A1 : (0 <= inject_Z (Z.of_nat k + 1))%Q) by (change 0%Q with (inject_Z 0); rewrite <- Zle_Qle; lia).
  nra.
Qed.

Lemma eq_ok_add k H e x : (k < 600)%nat -> (H + x < 2 ^ 64)%N -> eq_ok k H e -> eq_ok (S k) (H + x) (f_add e (f_of_N x)).
Proof.
  intros Hk HH He.
  assert (P64 : (inject_Z (2 ^ 64) == B 64)%Q) by (symmetry; apply B_Z; lia).
  destruct (N.eq_dec x 0) as [->|Hx].
  { assert (E : f_add e (f_of_N 0) = e).
    { change (f_of_N 0) with f_zero. destruct He as [->|(v & (m & a & -> & _) & _)]; reflexivity. }
    rewrite E. apply (eq_ok_more k _ H); [exact He|lia|lia]. }
  destruct (of_N_ok x) as (xv & Hxv); [lia|].
  assert (Lx : (1 <= xv)%Q) by (apply (nearest_le _ _ _ (proj2 Hxv)); [exact (F_B 0)|change 1%Q with (inject_Z 1); rewrite <- Zle_Qle; lia]).
  assert (Ux : (xv <= B 64)%Q) by (apply (nearest_ge _ _ _ (proj2 Hxv)); [apply F_B|rewrite <- P64, <- Zle_Qle; lia]).
  pose proof (rounded_up _ _ _ Hxv) as Rx. set (X := inject_Z (Z.of_N x)) in *.
  assert (X0 : (0 <= X)%Q) by (unfold X; change 0%Q with (inject_Z 0); rewrite <- Zle_Qle; lia).
  assert (A0 : (0 <= inject_Z (Z.of_N H))%Q) by (change 0%Q with (inject_Z 0); rewrite <- Zle_Qle; lia).
  assert (Ek : (inject_Z (Z.of_nat (S k) + 1) == inject_Z (Z.of_nat k + 1) + 1)%Q).
  { change 1%Q with (inject_Z 1). rewrite <- inject_Z_plus. replace (Z.of_nat (S k) + 1) with (Z.of_nat k + 1 + 1) by lia. reflexivity. }
  assert (Kl : (1 <= inject_Z (Z.of_nat k + 1))%Q) by (change 1%Q with (inject_Z 1); rewrite <- Zle_Qle; lia).
  assert (Ku : (inject_Z (Z.of_nat k + 1) <= 600)%Q) by (change 600%Q with (inject_Z 600); rewrite <- Zle_Qle; lia).
  assert (HX : (inject_Z (Z.of_N (H + x)) == inject_Z (Z.of_N H) + X)%Q) by (unfold X; rewrite N2Z.inj_add, inject_Z_plus; reflexivity).
  right. destruct He as [->|(v & Hv & Lv & Uv)].
  - rewrite (num_add _ _ (proj1 Hxv)). exists xv. split; [exact (proj1 Hxv)|]. split; [exact Lx|]. rewrite HX, Ek.
    apply Qle_trans with (1 := Rx). nra.
  - assert (Uv' : (v <= B 65)%Q).
    { apply Qle_trans with (1 := Uv). assert (Hh : (inject_Z (Z.of_N H) <= B 64)%Q) by (rewrite <- P64, <- Zle_Qle; lia).
      assert (E65 : (B 65 == 2 * B 64)%Q) by reflexivity. rewrite E65. nra. }
    destruct (add_ok_range e (f_of_N x) v xv 0 65 ltac:(lia) ltac:(lia) ltac:(lia) Hv (proj1 Hxv) Lv Uv' Lx) as (z & Hz).
    { apply Qle_trans with (1 := Ux). apply B_le. lia. }
    exists z. split; [exact (proj1 Hz)|]. split.
    + apply (nearest_le _ _ _ (proj2 Hz)); [exact (F_B 0)|]. change (B 0) with 1%Q. lra.
    + pose proof (rounded_up _ _ _ Hz) as Rz. rewrite HX, Ek.
      set (h := inject_Z (Z.of_N H)) in *. set (a := inject_Z (Z.of_nat k + 1)) in *. clearbody X h a.
      clear P64 Ux Uv' Lv Lx HX Ek HH Hk Hx Hxv Hz Hv.
      assert (S1 : (v + xv <= (h + X) * (1 + a * (1 # 2251799813685248)))%Q) by nra.
      apply Qle_trans with (1 := Rz).
      apply Qle_trans with ((h + X) * (1 + a * (1 # 2251799813685248)) * (1 + (1 # 4503599627370496)))%Q; [nra|].
      assert (S2 : ((1 + a * (1 # 2251799813685248)) * (1 + (1 # 4503599627370496)) <= 1 + (a + 1) * (1 # 2251799813685248))%Q) by nra.
      assert (S3 : (0 <= h + X)%Q) by lra. rewrite <- Qmult_assoc. 
      rewrite (Qmult_comm (h + X)), (Qmult_comm (h + X)). apply Qmult_le_compat_r; assumption.
Qed.

(* the quotient by the hands *)
Lemma eq_share k H e : (k <= 600)%nat -> (H < 2 ^ 64)%N -> eq_ok k H e -> share_of_one (f_div e (f_add (f_of_N H) f_1e_9)).
Proof.
  intros Hk HH He. assert (P64 : (inject_Z (2 ^ 64) == B 64)%Q) by (symmetry; apply B_Z; lia).
  destruct (N.eq_dec H 0) as [->|HH0].
  { destruct He as [->|(v & Hv & Lv & Uv)]; [left; reflexivity|]. exfalso. change (inject_Z (Z.of_N 0)) with 0%Q in Uv. lra. }
  destruct (of_N_ok H) as (hv & Hhv); [lia|].
  assert (Lh : (1 <= hv)%Q) by (apply (nearest_le _ _ _ (proj2 Hhv)); [exact (F_B 0)|change 1%Q with (inject_Z 1); rewrite <- Zle_Qle; lia]).
  assert (Uh : (hv <= B 64)%Q) by (apply (nearest_ge _ _ _ (proj2 Hhv)); [apply F_B|rewrite <- P64, <- Zle_Qle; lia]).
  pose proof (rounded_down _ _ _ Hhv) as Rh. destruct nano_range as [N1 N2].
  assert (B29 : (B (-29) <= 1)%Q) by (vm_compute; discriminate). assert (B29p : (0 < B (-29))%Q) by apply B_pos.
  destruct (add_ok_range (f_of_N H) f_1e_9 hv nano (-30) 64 ltac:(lia) ltac:(lia) ltac:(lia) (proj1 Hhv) nano_num) as (d & Hd).
  { apply Qle_trans with (2 := Lh). change 1%Q with (B 0). apply B_le. lia. }
  { exact Uh. }
  { exact N1. }
  { apply Qle_trans with 1%Q; [lra|]. change 1%Q with (B 0). apply B_le. lia. }
  assert (Ld : (hv <= d)%Q) by (apply (nearest_le _ _ _ (proj2 Hd)); [exact (num_F _ _ (proj1 Hhv))|pose proof (num_pos _ _ nano_num); lra]).
  assert (Ud : (d <= B 65)%Q).
  { apply (nearest_ge _ _ _ (proj2 Hd)); [apply F_B|]. assert (E65 : (B 65 == 2 * B 64)%Q) by reflexivity.
    assert (G : (1 <= B 64)%Q) by (change 1%Q with (B 0); apply B_le; lia). rewrite E65. lra. }
  destruct He as [->|(v & Hv & Lv & Uv)].
  { left. destruct Hd as [(m & a & -> & _) _]. reflexivity. }
  set (h := inject_Z (Z.of_N H)) in *.
  assert (h0 : (1 <= h)%Q) by (unfold h; change 1%Q with (inject_Z 1); rewrite <- Zle_Qle; lia).
  assert (h1 : (h <= B 64)%Q) by (unfold h; rewrite <- P64, <- Zle_Qle; lia).
  assert (Ku : (inject_Z (Z.of_nat k + 1) <= 601)%Q) by (change 601%Q with (inject_Z 601); rewrite <- Zle_Qle; lia).
  assert (Kl : (1 <= inject_Z (Z.of_nat k + 1))%Q) by (change 1%Q with (inject_Z 1); rewrite <- Zle_Qle; lia).
  assert (Uv1 : (v <= 2 * h)%Q) by (apply Qle_trans with (1 := Uv); nra).
  assert (E65 : (B 65 == 2 * B 64)%Q) by reflexivity.
  assert (d1 : (1 <= d)%Q) by lra. assert (dh : (h <= 2 * d)%Q) by lra.
  destruct (div_ok e (f_add (f_of_N H) f_1e_9) v d Hv (proj1 Hd)) as (z & Hz).
  { split; [apply Qle_trans with (2 := Lv)|apply Qle_trans with (B 65); [lra|apply B_le; lia]]. change 1%Q with (B 0). apply B_le. lia. }
  { split; [apply Qle_trans with (2 := d1)|apply Qle_trans with (1 := Ud); apply B_le; lia]. change 1%Q with (B 0). apply B_le. lia. }
  right. exists z. split; [exact (proj1 Hz)|]. split.
  - apply (nearest_le _ _ _ (proj2 Hz)); [apply F_B|]. apply Qle_shift_div_l; [lra|].
    assert (E : (B (-66) * B 65 == B (-1))%Q) by (symmetry; apply (B_eq_mul (-66) 65); lia).
    assert (E1 : (B (-1) <= 1)%Q) by (vm_compute; discriminate). pose proof (B_pos (-66)). nra.
  - apply (nearest_ge _ _ _ (proj2 Hz)); [apply F_B|]. apply Qle_shift_div_r; [lra|].
    assert (E2 : (B 2 == 4)%Q) by reflexivity. rewrite E2. lra.
Qed.
