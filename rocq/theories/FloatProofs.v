(* Rounding of the binary64 operations on positive numbers. *)
From Coq Require Import Program.Tactics Floats.SpecFloat QArith Qpower Lqa.
From Verif Require Import Base Float64.
Local Open Scope Z_scope.

(* ------------------------------------------------------------------------- *)
(** * Powers of two *)

Definition B (e : Z) : Q := Qpower 2 e.
Definition V (m e : Z) : Q := inject_Z m * B e.
Lemma two_nz : ~ (2 == 0)%Q. Proof. discriminate. Qed.
Lemma B_add a b : (B (a + b) == B a * B b)%Q.
Proof. unfold B. apply Qpower_plus. exact two_nz. Qed.
Lemma B_pos e : (0 < B e)%Q.
Proof. unfold B. apply Qpower_0_lt. reflexivity. Qed.
Lemma B_0 : (B 0 == 1)%Q. Proof. reflexivity. Qed.
Lemma B_1 : (B 1 == 2)%Q. Proof. reflexivity. Qed.
Lemma B_opp e : (B e * B (- e) == 1)%Q.
Proof. rewrite <- B_add, Z.add_opp_diag_r. reflexivity. Qed.
Lemma B_Z n : 0 <= n -> (B n == inject_Z (2 ^ n))%Q.
Proof.
  intros Hn. revert n Hn. apply natlike_ind; [reflexivity|]. intros n Hn IH. unfold Z.succ.
  rewrite B_add, IH, B_1, Z.pow_add_r, inject_Z_mult by lia. reflexivity.
Qed.
Lemma B_le a b : a <= b -> (B a <= B b)%Q.
Proof.
  intros H. replace b with ((b - a) + a) by lia. rewrite B_add, (B_Z (b - a)) by lia.
  pose proof (B_pos a) as Ha. assert (H1 : (1 <= inject_Z (2 ^ (b - a)))%Q).
  { change 1%Q with (inject_Z 1). rewrite <- Zle_Qle. pose proof (Z.pow_pos_nonneg 2 (b - a)). lia. }
  nra.
Qed.
Lemma V_pos m e : 0 < m -> (0 < V m e)%Q.
Proof.
  intros H. unfold V. pose proof (B_pos e) as He. rewrite Zlt_Qlt in H. cbn in H. change (inject_Z 0) with 0%Q in H. nra.
Qed.
Lemma V_shift m e k : 0 <= k -> (V m (e + k) == V (m * 2 ^ k) e)%Q.
Proof. intros H. unfold V. rewrite B_add, (B_Z k H), inject_Z_mult. ring. Qed.

(* ------------------------------------------------------------------------- *)
(** * Nearest numbers *)

(* the numbers with 53 binary digits, of any exponent *)
Definition F (u : Q) : Prop := exists m e, 0 <= m <= 2 ^ 53 /\ (u == V m e)%Q.
Definition nearest (x v : Q) : Prop :=
  F v /\ forall u, F u -> ((u < v -> (u + v) * (1 # 2) <= x) /\ (v < u -> x <= (u + v) * (1 # 2)))%Q.

Lemma nearest_le x v u : nearest x v -> F u -> (u <= x)%Q -> (u <= v)%Q.
Proof.
  intros [_ H] Hu Hx. destruct (Qlt_le_dec v u) as [L|L]; [|exact L]. pose proof (proj2 (H u Hu) L) as K. lra.
Qed.
Lemma nearest_ge x v u : nearest x v -> F u -> (x <= u)%Q -> (v <= u)%Q.
Proof.
  intros [_ H] Hu Hx. destruct (Qlt_le_dec u v) as [L|L]; [|exact L]. pose proof (proj1 (H u Hu) L) as K. lra.
Qed.
Lemma nearest_mono x y v w : nearest x v -> nearest y w -> (x < y)%Q -> (v <= w)%Q.
Proof.
  intros [Fv Hv] [Fw Hw] L. destruct (Qlt_le_dec w v) as [G|G]; [|exact G].
  pose proof (proj1 (Hv w Fw) G) as K1. pose proof (proj2 (Hw v Fv) G) as K2. lra.
Qed.
Lemma nearest_ext x y v w : (x == y)%Q -> (v == w)%Q -> nearest x v -> nearest y w.
Proof.
  intros Hx Hv [(m & e & Hm & E) H]. split; [exists m, e; split; [exact Hm|lra]|].
  intros u Hu. destruct (H u Hu) as [H1 H2]. split; intros L.
  - assert (K : (u < v)%Q) by lra. specialize (H1 K). lra.
  - assert (K : (v < u)%Q) by lra. specialize (H2 K). lra.
Qed.

Lemma Z_gap (a b : Z) : (inject_Z a < inject_Z b)%Q -> (inject_Z a + 1 <= inject_Z b)%Q.
Proof.
  intros H. rewrite <- Zlt_Qlt in H. change 1%Q with (inject_Z 1). rewrite <- inject_Z_plus, <- Zle_Qle. lia.
Qed.

Lemma scaled_gap (a b e : Z) : (V a e < V b e)%Q -> (V a e + B e <= V b e)%Q.
Proof.
  unfold V. pose proof (B_pos e) as He. intros H.
  assert (K : (inject_Z a < inject_Z b)%Q) by nra. apply Z_gap in K. nra.
Qed.

(* rounding to an integer multiple of 2^e1 is rounding to the nearest, for x >= 2^(e1+52) *)
Lemma grid_nearest x z e1 : 0 <= z <= 2 ^ 53 ->
  (V z e1 - B e1 * (1 # 2) <= x)%Q -> (x <= V z e1 + B e1 * (1 # 2))%Q -> (B (e1 + 52) <= x)%Q -> nearest x (V z e1).
Proof.
  intros Hz Lo Hi Hx. split; [exists z, e1; split; [exact Hz|reflexivity]|].
  pose proof (B_pos e1) as Hb.
  assert (W : (B (e1 + 52) == V (2 ^ 52) e1)%Q).
  { unfold V. rewrite B_add, (B_Z 52) by lia. ring. }
  intros u (m & e & Hm & E). destruct (Z_le_gt_dec e1 e) as [Le|Gt].
  - assert (U : (u == V (m * 2 ^ (e - e1)) e1)%Q).
    { rewrite E, <- V_shift by lia. replace (e1 + (e - e1)) with e by lia. reflexivity. }
    split; intros L.
    + assert (K : (V (m * 2 ^ (e - e1)) e1 < V z e1)%Q) by lra. apply scaled_gap in K. lra.
    + assert (K : (V z e1 < V (m * 2 ^ (e - e1)) e1)%Q) by lra. apply scaled_gap in K. lra.
  - assert (U : (u <= B (e1 + 52))%Q).
    { rewrite E. unfold V. apply Qle_trans with (inject_Z (2 ^ 53) * B e)%Q.
      - pose proof (B_pos e) as He. assert (K : (inject_Z m <= inject_Z (2 ^ 53))%Q) by (rewrite <- Zle_Qle; lia). nra.
      - rewrite <- (B_Z 53) by lia. rewrite <- B_add. apply B_le. lia. }
    split; intros L.
    + destruct (Qlt_le_dec (V (2 ^ 52) e1) (V z e1)) as [G|G].
      * apply scaled_gap in G. lra.
      * lra.
    + assert (K : (V z e1 < V (2 ^ 52) e1)%Q) by lra. apply scaled_gap in K. lra.
Qed.

(* ------------------------------------------------------------------------- *)
(** * Shift records *)

Definition at_rec (y : Q) (m : Q) (r s : bool) : Prop :=
  match r, s with
  | false, false => (y == m)%Q
  | false, true => (m < y)%Q /\ (y < m + (1 # 2))%Q
  | true, false => (y == m + (1 # 2))%Q
  | true, true => (m + (1 # 2) < y)%Q /\ (y < m + 1)%Q
  end.
Definition rec_ok (x : Q) (e : Z) (mrs : shr_record) : Prop :=
  0 <= shr_m mrs /\ at_rec (x * B (- e)) (inject_Z (shr_m mrs)) (shr_r mrs) (shr_s mrs).

Lemma shr_1_ok x e mrs : rec_ok x e mrs -> rec_ok x (e + 1) (shr_1 mrs).
Proof.
  destruct mrs as [m r s]. unfold rec_ok. cbn [shr_m shr_r shr_s]. intros [Hm H].
  assert (E : (x * B (- e) == 2 * (x * B (- (e + 1))))%Q).
  { replace (- e) with (- (e + 1) + 1) by lia. rewrite B_add, B_1. ring. }
  revert E H. generalize (x * B (- e))%Q (x * B (- (e + 1)))%Q. intros y y' E H.
  destruct m as [|[p|p|]|p]; [| | | |lia]; cbn [shr_1 shr_m shr_r shr_s]; (split; [lia|]).
  - change (inject_Z 0) with 0%Q in *. destruct r, s; cbn [orb at_rec] in *; lra.
  - assert (I : (inject_Z (Z.pos p~1) == 2 * inject_Z (Z.pos p) + 1)%Q).
    { rewrite Pos2Z.inj_xI, inject_Z_plus, inject_Z_mult. reflexivity. }
    destruct r, s; cbn [orb at_rec] in *; lra.
  - assert (I : (inject_Z (Z.pos p~0) == 2 * inject_Z (Z.pos p))%Q).
    { rewrite Pos2Z.inj_xO, inject_Z_mult. reflexivity. }
    destruct r, s; cbn [orb at_rec] in *; lra.
  - change (inject_Z 0) with 0%Q in *. change (inject_Z 1) with 1%Q in *. destruct r, s; cbn [orb at_rec] in *; lra.
Qed.

Lemma iter_ok p : forall x e mrs, rec_ok x e mrs -> rec_ok x (e + Z.pos p) (SpecFloat.iter_pos shr_1 p mrs).
Proof.
  induction p as [p IH|p IH|]; intros x e mrs H; cbn [SpecFloat.iter_pos].
  - replace (e + Z.pos p~1) with (e + 1 + Z.pos p + Z.pos p) by lia. apply IH, IH, shr_1_ok, H.
  - replace (e + Z.pos p~0) with (e + Z.pos p + Z.pos p) by lia. apply IH, IH, H.
  - apply shr_1_ok, H.
Qed.

Lemma shr_ok x e mrs n : 0 <= n -> rec_ok x e mrs ->
  exists mrs', shr mrs e n = (mrs', e + n) /\ rec_ok x (e + n) mrs'.
Proof.
  intros Hn H. destruct n as [|p|p]; [| |lia]; cbn [shr].
  - exists mrs. rewrite Z.add_0_r. auto.
  - exists (SpecFloat.iter_pos shr_1 p mrs). split; [reflexivity|]. apply iter_ok, H.
Qed.

Lemma rec_bounds x e mrs : rec_ok x e mrs ->
  (V (shr_m mrs) e <= x)%Q /\ (x < V (shr_m mrs) e + B e)%Q.
Proof.
  intros [_ H]. destruct mrs as [m r s]. cbn [shr_m shr_r shr_s] in *. unfold V.
  pose proof (B_pos e) as Hb. pose proof (B_opp e) as Ho.
  assert (E : (x == x * B (- e) * B e)%Q) by (rewrite <- Qmult_assoc, (Qmult_comm (B (- e))), Ho; ring).
  revert E H. generalize (x * B (- e))%Q. intros y E H.
  assert (K : (inject_Z m <= y)%Q /\ (y < inject_Z m + 1)%Q) by (destruct r, s; cbn [at_rec] in H; lra).
  destruct K as [K1 K2]. split; rewrite E; nra.
Qed.

Lemma rne_ok x e mrs : rec_ok x e mrs ->
  let z := round_nearest_even (shr_m mrs) (loc_of_shr_record mrs) in
  shr_m mrs <= z <= shr_m mrs + 1 /\ (V z e - B e * (1 # 2) <= x)%Q /\ (x <= V z e + B e * (1 # 2))%Q.
Proof.
  intros [_ H]. destruct mrs as [m r s]. cbn [shr_m shr_r shr_s] in *. unfold V.
  pose proof (B_pos e) as Hb. pose proof (B_opp e) as Ho.
  assert (E : (x == x * B (- e) * B e)%Q) by (rewrite <- Qmult_assoc, (Qmult_comm (B (- e))), Ho; ring).
  revert E H. generalize (x * B (- e))%Q. intros y E H.
  assert (I : (inject_Z (m + 1) == inject_Z m + 1)%Q) by (rewrite inject_Z_plus; reflexivity).
  destruct r, s; cbn [at_rec loc_of_shr_record round_nearest_even] in *;
    [|destruct (Z.even m)| |]; (split; [lia|]); try rewrite I; destruct_conjs; split; rewrite E; nra.
Qed.

(* ------------------------------------------------------------------------- *)
(** * Rounding *)

Lemma digits_ok p : 2 ^ (Z.pos (digits2_pos p) - 1) <= Z.pos p < 2 ^ Z.pos (digits2_pos p).
Proof.
  induction p as [p IH|p IH|]; cbn [digits2_pos]; [| |cbn; lia];
    rewrite ?Pos2Z.inj_succ; set (d := Z.pos (digits2_pos p)) in *;
    assert (Hd : 0 < d) by (subst d; lia); unfold Z.succ;
    replace (d + 1 - 1) with (d - 1 + 1) by lia; rewrite !Z.pow_add_r by lia; rewrite Z.pow_1_r; lia.
Qed.

Lemma digits_eq p d : 0 < d -> 2 ^ (d - 1) <= Z.pos p < 2 ^ d -> Z.pos (digits2_pos p) = d.
Proof.
  intros Hd H. pose proof (digits_ok p) as K. set (c := Z.pos (digits2_pos p)) in *.
  assert (Hc : 0 < c) by (subst c; lia).
  destruct (Z.lt_trichotomy c d) as [L|[L|L]]; [|exact L|].
  - pose proof (Z.pow_le_mono_r 2 c (d - 1)). lia.
  - pose proof (Z.pow_le_mono_r 2 d (c - 1)). lia.
Qed.

Definition canon (m : positive) : Prop := 2 ^ 52 <= Z.pos m < 2 ^ 53.

Lemma V_lt_inv a b e : (V a e < V b e)%Q -> a < b.
Proof. unfold V. pose proof (B_pos e) as He. intros H. rewrite Zlt_Qlt. nra. Qed.

Lemma round_aux_ok x mx ex lx :
  rec_ok x ex (shr_record_of_loc mx lx) -> 2 ^ 52 <= mx -> -1000 <= ex -> Zdigits2 mx + ex <= 1000 ->
  exists m e, binary_round_aux 53 1024 false mx ex lx = S754_finite false m e /\ nearest x (V (Z.pos m) e) /\ canon m
    /\ ex <= e <= Zdigits2 mx + ex.
Proof.
  intros HR Hmx Hex Hsz.
  destruct mx as [|p|p]; [lia| |lia].
  assert (Hmrs : shr_m (shr_record_of_loc (Z.pos p) lx) = Z.pos p) by (destruct lx as [|[]]; reflexivity).
  unfold binary_round_aux, shr_fexp. cbn [Zdigits2] in *.
  pose proof (digits_ok p) as Hd. set (d := Z.pos (digits2_pos p)) in *.
  assert (Hd53 : 53 <= d).
  { destruct (Z_le_gt_dec 53 d) as [L|G]; [exact L|]. pose proof (Z.pow_le_mono_r 2 d 52). lia. }
  assert (Hfe : fexp 53 1024 (d + ex) - ex = d - 53) by (unfold fexp, SpecFloat.emin; lia).
  rewrite Hfe. destruct (shr_ok x ex _ (d - 53) ltac:(lia) HR) as (mrs' & E1 & R1). rewrite E1.
  set (e1 := ex + (d - 53)) in *.
  pose proof (rec_bounds _ _ _ HR) as [Lo Hi]. rewrite Hmrs in Lo, Hi.
  pose proof (rec_bounds _ _ _ R1) as [Lo1 Hi1].
  pose proof (rne_ok _ _ _ R1) as HZ. cbv zeta in HZ. destruct HZ as (Hz & Hzl & Hzh).
  set (z := round_nearest_even (shr_m mrs') (loc_of_shr_record mrs')) in *.
  assert (XL : (V (2 ^ 52) e1 <= x)%Q).
  { subst e1. rewrite V_shift by lia. rewrite <- Z.pow_add_r by lia. replace (52 + (d - 53)) with (d - 1) by lia.
    apply Qle_trans with (2 := Lo). unfold V. pose proof (B_pos ex) as He.
    assert (K : (inject_Z (2 ^ (d - 1)) <= inject_Z (Z.pos p))%Q) by (rewrite <- Zle_Qle; lia). nra. }
  assert (XH : (x < V (2 ^ 53) e1)%Q).
  { subst e1. rewrite V_shift by lia. rewrite <- Z.pow_add_r by lia. replace (53 + (d - 53)) with d by lia.
    apply Qlt_le_trans with (1 := Hi). unfold V. pose proof (B_pos ex) as He.
    assert (K : (inject_Z (Z.pos p) + 1 <= inject_Z (2 ^ d))%Q).
    { apply Z_gap. rewrite <- Zlt_Qlt. lia. } nra. }
  assert (Hm1 : 2 ^ 52 <= shr_m mrs').
  { assert (K : (V (2 ^ 52) e1 < V (shr_m mrs' + 1) e1)%Q).
    { unfold V at 2. rewrite inject_Z_plus. change (inject_Z 1) with 1%Q. unfold V in Hi1, XL |- *. lra. }
    apply V_lt_inv in K. lia. }
  assert (Hm2 : shr_m mrs' < 2 ^ 53) by (apply (V_lt_inv _ _ e1); lra).
  assert (NZ : nearest x (V z e1)).
  { apply grid_nearest; [lia|exact Hzl|exact Hzh|]. apply Qle_trans with (2 := XL). unfold V.
    rewrite B_add, (B_Z 52) by lia. lra. }
  assert (He1 : -1000 <= e1 <= 947) by (subst e1; lia).
  destruct (Z.eq_dec z (2 ^ 53)) as [Ez|Nz].
  - rewrite Ez in NZ |- *. change (Zdigits2 (2 ^ 53)) with 54.
    replace (fexp 53 1024 (54 + e1) - e1) with 1 by (unfold fexp, SpecFloat.emin; lia).
    change (shr (shr_record_of_loc (2 ^ 53) loc_Exact) e1 1) with
      ({| shr_m := 2 ^ 52; shr_r := false; shr_s := false |}, e1 + 1).
    cbn [shr_m]. change (2 ^ 52) with (Z.pos 4503599627370496). cbv iota beta.
    replace (e1 + 1 <=? 1024 - 53) with true by (symmetry; apply Z.leb_le; lia).
    exists 4503599627370496%positive, (e1 + 1). split; [reflexivity|]. split; [|split; [unfold canon; lia|subst e1; lia]].
    apply nearest_ext with (3 := NZ); [reflexivity|]. change (Z.pos 4503599627370496) with (2 ^ 52).
    rewrite V_shift by lia. reflexivity.
  - assert (Hzz : 2 ^ 52 <= z < 2 ^ 53) by lia. clearbody z. destruct z as [|q|q]; [lia| |lia].
    cbn [Zdigits2]. rewrite (digits_eq q 53) by lia.
    replace (fexp 53 1024 (53 + e1) - e1) with 0 by (unfold fexp, SpecFloat.emin; lia).
    cbn [shr shr_record_of_loc shr_m].
    replace (e1 <=? 1024 - 53) with true by (symmetry; apply Z.leb_le; lia).
    exists q, e1. split; [reflexivity|]. split; [exact NZ|split; [exact Hzz|subst e1; lia]].
Qed.

Lemma exact_rec x mx ex : 0 <= mx -> (x == V mx ex)%Q -> rec_ok x ex (shr_record_of_loc mx loc_Exact).
Proof.
  intros Hm E. split; cbn [shr_record_of_loc shr_m shr_r shr_s at_rec]; [exact Hm|].
  rewrite E. unfold V. rewrite <- Qmult_assoc, B_opp. ring.
Qed.

Lemma shift_pos_ok p m : Z.pos (shift_pos p m) = Z.pos m * 2 ^ Z.pos p.
Proof. rewrite Zpower.shift_pos_correct, Z.mul_comm. reflexivity. Qed.

Lemma round_ok p ex : -800 <= ex -> Z.pos (digits2_pos p) + ex <= 800 -> Z.pos (digits2_pos p) <= 200 ->
  exists m e, binary_round 53 1024 false p ex = S754_finite false m e /\ nearest (V (Z.pos p) ex) (V (Z.pos m) e) /\ canon m
   /\ ex - 53 <= e <= 53 + Z.pos (digits2_pos p) + ex.
Proof.
  intros Hex Hsz Hd. pose proof (digits_ok p) as K. unfold binary_round, shl_align.
  set (d := Z.pos (digits2_pos p)) in *.
  replace (fexp 53 1024 (d + ex) - ex) with (d - 53) by (unfold fexp, SpecFloat.emin; lia).
  destruct (d - 53) as [|q|q] eqn:Eq.
  - destruct (round_aux_ok (V (Z.pos p) ex) (Z.pos p) ex loc_Exact) as (m & e & E & N & C & R);
      [apply exact_rec; [lia|reflexivity]| | lia | fold d; cbn [Zdigits2]; lia |].
    { pose proof (Z.pow_le_mono_r 2 52 (d - 1)). lia. }
    exists m, e. split; [exact E|]. split; [exact N|]. split; [exact C|]. cbn [Zdigits2] in R. lia.
  - destruct (round_aux_ok (V (Z.pos p) ex) (Z.pos p) ex loc_Exact) as (m & e & E & N & C & R);
      [apply exact_rec; [lia|reflexivity]| | lia | fold d; cbn [Zdigits2]; lia |].
    { pose proof (Z.pow_le_mono_r 2 52 (d - 1)). lia. }
    exists m, e. split; [exact E|]. split; [exact N|]. split; [exact C|]. cbn [Zdigits2] in R. lia.
  - replace (fexp 53 1024 (d + ex)) with (ex - Z.pos q) by (unfold fexp, SpecFloat.emin; lia).
    assert (D : Z.pos (digits2_pos (shift_pos q p)) = 53).
    { apply digits_eq; [lia|]. rewrite shift_pos_ok. replace (53 - 1) with ((d - 1) + Z.pos q) by lia.
      replace 53 with (d + Z.pos q) by lia. assert (0 < d) by (subst d; lia). rewrite !Z.pow_add_r by lia.
      pose proof (Z.pow_pos_nonneg 2 (Z.pos q)). nia. }
    pose proof (digits_ok (shift_pos q p)) as K2. rewrite D in K2.
    destruct (round_aux_ok (V (Z.pos p) ex) (Z.pos (shift_pos q p)) (ex - Z.pos q) loc_Exact) as (m & e & E & N & C & R);
      [apply exact_rec; [lia|] | change (53 - 1) with 52 in K2; lia | subst d; lia | cbn [Zdigits2]; rewrite D; lia |].
    { rewrite shift_pos_ok. rewrite <- V_shift by lia. replace (ex - Z.pos q + Z.pos q) with ex by lia. reflexivity. }
    exists m, e. split; [exact E|]. split; [exact N|]. split; [exact C|]. cbn [Zdigits2] in R. rewrite D in R. lia.
Qed.

(* ------------------------------------------------------------------------- *)
(** * The operations *)

(* [f] is a positive number with value [v], in canonical form *)
Definition is_num (f : f64) (v : Q) : Prop :=
  exists m e, f = S754_finite false m e /\ canon m /\ (v == V (Z.pos m) e)%Q.
(* [f] is the number nearest to [x], and has value [v] *)
Definition rounded (f : f64) (x v : Q) : Prop := is_num f v /\ nearest x v.

Lemma F_B e : F (B e).
Proof. exists 1, e. split; [lia|]. unfold V. change (inject_Z 1) with 1%Q. ring. Qed.
Lemma F_Z n : 0 <= n <= 2 ^ 53 -> F (inject_Z n).
Proof. intros H. exists n, 0. split; [exact H|]. unfold V. rewrite B_0. ring. Qed.

Lemma B_lt_inv a b : (B a < B b)%Q -> a < b.
Proof. intros H. destruct (Z_lt_le_dec a b) as [L|L]; [exact L|]. apply B_le in L. lra. Qed.

(* the exponent of a number, from bounds on its value *)
Lemma num_exp m e lo hi : canon m -> (B lo <= V (Z.pos m) e)%Q -> (V (Z.pos m) e <= B hi)%Q -> lo - 53 < e <= hi - 52.
Proof.
  intros [C1 C2] L H. split.
  - cut (lo < e + 53); [lia|]. apply B_lt_inv. apply Qle_lt_trans with (1 := L). unfold V. rewrite (B_add e 53), (B_Z 53) by lia.
    pose proof (B_pos e) as He. rewrite Zlt_Qlt in C2. nra.
  - cut (e + 52 < hi + 1); [lia|]. apply B_lt_inv. apply Qle_lt_trans with (B hi).
    + apply Qle_trans with (2 := H). unfold V. rewrite (B_add e 52), (B_Z 52) by lia.
      pose proof (B_pos e) as He. rewrite Zle_Qle in C1. nra.
    + rewrite B_add, B_1. pose proof (B_pos hi) as Hb. lra.
Qed.

Lemma of_N_ok n : (0 < n < 2 ^ 128)%N -> exists v, rounded (f_of_N n) (inject_Z (Z.of_N n)) v.
Proof.
  intros H. destruct n as [|p]; [lia|]. unfold f_of_N. cbn [Z.of_N binary_normalize]. unfold prec64, emax64.
  pose proof (digits_ok p) as K.
  assert (D : Z.pos (digits2_pos p) <= 128).
  { destruct (Z_le_gt_dec (Z.pos (digits2_pos p)) 128) as [L|G]; [exact L|].
    pose proof (Z.pow_le_mono_r 2 128 (Z.pos (digits2_pos p) - 1)) as L. assert (Z.pos p < 2 ^ 128) by lia. lia. }
  destruct (round_ok p 0) as (m & e & E & N & C & R); [lia|lia|lia|].
  exists (V (Z.pos m) e). split.
  - exists m, e. split; [exact E|]. split; [exact C|reflexivity].
  - apply nearest_ext with (3 := N); [|reflexivity]. unfold V. rewrite B_0. ring.
Qed.

Definition mid_range (v : Q) : Prop := (B (-200) <= v)%Q /\ (v <= B 200)%Q.

Lemma mul_ok f g v w : is_num f v -> is_num g w -> mid_range v -> mid_range w ->
  exists z, rounded (f_mul f g) (v * w) z.
Proof.
  intros (m1 & e1 & Ef & C1 & Ev) (m2 & e2 & Eg & C2 & Ew) [L1 H1] [L2 H2]. subst f g.
  rewrite Ev in L1, H1. rewrite Ew in L2, H2.
  pose proof (num_exp _ _ _ _ C1 L1 H1) as R1. pose proof (num_exp _ _ _ _ C2 L2 H2) as R2.
  unfold f_mul, prec64, emax64. cbn [SFmul xorb].
  assert (P : 2 ^ 104 <= Z.pos (m1 * m2) < 2 ^ 106).
  { rewrite Pos2Z.inj_mul. destruct C1, C2. change (2 ^ 104) with (2 ^ 52 * 2 ^ 52). change (2 ^ 106) with (2 ^ 53 * 2 ^ 53). nia. }
  assert (D : Z.pos (digits2_pos (m1 * m2)) <= 106).
  { pose proof (digits_ok (m1 * m2)) as K. destruct (Z_le_gt_dec (Z.pos (digits2_pos (m1 * m2))) 106) as [L|G]; [exact L|].
    pose proof (Z.pow_le_mono_r 2 106 (Z.pos (digits2_pos (m1 * m2)) - 1)) as L. lia. }
  destruct (round_aux_ok (v * w) (Z.pos (m1 * m2)) (e1 + e2) loc_Exact) as (m & e & E & N & C & R).
  - apply exact_rec; [lia|]. rewrite Ev, Ew. unfold V. rewrite Pos2Z.inj_mul, inject_Z_mult, B_add. ring.
  - assert (2 ^ 52 <= 2 ^ 104) by (apply Z.pow_le_mono_r; lia). lia.
  - lia.
  - cbn [Zdigits2]. lia.
  - exists (V (Z.pos m) e). split; [|exact N]. exists m, e. split; [exact E|]. split; [exact C|reflexivity].
Qed.

Lemma new_location_ok y q m r : 0 <= q -> 0 < m -> 0 <= r < m -> (y * inject_Z m == inject_Z (q * m + r))%Q ->
  at_rec y (inject_Z q) (shr_r (shr_record_of_loc q (new_location m r))) (shr_s (shr_record_of_loc q (new_location m r))).
Proof.
  intros Hq Hm Hr E. rewrite inject_Z_plus, inject_Z_mult in E.
  assert (M : (0 < inject_Z m)%Q) by (change 0%Q with (inject_Z 0); rewrite <- Zlt_Qlt; lia).
  assert (Y : ((y - inject_Z q) * inject_Z m == inject_Z r)%Q) by lra.
  assert (Rm : (inject_Z r < inject_Z m)%Q) by (rewrite <- Zlt_Qlt; lia).
  assert (I2 : (inject_Z (2 * r) == 2 * inject_Z r)%Q) by (rewrite inject_Z_mult; reflexivity).
  assert (Ez : r = 0 -> (y == inject_Z q)%Q).
  { intros ->. change (inject_Z 0) with 0%Q in Y. nra. }
  assert (El : 0 < r -> 2 * r < m -> (inject_Z q < y)%Q /\ (y < inject_Z q + (1 # 2))%Q).
  { intros H0 H1. rewrite Zlt_Qlt in H0, H1. change (inject_Z 0) with 0%Q in H0. split; nra. }
  assert (Ee : 2 * r = m -> (y == inject_Z q + (1 # 2))%Q).
  { intros H0. rewrite H0 in I2. nra. }
  assert (Eg : m < 2 * r -> (inject_Z q + (1 # 2) < y)%Q /\ (y < inject_Z q + 1)%Q).
  { intros H1. rewrite Zlt_Qlt in H1. split; nra. }
  unfold new_location. destruct (Z.even m) eqn:Ev.
  - unfold new_location_even. destruct (Zeq_bool r 0) eqn:Er.
    + apply Zeq_bool_eq in Er. cbn. apply Ez, Er.
    + apply Zeq_bool_neq in Er. destruct (2 * r ?= m) eqn:Ec; cbn [shr_record_of_loc shr_r shr_s at_rec].
      * apply Ee. apply Z.compare_eq_iff. exact Ec.
      * apply El; [lia|]. exact Ec.
      * apply Eg. apply Z.gt_lt. exact Ec.
  - assert (Ho : exists k, m = 2 * k + 1).
    { assert (Z.odd m = true) by (rewrite <- Z.negb_even, Ev; reflexivity). apply Z.odd_spec in H. exact H. }
    destruct Ho as [k Hk]. unfold new_location_odd. destruct (Zeq_bool r 0) eqn:Er.
    + apply Zeq_bool_eq in Er. cbn. apply Ez, Er.
    + apply Zeq_bool_neq in Er. destruct (2 * r + 1 ?= m) eqn:Ec; cbn [shr_record_of_loc shr_r shr_s at_rec].
      * apply Z.compare_eq_iff in Ec. apply El; lia.
      * apply El; [lia|]. assert (2 * r + 1 < m) by exact Ec. lia.
      * apply Eg. assert (m < 2 * r + 1) by (apply Z.gt_lt; exact Ec). lia.
Qed.

Lemma div_ok f g v w : is_num f v -> is_num g w -> mid_range v -> mid_range w ->
  exists z, rounded (f_div f g) (v / w) z.
Proof.
  intros (m1 & e1 & Ef & C1 & Ev) (m2 & e2 & Eg & C2 & Ew) [L1 H1] [L2 H2]. subst f g.
  rewrite Ev in L1, H1. rewrite Ew in L2, H2.
  pose proof (num_exp _ _ _ _ C1 L1 H1) as R1. pose proof (num_exp _ _ _ _ C2 L2 H2) as R2.
  unfold f_div, prec64, emax64. cbn [SFdiv xorb]. unfold SFdiv_core_binary. cbn [Zdigits2].
  destruct C1 as [C1 C1'], C2 as [C2 C2'].
  rewrite (digits_eq m1 53), (digits_eq m2 53) by lia.
  replace (Z.min (fexp 53 1024 (53 + e1 - (53 + e2))) (e1 - e2)) with (e1 - e2 - 53) by (unfold fexp, SpecFloat.emin; lia).
  replace (e1 - e2 - (e1 - e2 - 53)) with 53 by lia. rewrite Z.shiftl_mul_pow2 by lia.
  pose proof (Z_div_mod (Z.pos m1 * 2 ^ 53) (Z.pos m2) ltac:(lia)) as DM.
  destruct (Z.div_eucl (Z.pos m1 * 2 ^ 53) (Z.pos m2)) as [q r]. destruct DM as [DM Hr].
  assert (Hq : 2 ^ 52 <= q < 2 ^ 54).
  { split.
    - destruct (Z_le_gt_dec (2 ^ 52) q) as [L|G]; [exact L|]. assert (q + 1 <= 2 ^ 52) by lia. nia.
    - destruct (Z_lt_le_dec q (2 ^ 54)) as [L|G]; [exact L|]. nia. }
  assert (Hr0 : 0 <= r < Z.pos m2) by lia.
  assert (M2 : (0 < inject_Z (Z.pos m2))%Q) by reflexivity.
  pose proof (B_pos e2) as Be2. pose proof (B_opp e2) as Bo2.
  destruct (round_aux_ok (v / w) q (e1 - e2 - 53) (new_location (Z.pos m2) r)) as (m & e & E & N & C & R).
  - split.
    + assert (S : shr_m (shr_record_of_loc q (new_location (Z.pos m2) r)) = q) by (destruct (new_location (Z.pos m2) r) as [|[]]; reflexivity).
      rewrite S. lia.
    + assert (S : shr_m (shr_record_of_loc q (new_location (Z.pos m2) r)) = q) by (destruct (new_location (Z.pos m2) r) as [|[]]; reflexivity).
      rewrite S. apply new_location_ok; [lia|lia|exact Hr0|].
      rewrite (Z.mul_comm q), <- DM. rewrite inject_Z_mult. rewrite <- (B_Z 53) by lia.
      replace (- (e1 - e2 - 53)) with (- e1 + (e2 + 53)) by lia. rewrite !B_add.
      rewrite Ev, Ew. unfold V. pose proof (B_opp e1) as Bo1. pose proof (B_pos e1) as Be1.
      assert (I : (B (- e1) == / B e1)%Q) by (field_simplify_eq; [lra|lra]). rewrite I. field. lra.
  - lia.
  - lia.
  - destruct q as [|q|q]; [lia| |lia]. cbn [Zdigits2]. pose proof (digits_ok q) as K.
    destruct (Z_le_gt_dec (Z.pos (digits2_pos q)) 54) as [L|G]; [lia|].
    pose proof (Z.pow_le_mono_r 2 54 (Z.pos (digits2_pos q) - 1)) as L. lia.
  - exists (V (Z.pos m) e). split; [|exact N]. exists m, e. split; [exact E|]. split; [exact C|reflexivity].
Qed.

Lemma to_u8_ok f v k : is_num f v -> (v < B 52)%Q -> (inject_Z (Z.of_N k) <= v)%Q -> (v < inject_Z (Z.of_N k) + 1)%Q ->
  f_to_u8 f = N.min 255 k.
Proof.
  intros (m & e & Ef & C & Ev) Hv L H. subst f. cbn [f_to_u8]. f_equal.
  assert (He : e < 0).
  { cut (e + 52 < 52); [lia|]. apply B_lt_inv. apply Qle_lt_trans with (2 := Hv). rewrite Ev. unfold V.
    rewrite B_add, (B_Z 52) by lia. pose proof (B_pos e) as Hb. destruct C as [C _]. rewrite Zle_Qle in C. nra. }
  rewrite Z.shiftl_div_pow2 by lia. rewrite <- (N2Z.id k). f_equal.
  pose proof (B_opp e) as Ho. pose proof (B_pos e) as Hb. rewrite (B_Z (- e)) in Ho by lia.
  assert (P : 0 < 2 ^ (- e)) by (apply Z.pow_pos_nonneg; lia).
  assert (Pq : (0 < inject_Z (2 ^ (- e)))%Q) by (rewrite Zlt_Qlt in P; exact P).
  rewrite Ev in L, H. unfold V in L, H.
  assert (L' : Z.of_N k * 2 ^ (- e) <= Z.pos m).
  { rewrite Zle_Qle, inject_Z_mult. pose proof (Qmult_le_compat_r _ _ _ L (Qlt_le_weak _ _ Pq)) as L2.
    rewrite <- Qmult_assoc, Ho in L2. lra. }
  assert (H' : Z.pos m < (Z.of_N k + 1) * 2 ^ (- e)).
  { rewrite Zlt_Qlt, inject_Z_mult, inject_Z_plus. change (inject_Z 1) with 1%Q.
    pose proof (proj2 (Qmult_lt_r _ _ _ Pq) H) as H2. rewrite <- Qmult_assoc, Ho in H2. lra. }
  symmetry. apply Z.div_unique with (Z.pos m - Z.of_N k * 2 ^ (- e)); nia.
Qed.
