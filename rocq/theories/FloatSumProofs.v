(* Sums, differences and square roots of binary64 numbers. *)
From Coq Require Import Program.Tactics Floats.SpecFloat QArith Qpower Lqa.
From Verif Require Import Base Float64 FloatProofs.
Local Open Scope Z_scope.

(* ------------------------------------------------------------------------- *)
(** * The error of one rounding *)

Lemma B_eq_mul a b c : c = a + b -> (B c == B a * B b)%Q.
Proof. intros ->. apply B_add. Qed.
Lemma num_pos f v : is_num f v -> (0 < v)%Q.
Proof. intros (m & e & _ & _ & E). rewrite E. apply V_pos. lia. Qed.
Lemma num_F f v : is_num f v -> F v.
Proof. intros (m & e & _ & C & E). exists (Z.pos m), e. unfold canon in C. split; [lia|exact E]. Qed.

Lemma rounded_err f x v : rounded f x v -> (v - v * B (-53) <= x)%Q /\ (x <= v + v * B (-53))%Q.
Proof.
  intros [(m & e & _ & [C1 C2] & Ev) [_ HN]].
  pose proof (B_pos e) as He. pose proof (B_pos (-53)) as H53.
  assert (Hm : (B e * (1 # 2) <= v * B (-53))%Q).
  { rewrite Ev. unfold V. rewrite (B_eq_mul (-52) (-1) (-53)) by lia.
    assert (E1 : (B (-1) == 1 # 2)%Q) by reflexivity. rewrite E1.
    assert (K : (1 <= inject_Z (Z.pos m) * B (-52))%Q).
    { pose proof (B_opp 52) as Ho. rewrite (B_Z 52) in Ho by lia. pose proof (B_pos (-52)) as Hp. change (- (52)) with (-52) in Ho.
      rewrite Zle_Qle in C1. nra. }
    nra. }
  assert (Fd : F (V (Z.pos m - 1) e)) by (exists (Z.pos m - 1), e; split; [lia|reflexivity]).
  assert (Fu : F (V (Z.pos m + 1) e)) by (exists (Z.pos m + 1), e; split; [lia|reflexivity]).
  assert (Ed : (V (Z.pos m - 1) e == v - B e)%Q).
  { rewrite Ev. unfold V. unfold Z.sub. rewrite inject_Z_plus, (inject_Z_opp 1). change (inject_Z 1) with 1%Q. ring. }
  assert (Eu : (V (Z.pos m + 1) e == v + B e)%Q).
  { rewrite Ev. unfold V. rewrite inject_Z_plus. change (inject_Z 1) with 1%Q. ring. }
  pose proof (proj1 (HN _ Fd)) as Hd. pose proof (proj2 (HN _ Fu)) as Hu.
  assert (Ld : (V (Z.pos m - 1) e < v)%Q) by lra. assert (Lu : (v < V (Z.pos m + 1) e)%Q) by lra.
  specialize (Hd Ld). specialize (Hu Lu). split; lra.
Qed.
Lemma B53_small : (B (-53) == 1 # 9007199254740992)%Q.
Proof. reflexivity. Qed.
(* rounding up enlarges a number by less than 2^-52 of it *)
Lemma rounded_up f x v : rounded f x v -> (v <= x + x * (1 # 4503599627370496))%Q.
Proof. intros H. destruct (rounded_err _ _ _ H) as [L _]. pose proof (num_pos _ _ (proj1 H)) as Hp. rewrite B53_small in L. lra. Qed.
Lemma rounded_down f x v : rounded f x v -> (x - x * (1 # 4503599627370496) <= v)%Q.
Proof. intros H. destruct (rounded_err _ _ _ H) as [_ L]. pose proof (num_pos _ _ (proj1 H)) as Hp. rewrite B53_small in L. lra. Qed.
Lemma rounded_exact f x v : rounded f x v -> F x -> (v == x)%Q.
Proof.
  intros [_ HN] Hx. apply Qle_antisym; [eapply nearest_ge; [exact HN|exact Hx|apply Qle_refl]|eapply nearest_le; [exact HN|exact Hx|apply Qle_refl]].
Qed.

(* ------------------------------------------------------------------------- *)
(** * Sums and differences *)

Lemma align_ok m e ez : ez <= e -> (V (Z.pos (fst (shl_align m e ez))) ez == V (Z.pos m) e)%Q.
Proof.
  intros H. unfold shl_align. destruct (ez - e) as [|q|q] eqn:E; cbn [fst].
  - replace ez with e by lia. reflexivity.
  - lia.
  - rewrite shift_pos_ok, <- V_shift by lia. replace (ez + Z.pos q) with e by lia. reflexivity.
Qed.
Lemma align_bound m e ez k : ez <= e -> e - ez <= k -> canon m -> Z.pos (fst (shl_align m e ez)) < 2 ^ (53 + k).
Proof.
  intros H Hk [_ C]. unfold shl_align. assert (P : 0 < 2 ^ k) by (apply Z.pow_pos_nonneg; lia). rewrite Z.pow_add_r by lia. destruct (ez - e) as [|q|q] eqn:E; cbn [fst].
  - nia.
  - lia.
  - rewrite shift_pos_ok. assert (2 ^ Z.pos q <= 2 ^ k) by (apply Z.pow_le_mono_r; lia). nia.
Qed.
Lemma digits_le p k : 0 <= k -> Z.pos p < 2 ^ k -> Z.pos (digits2_pos p) <= k.
Proof.
  intros Hk H. pose proof (digits_ok p) as K. destruct (Z_le_gt_dec (Z.pos (digits2_pos p)) k) as [L|G]; [exact L|].
  pose proof (Z.pow_le_mono_r 2 k (Z.pos (digits2_pos p) - 1)). lia.
Qed.

Lemma add_ok_range f g v w lo hi : -200 <= lo -> hi <= 200 -> hi - lo <= 140 -> is_num f v -> is_num g w ->
  (B lo <= v)%Q -> (v <= B hi)%Q -> (B lo <= w)%Q -> (w <= B hi)%Q -> exists z, rounded (f_add f g) (v + w) z.
Proof.
  intros Hlo Hhi Hd (m1 & e1 & Ef & C1 & Ev) (m2 & e2 & Eg & C2 & Ew) L1 H1 L2 H2. subst f g.
  rewrite Ev in L1, H1. rewrite Ew in L2, H2.
  pose proof (num_exp _ _ _ _ C1 L1 H1) as R1. pose proof (num_exp _ _ _ _ C2 L2 H2) as R2.
  unfold f_add, prec64, emax64. cbn [SFadd cond_Zopp]. set (ez := Z.min e1 e2).
  pose proof (align_ok m1 e1 ez ltac:(lia)) as A1. pose proof (align_ok m2 e2 ez ltac:(lia)) as A2.
  pose proof (align_bound m1 e1 ez 141 ltac:(lia) ltac:(lia) C1) as D1. pose proof (align_bound m2 e2 ez 141 ltac:(lia) ltac:(lia) C2) as D2.
  set (p1 := fst (shl_align m1 e1 ez)) in *. set (p2 := fst (shl_align m2 e2 ez)) in *. clearbody p1 p2. rewrite <- Pos2Z.inj_add. cbn [binary_normalize].
  assert (D : Z.pos (digits2_pos (p1 + p2)) <= 195).
  { apply digits_le; [lia|]. rewrite Pos2Z.inj_add. change (2 ^ 195) with (2 ^ (53 + 141) + 2 ^ (53 + 141)). lia. }
  destruct (round_ok (p1 + p2) ez) as (m & e & E & N & C & _); [subst ez; lia|subst ez; lia|lia|].
  exists (V (Z.pos m) e). split; [exists m, e; split; [exact E|split; [exact C|reflexivity]]|].
  apply nearest_ext with (3 := N); [|reflexivity]. rewrite Ev, Ew, <- A1, <- A2. unfold V. rewrite Pos2Z.inj_add, inject_Z_plus. ring.
Qed.
Lemma sub_ok_range f g v w lo hi : -200 <= lo -> hi <= 200 -> hi - lo <= 140 -> is_num f v -> is_num g w ->
  (B lo <= v)%Q -> (v <= B hi)%Q -> (B lo <= w)%Q -> (w <= B hi)%Q -> (w <= v)%Q ->
  (f_sub f g = f_zero /\ (v == w)%Q) \/ exists z, rounded (f_sub f g) (v - w) z /\ (B (lo - 53) <= z)%Q.
Proof.
  intros Hlo Hhi Hd (m1 & e1 & Ef & C1 & Ev) (m2 & e2 & Eg & C2 & Ew) L1 H1 L2 H2 Hle. subst f g.
  rewrite Ev in L1, H1. rewrite Ew in L2, H2.
  pose proof (num_exp _ _ _ _ C1 L1 H1) as R1. pose proof (num_exp _ _ _ _ C2 L2 H2) as R2.
  unfold f_sub, prec64, emax64. cbn [SFsub cond_Zopp]. set (ez := Z.min e1 e2).
  pose proof (align_ok m1 e1 ez ltac:(lia)) as A1. pose proof (align_ok m2 e2 ez ltac:(lia)) as A2.
  pose proof (align_bound m1 e1 ez 141 ltac:(lia) ltac:(lia) C1) as D1. pose proof (align_bound m2 e2 ez 141 ltac:(lia) ltac:(lia) C2) as D2.
  set (p1 := fst (shl_align m1 e1 ez)) in *. set (p2 := fst (shl_align m2 e2 ez)) in *. clearbody p1 p2.
  assert (EV : (V (Z.pos p1 - Z.pos p2) ez == v - w)%Q).
  { rewrite Ev, Ew, <- A1, <- A2. unfold V, Z.sub. rewrite inject_Z_plus, inject_Z_opp. ring. }
  destruct (Z.pos p1 - Z.pos p2) as [|p|p] eqn:Ep.
  - left. split; [reflexivity|]. unfold V in EV. change (inject_Z 0) with 0%Q in EV. lra.
  - right. cbn [binary_normalize]. assert (D : Z.pos (digits2_pos p) <= 194).
    { apply digits_le; [lia|]. change (2 ^ 194) with (2 ^ (53 + 141)). lia. }
    destruct (round_ok p ez) as (m & e & E & N & C & _); [subst ez; lia|subst ez; lia|lia|].
    exists (V (Z.pos m) e). split.
    + split; [exists m, e; split; [exact E|split; [exact C|reflexivity]]|]. apply nearest_ext with (3 := N); [exact EV|reflexivity].
    + apply Qle_trans with (B ez); [apply B_le; subst ez; lia|]. apply (nearest_le _ _ _ N); [apply F_B|]. unfold V. pose proof (B_pos ez) as Hb.
      assert (K : (1 <= inject_Z (Z.pos p))%Q) by (change 1%Q with (inject_Z 1); rewrite <- Zle_Qle; lia). nra.
  - exfalso. assert (K : (V (Z.neg p) ez < 0)%Q).
    { unfold V. pose proof (B_pos ez) as Hb. assert (K : (inject_Z (Z.neg p) < 0)%Q) by reflexivity. nra. }
    lra.
Qed.

(* ------------------------------------------------------------------------- *)
(** * Square roots *)

(* the square root of a number from 2^(2j) to 2^(2k) is between 2^j and 2^k *)
Lemma sqrt_ok f v j k : -100 <= j -> j <= k <= j + 50 -> k <= 100 -> is_num f v -> (B (2 * j) <= v)%Q -> (v <= B (2 * k))%Q ->
  exists z, is_num (f_sqrt f) z /\ (B j <= z)%Q /\ (z <= B k)%Q.
Proof.
  intros Hj Hjk Hk (m & e & Ef & C & Ev) L H. subst f. rewrite Ev in L, H. pose proof (num_exp _ _ _ _ C L H) as R. destruct C as [C1 C2].
  unfold f_sqrt, prec64, emax64. cbn [SFsqrt]. unfold SFsqrt_core_binary. cbn [Zdigits2]. rewrite (digits_eq m 53) by lia.
  set (e' := Z.min (fexp 53 1024 (Z.div2 (53 + e + 1))) (Z.div2 e)).
  assert (Ee : e' = (54 + e) / 2 - 53).
  { unfold e'. rewrite !Z.div2_div. replace (53 + e + 1) with (54 + e) by lia.
    assert (Hq : (54 + e) / 2 = e / 2 + 27) by (replace (54 + e) with (e + 27 * 2) by lia; apply Z.div_add; lia).
    rewrite Hq. assert (-400 <= e / 2) by (apply Z.div_le_lower_bound; lia). assert (e / 2 <= 300) by (apply Z.div_le_upper_bound; lia).
    unfold fexp, SpecFloat.emin. lia. }
  clearbody e'. assert (Hs : 52 <= e - 2 * e' <= 53).
  { rewrite Ee. pose proof (Z.div_mod (54 + e) 2 ltac:(lia)) as K1. pose proof (Z.mod_pos_bound (54 + e) 2 ltac:(lia)) as K2. lia. }
  set (s := e - 2 * e') in *. assert (Em : (match s with Z0 => Z.pos m | Z.pos _ => Z.shiftl (Z.pos m) s | Z.neg _ => 0 end) = Z.pos m * 2 ^ s).
  { destruct s as [|q|q]; [lia| |lia]. rewrite Z.shiftl_mul_pow2 by lia. reflexivity. }
  rewrite Em. assert (Ps : 2 ^ 52 <= 2 ^ s <= 2 ^ 53) by (split; apply Z.pow_le_mono_r; lia).
  assert (Hsq := Z.sqrtrem_spec (Z.pos m * 2 ^ s) ltac:(nia)). destruct (Z.sqrtrem (Z.pos m * 2 ^ s)) as [q r]. destruct Hsq as [Hq Hr].
  assert (HM : 2 ^ 104 <= Z.pos m * 2 ^ s < 2 ^ 106).
  { change (2 ^ 104) with (2 ^ 52 * 2 ^ 52). change (2 ^ 106) with (2 ^ 53 * 2 ^ 53). nia. }
  assert (Hq0 : 0 <= q) by lia.
  assert (Hq52 : 2 ^ 52 <= q < 2 ^ 53).
  { split.
    - destruct (Z_le_gt_dec (2 ^ 52) q) as [Lq|Gq]; [exact Lq|]. exfalso. change (2 ^ 104) with (2 ^ 52 * 2 ^ 52) in HM. nia.
    - destruct (Z_lt_le_dec q (2 ^ 53)) as [Lq|Gq]; [exact Lq|]. exfalso. change (2 ^ 106) with (2 ^ 53 * 2 ^ 53) in HM. nia. }
  set (l := if Zeq_bool r 0 then loc_Exact else loc_Inexact (if r <=? q then Lt else Gt)).
  (* a number with the same place between its neighbours as the square root *)
  set (x := ((inject_Z q + match l with loc_Exact => 0 | loc_Inexact Lt => 1 # 4 | _ => 3 # 4 end) * B e')%Q).
  pose proof (B_pos e') as Hb.
  assert (Hrec : rec_ok x e' (shr_record_of_loc q l)).
  { split; [destruct l as [|[]]; cbn [shr_record_of_loc shr_m]; lia|].
    assert (Ex : (x * B (- e') == inject_Z q + match l with loc_Exact => 0 | loc_Inexact Lt => 1 # 4 | _ => 3 # 4 end)%Q).
    { unfold x. rewrite <- Qmult_assoc, B_opp. ring. }
    revert Ex. generalize (x * B (- e'))%Q. intros y Ey. unfold l in *.
    destruct (Zeq_bool r 0); [cbn [shr_record_of_loc shr_m shr_r shr_s at_rec]; lra|].
    destruct (r <=? q); cbn [shr_record_of_loc shr_m shr_r shr_s at_rec]; lra. }
  assert (E1 : (inject_Z (Z.pos m * 2 ^ s) * B (2 * e') == V (Z.pos m) e)%Q).
  { unfold V. rewrite inject_Z_mult, <- (B_Z s) by lia. rewrite <- Qmult_assoc, <- B_add. replace (s + 2 * e') with e by (unfold s; lia). reflexivity. }
  assert (E2 : forall i, e' <= i -> (inject_Z (2 ^ (i - e') * 2 ^ (i - e')) * B (2 * e') == B (2 * i))%Q).
  { intros i Hi. rewrite <- Z.pow_add_r by lia. rewrite <- (B_Z (i - e' + (i - e'))) by lia. rewrite <- B_add.
    replace (i - e' + (i - e') + 2 * e') with (2 * i) by lia. reflexivity. }
  assert (E3 : forall i, e' <= i -> (B i == inject_Z (2 ^ (i - e')) * B e')%Q).
  { intros i Hi. rewrite <- (B_Z (i - e')) by lia. rewrite <- B_add. replace (i - e' + e') with i by lia. reflexivity. }
  assert (Hj2 : e' <= j).
  { rewrite Ee. assert ((54 + e) / 2 <= 53 + j) by (apply Z.div_le_upper_bound; lia). lia. }
  assert (Hbound : (x <= B k)%Q).
  { (* 2^k is a multiple of 2^e' *)
    rewrite (E3 k) by lia. set (K := 2 ^ (k - e')) in *. assert (K0 : 0 < K) by (apply Z.pow_pos_nonneg; lia).
    assert (HK : Z.pos m * 2 ^ s <= K * K).
    { rewrite Zle_Qle. apply Qmult_le_r with (B (2 * e')); [apply B_pos|]. rewrite E1. unfold K. rewrite E2 by lia. exact H. }
    unfold x. apply Qmult_le_compat_r; [|lra]. unfold l. destruct (Zeq_bool r 0) eqn:Er.
    - apply Zeq_bool_eq in Er. assert (q <= K) by nia. assert (I : (inject_Z q <= inject_Z K)%Q) by (rewrite <- Zle_Qle; lia). lra.
    - apply Zeq_bool_neq in Er. assert (q < K) by nia. assert (I : (inject_Z q + 1 <= inject_Z K)%Q) by (apply Z_gap; rewrite <- Zlt_Qlt; lia).
      destruct (r <=? q); lra. }
  assert (Hlow : (B j <= x)%Q).
  { rewrite (E3 j) by lia. set (J := 2 ^ (j - e')) in *. assert (J0 : 0 < J) by (apply Z.pow_pos_nonneg; lia).
    assert (HJ : J * J <= Z.pos m * 2 ^ s).
    { rewrite Zle_Qle. apply Qmult_le_r with (B (2 * e')); [apply B_pos|]. rewrite E1. unfold J. rewrite E2 by lia. exact L. }
    assert (J <= q) by nia. assert (I : (inject_Z J <= inject_Z q)%Q) by (rewrite <- Zle_Qle; lia).
    unfold x. apply Qmult_le_compat_r; [|lra]. destruct l as [|[]]; lra. }
  assert (Hdig : Zdigits2 q <= 53).
  { destruct q as [|q|q]; [lia| |lia]. cbn [Zdigits2]. rewrite (digits_eq q 53) by lia. lia. }
  assert (He' : -230 <= e' <= 150) by (rewrite Ee; assert (-150 <= (54 + e) / 2) by (apply Z.div_le_lower_bound; lia); assert ((54 + e) / 2 <= 200) by (apply Z.div_le_upper_bound; lia); lia).
  destruct (round_aux_ok x q e' l Hrec) as (m' & e1 & E & N & Cm & _); [lia|lia|lia|].
  exists (V (Z.pos m') e1). split; [exists m', e1; split; [exact E|split; [exact Cm|reflexivity]]|]. split.
  - apply (nearest_le _ _ _ N); [apply F_B|exact Hlow].
  - apply (nearest_ge _ _ _ N); [apply F_B|exact Hbound].
Qed.

(* ------------------------------------------------------------------------- *)
(** * Saturation *)

Lemma to_u8_big f v : is_num f v -> (255 <= v)%Q -> f_to_u8 f = 255%N.
Proof.
  intros (m & e & Ef & C & Ev) L. subst f. cbn [f_to_u8]. rewrite Ev in L. unfold V in L.
  assert (K : 255 <= Z.shiftl (Z.pos m) e).
  { destruct (Z_le_gt_dec 0 e) as [He|He].
    - rewrite Z.shiftl_mul_pow2 by lia. rewrite (B_Z e) in L by lia. rewrite <- inject_Z_mult in L. change 255%Q with (inject_Z 255) in L. rewrite <- Zle_Qle in L. exact L.
    - rewrite Z.shiftl_div_pow2 by lia. assert (P : 0 < 2 ^ (- e)) by (apply Z.pow_pos_nonneg; lia). apply Z.div_le_lower_bound; [exact P|].
      pose proof (B_opp e) as Ho. rewrite (B_Z (- e)) in Ho by lia. rewrite Zle_Qle, inject_Z_mult. rewrite Zlt_Qlt in P. change (inject_Z 0) with 0%Q in P.
      change (inject_Z 255) with 255%Q. pose proof (Qmult_le_compat_r _ _ _ L (Qlt_le_weak _ _ P)) as L2. rewrite <- Qmult_assoc, Ho in L2. lra. }
  assert (255 <= Z.to_N (Z.shiftl (Z.pos m) e))%N by lia. lia.
Qed.
