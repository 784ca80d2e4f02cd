(* Equal fractions have equal quotients: no quotient of numbers up to 2^53 is halfway between
   two floats. *)
From Coq Require Import Floats.SpecFloat QArith Qpower Lqa Znumtheory.
From Verif Require Import Base BaseProofs Float64 FloatProofs FloatSumProofs Hand FastDivide Range Combined Sim ConvergeProofs EquityFloatProofs ShareProofs SpecShare SpecRates RateProofs.
Local Open Scope Z_scope.

Lemma num_nearest_lt f g v w x : is_num f v -> is_num g w -> nearest x v -> nearest x w -> (v < w)%Q ->
  exists m e, 2 ^ 52 <= m /\ (v == V m e)%Q /\ (x == V (2 * m + 1) (e - 1))%Q.
Proof.
  intros (m & e & _ & [C1 C2] & Ev) (m' & e' & _ & [C1' C2'] & Ew) [Fv Nv] [Fw Nw] L.
  exists (Z.pos m), e. split; [exact C1|]. split; [exact Ev|].
  pose proof (proj1 (Nw v Fv) L) as H1. pose proof (proj2 (Nv w Fw) L) as H2.
  assert (Ex : (x == (v + w) * (1 # 2))%Q) by lra.
  pose proof (B_pos e) as He. pose proof (B_pos e') as He'.
  assert (Hnext : (V (Z.pos m + 1) e == v + B e)%Q). { rewrite Ev. unfold V. rewrite inject_Z_plus. change (inject_Z 1) with 1%Q. ring. }
  assert (Hw1 : (w <= v + B e)%Q).
  { destruct (Qlt_le_dec (v + B e) w) as [G|G]; [|exact G]. assert (Fn : F (v + B e)) by (exists (Z.pos m + 1), e; split; [lia|rewrite Hnext; reflexivity]).
    assert (K : (v < v + B e)%Q) by lra. pose proof (proj2 (Nv _ Fn) K). lra. }
  assert (Hee : e <= e').
  { destruct (Z_le_gt_dec e e') as [G|G]; [exact G|]. exfalso. assert (K : (w <= v)%Q); [|lra]. rewrite Ev, Ew. unfold V.
    apply Qle_trans with (inject_Z (2 ^ 53) * B e')%Q; [rewrite Zlt_Qlt in C2'; nra|]. apply Qle_trans with (inject_Z (2 ^ 52) * B e)%Q; [|rewrite Zle_Qle in C1; nra].
    rewrite <- (B_Z 53), <- (B_Z 52) by lia. rewrite <- !B_add. apply B_le. lia. }
  assert (Ew' : (w == V (Z.pos m' * 2 ^ (e' - e)) e)%Q).
  { rewrite Ew, <- V_shift by lia. replace (e + (e' - e)) with e' by lia. reflexivity. }
  assert (Hw2 : (v + B e <= w)%Q). { rewrite Ev, Ew'. apply scaled_gap. rewrite <- Ev, <- Ew'. exact L. }
  assert (Eb : (B e == B (e - 1) * 2)%Q). { rewrite <- B_1, <- B_add. replace (e - 1 + 1) with e by lia. reflexivity. }
  rewrite Ex. assert (E2 : (w == v + B e)%Q) by lra. rewrite E2, Ev. unfold V. rewrite inject_Z_plus, inject_Z_mult. change (inject_Z 1) with 1%Q. change (inject_Z 2) with 2%Q. rewrite Eb. ring.
Qed.

(* a quotient is not halfway *)
Lemma no_halfway a s m e : 0 < a -> a <= s -> s <= 2 ^ 53 -> 2 ^ 52 <= m -> ~ (inject_Z a / inject_Z s == V (2 * m + 1) e)%Q.
Proof.
  intros Ha Hs H53 Hm E. assert (Ps : (0 < inject_Z s)%Q) by (change 0%Q with (inject_Z 0); rewrite <- Zlt_Qlt; lia).
  assert (E1 : (inject_Z a == V (2 * m + 1) e * inject_Z s)%Q). { rewrite <- E. field. lra. }
  destruct (Z_le_gt_dec 0 e) as [G|G].
  - assert (K : (inject_Z (2 * m + 1) * inject_Z s <= inject_Z a)%Q).
    { rewrite E1. unfold V. assert (K1 : (1 <= B e)%Q) by (apply (B_le 0 e); exact G).
      assert (K2 : (0 <= inject_Z (2 * m + 1) * inject_Z s)%Q) by (rewrite <- inject_Z_mult; change 0%Q with (inject_Z 0); rewrite <- Zle_Qle; nia). nra. }
    rewrite <- inject_Z_mult, <- Zle_Qle in K. nia.
  - assert (E2 : (inject_Z (a * 2 ^ (- e)) == inject_Z ((2 * m + 1) * s))%Q).
    { rewrite !inject_Z_mult, E1. unfold V. rewrite <- (B_Z (- e)) by lia. setoid_replace (inject_Z (2 * m + 1) * B e * inject_Z s * B (- e))%Q with (inject_Z (2 * m + 1) * inject_Z s * (B e * B (- e)))%Q by ring.
      rewrite B_opp. ring. }
    apply (proj1 (inject_Z_injective _ _)) in E2.
    assert (D : (2 * m + 1 | a)).
    { apply Gauss with (2 ^ (- e)); [exists s; rewrite Z.mul_comm, E2; ring|]. apply Zpow_facts.rel_prime_Zpower_r; [lia|]. apply rel_prime_sym. apply bezout_rel_prime. apply Bezout_intro with (- m) 1. ring. }
    apply Z.divide_pos_le in D; lia.
Qed.

Lemma quotient_unique f g x v w a s : rounded f x v -> rounded g x w -> (x == inject_Z a / inject_Z s)%Q -> 0 < a -> a <= s -> s <= 2 ^ 53 -> f = g.
Proof.
  intros [Nf Rv] [Ng Rw] Ex Ha Hs H53. apply (num_unique f g v w Nf Ng).
  destruct (Q_dec v w) as [[L|L]|E]; [exfalso|exfalso|exact E].
  - destruct (num_nearest_lt f g v w x Nf Ng Rv Rw L) as (m & e & Hm & _ & E). apply (no_halfway a s m (e - 1) Ha Hs H53 Hm). rewrite <- Ex. exact E.
  - destruct (num_nearest_lt g f w v x Ng Nf Rw Rv L) as (m & e & Hm & _ & E). apply (no_halfway a s m (e - 1) Ha Hs H53 Hm). rewrite <- Ex. exact E.
Qed.

Local Open Scope N_scope.
Lemma q_frac a s a' s' : 0 < s -> 0 < s' -> a * s' = a' * s -> (q a / q s == q a' / q s')%Q.
Proof.
  intros Hs Hs' E. assert (P : (1 <= q s)%Q) by (apply (q_le 1); lia). assert (P' : (1 <= q s')%Q) by (apply (q_le 1); lia).
  assert (E1 : (q a * q s' == q a' * q s)%Q) by (rewrite <- !q_mul, E; reflexivity).
  setoid_replace (q a / q s)%Q with (q a * q s' / (q s * q s'))%Q by (field; lra). rewrite E1. field. lra.
Qed.
Lemma same_quotient a s a' s' : a <= s -> 0 < s -> s <= 2 ^ 53 -> a' <= s' -> 0 < s' -> s' <= 2 ^ 53 -> a * s' = a' * s ->
  f_div (f_of_N a) (f_of_N s) = f_div (f_of_N a') (f_of_N s').
Proof.
  intros H1 H2 H3 H1' H2' H3' E. destruct (N.eq_dec a 0) as [->|Ha].
  { assert (a' = 0) by nia. subst a'. change (f_of_N 0) with f_zero. rewrite !zero_div by assumption. reflexivity. }
  assert (Ha' : a' <> 0) by nia.
  destruct (div_int a s ltac:(lia) H1 H3) as (v & Hv & Nv). destruct (div_int a' s' ltac:(lia) H1' H3') as (w & Hw & Nw).
  apply (quotient_unique _ _ (q a / q s) v w (Z.of_N a) (Z.of_N s)); try lia; [split; assumption|split; [assumption|]|reflexivity].
  apply nearest_ext with (3 := Nw); [symmetry; apply q_frac; assumption|reflexivity].
Qed.

(* with halves *)
Lemma same_share w c t w' c' t' f g : level f (q w + q c * (1 # 2))%Q -> level g (q w' + q c' * (1 # 2))%Q -> w + c <= t -> 0 < t -> 2 * t <= 2 ^ 53 -> w' + c' <= t' -> 0 < t' -> 2 * t' <= 2 ^ 53 ->
  (2 * w + c) * t' = (2 * w' + c') * t -> f_div f (f_of_N t) = f_div g (f_of_N t').
Proof.
  intros Lf Lg H1 H2 H3 H1' H2' H3' E.
  assert (D : forall h w c t, level h (q w + q c * (1 # 2))%Q -> 0 < 2 * w + c -> w + c <= t -> 0 < t -> 2 * t <= 2 ^ 53 -> exists z, rounded (f_div h (f_of_N t)) (q (2 * w + c) / q (2 * t)) z).
  { clear. intros h w c t Lh H0 H1 H2 H3. pose proof (q_pos w) as Pw. pose proof (q_pos c) as Pc. assert (Pt : (1 <= q t)%Q) by (apply (q_le 1); lia).
    assert (P1 : (1 <= q (2 * w + c))%Q) by (apply (q_le 1); lia). assert (Eq : (q (2 * w + c) == 2 * q w + q c)%Q) by (rewrite q_add, q_mul; reflexivity).
    assert (Et : (q (2 * t) == 2 * q t)%Q) by (rewrite q_mul; reflexivity).
    destruct Lh as [[_ Ez]|[Nh Lh]]; [exfalso; lra|]. pose proof (q_53 t ltac:(lia)) as H53. pose proof (q_le _ _ H1) as Hq. rewrite q_add in Hq.
    destruct (div_ok _ _ _ _ Nh (int_float t ltac:(lia))) as (z & Nz & Rz).
    - split; [apply Qle_trans with (2 := Lh); apply B_le; lia|]. apply Qle_trans with (B 53); [lra|apply B_le; lia].
    - apply mid_q; lia.
    - exists z. split; [exact Nz|]. apply nearest_ext with (3 := Rz); [|reflexivity]. fold (q t). rewrite Eq, Et. field. lra. }
  destruct (N.eq_dec (2 * w + c) 0) as [Z|Z].
  { assert (Z' : 2 * w' + c' = 0) by nia. assert (Hz : forall h w c, level h (q w + q c * (1 # 2))%Q -> 2 * w + c = 0 -> h = f_zero).
    { clear. intros h w c [[E _]|[_ L]] Z; [exact E|exfalso]. assert (w = 0) by lia. assert (c = 0) by lia. subst w c. change (q 0) with 0%Q in L. pose proof (B_pos (-4)). lra. }
    rewrite (Hz f w c Lf Z), (Hz g w' c' Lg Z'). rewrite !zero_div by lia. reflexivity. }
  assert (Z' : 2 * w' + c' <> 0) by nia.
  destruct (D f w c t Lf ltac:(lia) H1 H2 H3) as (v & Nv & Rv). destruct (D g w' c' t' Lg ltac:(lia) H1' H2' H3') as (v' & Nv' & Rv').
  apply (quotient_unique _ _ (q (2 * w + c) / q (2 * t)) v v' (Z.of_N (2 * w + c)) (Z.of_N (2 * t))); try lia; [split; assumption|split; [assumption|]|reflexivity].
  apply nearest_ext with (3 := Rv'); [|reflexivity]. symmetry. apply q_frac; nia.
Qed.
