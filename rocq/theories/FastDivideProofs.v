(* The divider of FastDivide.v is exact. *)
From Verif Require Import Base BaseProofs FastDivide.
Local Open Scope N_scope.

(* magic-number division: U is the power of two, M the magic number *)
Lemma magic_division U M d e n :
  0 < d -> 0 < U -> M * d = U + e -> n * e < U -> n * M / U = n / d.
Proof.
  intros Hd HU HM He.
  pose proof (N.div_mod n d ltac:(lia)) as Hn.
  pose proof (N.mod_lt n d ltac:(lia)) as Hr.
  set (q := n / d) in *. set (r := n mod d) in *.
  symmetry. apply (N.div_unique _ _ _ (n * M - U * q)).
  - (* n*M - U*q < U  : multiply by d *)
    assert (n * M * d = n * U + n * e) by nia.
    assert (U * q * d + U * r = n * U) by nia.
    assert (n * M * d < U * (q + 1) * d) by nia.
    nia.
  - assert (n * M * d = n * U + n * e) by nia.
    assert (U * q * d <= n * M * d) by nia.
    assert (U * q <= n * M) by nia. lia.
Qed.

Lemma size_bounds d : 0 < d -> 2 ^ (N.size d - 1) <= d < 2 ^ N.size d /\ 1 <= N.size d.
Proof.
  intros H. rewrite N.size_log2 by lia. pose proof (N.log2_spec d H).
  replace (N.succ (N.log2 d) - 1) with (N.log2 d) by lia. lia.
Qed.

Lemma size_le_64 d : 0 < d -> d < 2 ^ 64 -> 1 <= N.size d <= 64.
Proof.
  intros H1 H2. pose proof (size_bounds d H1) as [_ H3]. split; [assumption|].
  rewrite N.size_log2 by lia. apply N.log2_lt_pow2 in H2; lia.
Qed.

Lemma pos_ones_ge1 q : 1 <= pos_ones q.
Proof. induction q; cbn [pos_ones]; lia. Qed.

Lemma pos_ones_1 q : pos_ones q = 1 <-> Npos q = 2 ^ N.log2 (Npos q).
Proof.
  induction q as [q IH|q IH|].
  - cbn [pos_ones]. pose proof (pos_ones_ge1 q). split; intros H0; [lia|].
    exfalso. destruct (N.eq_dec (N.log2 (N.pos q~1)) 0) as [E|E].
    + rewrite E in H0. cbn in H0. discriminate.
    + replace (N.log2 (N.pos q~1)) with (N.succ (N.log2 (N.pos q~1) - 1)) in H0 by lia.
      rewrite N.pow_succ_r' in H0. lia.
  - cbn [pos_ones]. rewrite IH.
    change (N.pos q~0) with (2 * N.pos q). rewrite N.log2_double by lia.
    rewrite N.pow_succ_r'. split; intros H; lia.
  - cbn. tauto.
Qed.

Lemma is_power_of_two_spec d : 0 < d ->
  is_power_of_two d = true <-> d = 2 ^ (N.size d - 1).
Proof.
  intros H. unfold is_power_of_two, count_ones. destruct d as [|q]; [lia|].
  rewrite N.eqb_eq, pos_ones_1. rewrite N.size_log2 by lia.
  replace (N.succ (N.log2 (N.pos q)) - 1) with (N.log2 (N.pos q)) by lia. tauto.
Qed.

Lemma mullhi_spec x y : x < 2 ^ 64 -> y < 2 ^ 64 -> mullhi x y = x * y / 2 ^ 64.
Proof.
  intros Hx Hy. unfold mullhi. rewrite N.shiftr_div_pow2. apply trunc_small.
  apply N.div_lt_upper_bound; [apply pow2_nonzero|].
  apply N.mul_lt_mono; assumption.
Qed.

Definition u64 (n : N) : Prop := n < 2 ^ 64.

(* how a returned divider relates to its divisor *)
Definition divides (p : profile) (dv : divider) (d : N) : Prop :=
  forall n, u64 n -> divide p dv n = Ret (n / d).

Lemma floor_log2_ok d : 0 < d -> u64 d -> floor_log2 d = Ret (N.size d - 1).
Proof.
  intros H H2. unfold floor_log2, leading_zeros.
  destruct (d =? 0) eqn:E; [apply N.eqb_eq in E; lia|].
  pose proof (size_le_64 d H H2). f_equal. lia.
Qed.

Lemma fast_path_ok p d : 0 < d -> u64 d -> d <> 2 ^ (N.size d - 1) ->
  exists o, fast_path p d = Ret o /\ match o with Some dv => divides p dv d | None => True end.
Proof.
  intros Hd Hd64 Hnp. unfold fast_path.
  destruct (is_power_of_two d) eqn:Ep.
  { apply is_power_of_two_spec in Ep; [contradiction|assumption]. }
  rewrite floor_log2_ok by assumption. cbn [bind].
  pose proof (size_bounds d Hd) as [[Hlo Hhi] _]. pose proof (size_le_64 d Hd Hd64) as Hsz.
  set (fl := N.size d - 1) in *.
  assert (Hfl : fl < 64) by lia.
  assert (Hlt : 2 ^ fl < d) by lia.
  rewrite add_ok by (change (2 ^ 8) with 256; lia). cbn [bind].
  rewrite shl1_ok by lia. cbn [bind].
  set (u := 2 ^ (fl + 64)).
  assert (Hu : u = 2 ^ fl * 2 ^ 64) by (unfold u; rewrite N.pow_add_r; reflexivity).
  assert (Hu128 : u < 2 ^ 128) by (apply N.pow_lt_mono_r; lia).
  assert (Hudef : u = 2 ^ (fl + 64)) by reflexivity. clearbody u.
  pose proof (N.div_mod u d ltac:(lia)) as Hdm.
  pose proof (N.mod_lt u d ltac:(lia)) as Hr.
  assert (Hpd : u / d * d <= u) by (rewrite N.mul_comm; apply N.mul_div_le; lia).
  rewrite mul_ok by lia. cbn [bind].
  rewrite sub_ok by assumption. cbn [bind].
  replace (u - u / d * d) with (u mod d) by (rewrite N.mod_eq by lia; rewrite (N.mul_comm d); reflexivity).
  unfold u64 in *.
  rewrite trunc_small by lia.
  assert (Hr0 : u mod d <> 0).
  { intros H0. (* d divides a power of two *)
    assert (Hdiv : (d | 2 ^ (fl + 64))) by (rewrite <- Hudef; apply N.mod_divide; [lia|assumption]).
    assert (forall k d, (d | 2 ^ k) -> d = 2 ^ N.log2 d) as Hpow.
    { intros k. pattern k. apply N.peano_ind; clear k.
      - intros d0 H. rewrite N.pow_0_r in H. apply N.divide_1_r in H. subst; reflexivity.
      - intros k IH d0 H.
        destruct (N.even d0) eqn:Ev.
        + apply N.even_spec in Ev. destruct Ev as [d1 ->].
          rewrite N.pow_succ_r' in H. apply N.mul_divide_cancel_l in H; [|lia].
          assert (0 < d1).
          { destruct (N.eq_dec d1 0) as [->|]; [|lia]. apply N.divide_0_l in H.
            pose proof (pow2_nonzero k); contradiction. }
          rewrite N.log2_double by lia. rewrite N.pow_succ_r'. f_equal. apply IH; assumption.
        + assert (Hc : N.gcd d0 2 = 1).
          { destruct (N.eq_dec (N.gcd d0 2) 1) as [|Hne]; [assumption|].
            pose proof (N.gcd_divide_r d0 2) as H2. apply N.divide_pos_le in H2 as Hle; [|lia].
            assert (N.gcd d0 2 <> 0) by (intros Hz; apply N.gcd_eq_0 in Hz; lia).
            assert (Hg : N.gcd d0 2 = 2) by lia.
            pose proof (N.gcd_divide_l d0 2) as H3. rewrite Hg in H3.
            destruct H3 as [z Hz]. assert (N.even d0 = true) by (apply N.even_spec; exists z; lia).
            congruence. }
          rewrite N.pow_succ_r' in H. apply N.gauss in H; [|assumption]. apply IH; assumption. }
    apply Hpow in Hdiv.
    assert (Hfll : fl = N.log2 d) by (unfold fl; rewrite N.size_log2 by lia; lia).
    rewrite <- Hfll in Hdiv. contradiction. }
  destruct (0 <? u mod d) eqn:E1; [|apply N.ltb_ge in E1; lia].
  destruct (u mod d <? d) eqn:E2; [|apply N.ltb_ge in E2; lia].
  cbn [andb negb].
  rewrite sub_ok by lia. cbn [bind]. rewrite shl1_ok by assumption. cbn [bind].
  destruct (2 ^ fl <=? d - u mod d) eqn:E3.
  { exists None. auto. }
  apply N.leb_gt in E3.
  assert (Hm : u / d + 1 < 2 ^ 64).
  { assert (u / d < 2 ^ 64 - 1); [|lia].
    apply N.div_lt_upper_bound; [lia|]. rewrite Hu.
    assert (Hf : 2 ^ fl < 2 ^ 64 - 1).
    { apply N.le_lt_trans with (2 ^ 63); [apply N.pow_le_mono_r; lia|reflexivity]. }
    revert Hf Hlt. generalize (2 ^ fl). intros f Hf Hlt. change (2 ^ 64) with 18446744073709551616 in *. nia. }
  rewrite trunc_small by lia. rewrite add_ok by assumption. cbn [bind].
  eexists; split; [reflexivity|]. intros n Hn. unfold divide. unfold u64 in Hn.
  rewrite mullhi_spec by assumption. rewrite shr_ok by assumption. f_equal.
  rewrite N.shiftr_div_pow2, N.div_div by apply pow2_nonzero.
  rewrite <- N.pow_add_r. replace (64 + fl) with (fl + 64) by lia. rewrite <- Hudef.
  rewrite (N.mul_comm _ n). apply (magic_division u _ d (d - u mod d) n); [assumption|rewrite Hu; apply N.mul_pos_pos; apply pow2_pos| |].
  - revert Hdm Hr. generalize (u / d) (u mod d). intros m r Hdm Hr. rewrite Hdm.
    replace (d * m + r + (d - r)) with (d * m + d) by lia. ring.
  - apply N.lt_le_trans with (2 ^ 64 * 2 ^ fl); [apply N.mul_lt_mono; assumption|].
    rewrite Hu at 1. rewrite N.mul_comm. apply N.le_refl.
Qed.

Lemma general_path_ok p d : 0 < d -> u64 d -> d <> 2 ^ (N.size d - 1) ->
  exists dv, general_path p d = Ret dv /\ divides p dv d.
Proof.
  intros Hd Hd64 Hnp. unfold general_path, leading_zeros.
  pose proof (size_bounds d Hd) as [[Hlo Hhi] _]. pose proof (size_le_64 d Hd Hd64) as Hsz.
  rewrite sub_ok by lia. cbn [bind].
  replace (64 - (64 - N.size d)) with (N.size d) by lia.
  set (k := N.size d) in *.
  rewrite add_ok by (change (2 ^ 8) with 256; lia). cbn [bind].
  rewrite shl1_ok by lia. cbn [bind].
  set (e := 2 ^ (63 + k)).
  set (U := 2 ^ (64 + k)).
  assert (HU : U = 2 * e).
  { unfold U, e. replace (64 + k) with (N.succ (63 + k)) by lia. apply N.pow_succ_r'. }
  assert (HU2 : U = 2 ^ 64 * 2 ^ k) by (unfold U; apply N.pow_add_r).
  assert (Hk2 : 2 ^ k = 2 * 2 ^ (k - 1)).
  { replace k with (N.succ (k - 1)) at 1 by lia. apply N.pow_succ_r'. }
  assert (Hk63 : 2 ^ (k - 1) <= 2 ^ 63) by (apply N.pow_le_mono_r; lia).
  assert (HU128 : U <= 2 ^ 128) by (apply N.pow_le_mono_r; lia).
  unfold u64 in *.
  assert (Hde : d <= e).
  { apply N.lt_le_incl, N.lt_le_trans with (2 ^ k); [assumption|]. apply N.pow_le_mono_r; lia. }
  rewrite sub_ok by assumption. cbn [bind].
  rewrite add_ok by lia. cbn [bind].
  replace (e + (e - d)) with (U - d) by lia.
  pose proof (N.div_mod U d ltac:(lia)) as Hdm.
  pose proof (N.mod_lt U d ltac:(lia)) as Hr.
  assert (Hq : 2 + (U - d) / d = U / d + 1).
  { assert ((U - d) / d = U / d - 1); [|assert (1 <= U / d) by (apply N.div_le_lower_bound; lia); lia].
    symmetry. apply N.div_unique with (U mod d); [assumption|].
    assert (1 <= U / d) by (apply N.div_le_lower_bound; lia).
    rewrite N.mul_sub_distr_l. lia. }
  assert (Hm1 : 2 ^ 64 <= U / d).
  { apply N.div_le_lower_bound; [lia|]. rewrite HU2. nia. }
  assert (Hm2 : U / d < 2 * 2 ^ 64 - 1).
  { apply N.div_lt_upper_bound; [lia|]. rewrite HU2, Hk2.
    assert (2 ^ 63 < 2 * 2 ^ 64 - 1) by reflexivity. nia. }
  rewrite add_ok.
  2:{ rewrite Hq. apply N.lt_trans with (2 * 2 ^ 64); [lia|reflexivity]. }
  cbn [bind]. rewrite sub_ok by lia. cbn [bind].
  rewrite Hq.
  assert (Ht : trunc 64 (U / d + 1) = U / d + 1 - 2 ^ 64).
  { unfold trunc. symmetry. apply N.mod_unique with 1; lia. }
  rewrite Ht. eexists; split; [reflexivity|].
  intros n Hn. unfold divide. unfold u64 in Hn.
  set (ml := U / d + 1 - 2 ^ 64) in *.
  assert (Hml : ml < 2 ^ 64) by lia.
  rewrite mullhi_spec by assumption.
  assert (Hqn : ml * n / 2 ^ 64 <= n).
  { apply N.div_le_upper_bound; [apply pow2_nonzero|]. nia. }
  set (q := ml * n / 2 ^ 64) in *.
  rewrite sub_ok by assumption. cbn [bind].
  assert (Hhalf : N.shiftr (n - q) 1 + q = (n + q) / 2).
  { rewrite N.shiftr_div_pow2. change (2 ^ 1) with 2.
    rewrite <- N.div_add by lia. f_equal. lia. }
  unfold wrapping_add. rewrite Hhalf. rewrite N.mod_small.
  2:{ apply N.div_lt_upper_bound; lia. }
  rewrite shr_ok by lia. f_equal.
  rewrite N.shiftr_div_pow2, N.div_div by (try apply pow2_nonzero; lia).
  rewrite <- Hk2. unfold q.
  replace (n + ml * n / 2 ^ 64) with ((n * (U / d + 1)) / 2 ^ 64).
  2:{ replace (n * (U / d + 1)) with (ml * n + n * 2 ^ 64) by (unfold ml; nia).
      rewrite N.div_add by apply pow2_nonzero. lia. }
  rewrite N.div_div by apply pow2_nonzero. rewrite <- HU2.
  apply (magic_division U _ d (d - U mod d) n); [assumption|rewrite HU2; apply N.mul_pos_pos; apply pow2_pos| |].
  - revert Hdm Hr. generalize (U / d) (U mod d). intros m r Hdm Hr. rewrite Hdm.
    replace (d * m + r + (d - r)) with (d * m + d) by lia. ring.
  - assert (Hb : d - U mod d < 2 ^ k) by (apply N.le_lt_trans with d; [apply N.le_sub_l|assumption]).
    apply N.lt_le_trans with (2 ^ 64 * 2 ^ k); [apply N.mul_lt_mono; assumption|].
    rewrite HU2 at 1. apply N.le_refl.
Qed.

Lemma divide_by_ok p d : 0 < d -> u64 d -> exists dv, divide_by p d = Ret dv /\ divides p dv d.
Proof.
  intros Hd Hd64. unfold divide_by.
  destruct (0 <? d) eqn:E0; [|apply N.ltb_ge in E0; lia]. cbn [negb].
  unfold power_of_2_division.
  destruct (d =? 0) eqn:E1; [apply N.eqb_eq in E1; lia|].
  destruct (is_power_of_two d) eqn:E2; cbn [negb].
  - rewrite floor_log2_ok by assumption. cbn [bind]. eexists; split; [reflexivity|].
    intros n Hn. unfold divide. pose proof (size_le_64 d Hd Hd64).
    rewrite shr_ok by lia. rewrite N.shiftr_div_pow2.
    apply is_power_of_two_spec in E2; [|assumption]. rewrite <- E2. reflexivity.
  - cbn [bind].
    assert (Hnp : d <> 2 ^ (N.size d - 1)).
    { intros H. apply is_power_of_two_spec in H; [congruence|assumption]. }
    destruct (fast_path_ok p d Hd Hd64 Hnp) as (o & Ho & Hdv). rewrite Ho. cbn [bind].
    destruct o as [dv|]; [eauto|]. apply general_path_ok; assumption.
Qed.

Lemma divide_by_zero p : divide_by p 0 = Fail AssertFail.
Proof. reflexivity. Qed.
