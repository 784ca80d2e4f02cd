(* Rates computed from counters: sums of shared pots, quotients. *)
From Coq Require Import Floats.SpecFloat QArith Qabs Qpower Lqa.
From Verif Require Import Base BaseProofs Float64 FloatProofs FloatSumProofs ProgressProofs ConvergeProofs EquityFloatProofs Sim SpecShare SpecRates ShareProofs.
Local Open Scope N_scope.

Definition q (x : N) : Q := inject_Z (Z.of_N x).
Lemma q_add a b : (q (a + b) == q a + q b)%Q. Proof. apply Z_of_add. Qed.
Lemma q_mul a b : (q (a * b) == q a * q b)%Q. Proof. apply Z_of_mul. Qed.
Lemma q_le a b : a <= b -> (q a <= q b)%Q. Proof. apply Z_of_le. Qed.
Lemma q_lt a b : a < b -> (q a < q b)%Q. Proof. apply Z_of_lt. Qed.
Lemma q_pos a : (0 <= q a)%Q. Proof. apply (q_le 0). lia. Qed.
Lemma F_half a : a <= 2 ^ 53 -> F (q a * (1 # 2)).
Proof. intros H. exists (Z.of_N a), (-1)%Z. split; [lia|]. unfold V, q. change (B (-1)) with (1 # 2)%Q. reflexivity. Qed.
Lemma F_q a : a <= 2 ^ 53 -> F (q a).
Proof. intros H. apply F_Z. lia. Qed.
Lemma q_53 a : a <= 2 ^ 53 -> (q a <= B 53)%Q.
Proof. intros H. rewrite (B_Z 53) by lia. apply (q_le a (2 ^ 53)). exact H. Qed.
Lemma B_m4 : (B (-4) == 1 # 16)%Q. Proof. reflexivity. Qed.

(* a float which is zero or at least 2^-4 *)
Definition level (f : f64) (v : Q) : Prop := (f = f_zero /\ v == 0 \/ is_num f v /\ B (-4) <= v)%Q.
Lemma level_pos f v : level f v -> (0 <= v)%Q.
Proof. intros [[_ H]|[_ H]]; [lra|]. pose proof (B_pos (-4)). lra. Qed.
Lemma level_int a : a <= 2 ^ 53 -> level (f_of_N a) (q a).
Proof.
  intros H. destruct (N.eq_dec a 0) as [->|H0]; [left; split; reflexivity|]. right. split; [apply int_float; lia|].
  assert (H1 : (q 1 <= q a)%Q) by (apply q_le; lia). change (q 1) with 1%Q in H1. rewrite B_m4. lra.
Qed.
Lemma level_add f g v w k : level f v -> level g w -> (v + w <= q k)%Q -> k <= 2 ^ 53 ->
  exists z, level (f_add f g) z /\ (forall u, F u -> (v + w <= u)%Q -> (z <= u)%Q) /\ (forall u, F u -> (u <= v + w)%Q -> (u <= z)%Q) /\ (F (v + w) -> z == v + w)%Q.
Proof.
  intros Hf Hg Hk H53. pose proof (level_pos _ _ Hf) as Pv. pose proof (level_pos _ _ Hg) as Pw. destruct Hf as [[-> Ev]|[Nf Lf]].
  - destruct Hg as [[-> Ew]|[Ng Lg]].
    + exists 0%Q. split; [left; split; reflexivity|]. split; [|split]; intros; lra.
    + exists w. split; [right; rewrite (num_add _ _ Ng); auto|]. split; [|split]; intros; lra.
  - destruct Hg as [[-> Ew]|[Ng Lg]].
    + exists v. split; [right; rewrite (add_zero_r _ _ Nf); auto|]. split; [|split]; intros; lra.
    + pose proof (q_53 k H53) as Hb.
      destruct (add_ok_range f g v w (-4) 53 ltac:(lia) ltac:(lia) ltac:(lia) Nf Ng Lf ltac:(lra) Lg ltac:(lra)) as (z & Hz).
      pose proof Hz as [Nz Rz]. exists z. split; [right; split; [exact Nz|]|split; [|split]].
      * apply (nearest_le _ _ _ Rz); [apply F_B|lra].
      * intros u Hu Hle. apply (nearest_ge _ _ _ Rz Hu Hle).
      * intros u Hu Hle. apply (nearest_le _ _ _ Rz Hu Hle).
      * apply (rounded_exact _ _ _ Hz).
Qed.

(* the least share of a pot *)
Definition part (n : nat) : Q := if (n <=? 2)%nat then 1 # 2 else if (n <=? 4)%nat then 1 # 4 else if (n <=? 8)%nat then 1 # 8 else 1 # 16.
Lemma part_cases n : power_above n = 2 /\ part n = (1 # 2)%Q /\ (n <= 2)%nat \/ power_above n = 4 /\ part n = (1 # 4)%Q /\ (n <= 4)%nat \/
  power_above n = 8 /\ part n = (1 # 8)%Q /\ (n <= 8)%nat \/ power_above n = 16 /\ part n = (1 # 16)%Q.
Proof. unfold power_above, part. destruct (Nat.leb_spec n 2), (Nat.leb_spec n 4), (Nat.leb_spec n 8); auto 8. Qed.
Lemma F_part n a : a <= 2 ^ 53 -> F (q a * part n).
Proof.
  intros H. destruct (part_cases n) as [(_ & -> & _)|[(_ & -> & _)|[(_ & -> & _)|(_ & ->)]]].
  - exact (F_half a H).
  - exists (Z.of_N a), (-2)%Z. split; [lia|]. unfold V, q. change (B (-2)) with (1 # 4)%Q. reflexivity.
  - exists (Z.of_N a), (-3)%Z. split; [lia|]. unfold V, q. change (B (-3)) with (1 # 8)%Q. reflexivity.
  - exists (Z.of_N a), (-4)%Z. split; [lia|]. unfold V, q. change (B (-4)) with (1 # 16)%Q. reflexivity.
Qed.
(* the sum f of the shares of pots of total weight t: at most half of each *)
Definition half (n : nat) (t : N) (f : f64) : Prop :=
  t <= 2 ^ 53 -> exists v, level f v /\ (v <= q t * (1 # 2))%Q /\ (q t * part n <= v)%Q.
Lemma half_zero n : half n 0 f_zero.
Proof. intros _. exists 0%Q. split; [left; split; reflexivity|]. change (q 0) with 0%Q. split; lra. Qed.
Lemma half_add n a b f g : half n a f -> half n b g -> half n (a + b) (f_add f g).
Proof.
  intros Hf Hg H. destruct (Hf ltac:(lia)) as (v & Lv & Uv & Dv). destruct (Hg ltac:(lia)) as (w & Lw & Uw & Dw). pose proof (q_add a b) as Eq.
  pose proof (q_pos (a + b)) as P0. pose proof (level_pos _ _ Lv). pose proof (level_pos _ _ Lw).
  destruct (level_add f g v w (a + b) Lv Lw ltac:(lra) H) as (z & Lz & Uz & Dz & _). exists z. split; [exact Lz|]. split.
  - apply Uz; [apply F_half; exact H|]. lra.
  - apply Dz; [apply F_part; exact H|]. rewrite Eq. lra.
Qed.
Lemma mid_q a : 0 < a -> a <= 2 ^ 53 -> mid_range (q a).
Proof.
  intros H0 H. assert (H1 : (q 1 <= q a)%Q) by (apply q_le; lia). change (q 1) with 1%Q in H1. split.
  - apply Qle_trans with 1%Q; [|exact H1]. change 1%Q with (B 0). apply B_le. lia.
  - apply Qle_trans with (1 := q_53 a H). apply B_le. lia.
Qed.
Lemma zero_div a : 0 < a -> a <= 2 ^ 53 -> f_div f_zero (f_of_N a) = f_zero.
Proof. intros H0 H. destruct (int_float a ltac:(lia)) as (m & e & E & _). rewrite E. reflexivity. Qed.
Lemma half_share n w c : (2 <= c)%nat -> (c <= n)%nat -> (n <= 9)%nat -> half n w (f_div (f_of_N w) (f_of_N (N.of_nat c))).
Proof.
  intros Hc2 Hcn Hn9 H. assert (Hc : 0 < N.of_nat c <= 2 ^ 53) by (split; [lia|apply N.le_trans with 9; [lia|discriminate]]).
  destruct (N.eq_dec w 0) as [->|Hw].
  { exists 0%Q. change (f_of_N 0) with f_zero. rewrite zero_div by lia. split; [left; split; reflexivity|]. change (q 0) with 0%Q. split; lra. }
  assert (Hq : (2 <= q (N.of_nat c))%Q) by (apply (q_le 2); lia). assert (Hq9 : (q (N.of_nat c) <= 9)%Q) by (apply (q_le _ 9); lia).
  assert (Hw1 : (1 <= q w)%Q) by (apply (q_le 1); lia).
  destruct (div_ok _ _ _ _ (int_float w ltac:(lia)) (int_float (N.of_nat c) ltac:(lia)) (mid_q w ltac:(lia) H) (mid_q (N.of_nat c) ltac:(lia) ltac:(lia))) as (z & Hz).
  fold (q w) (q (N.of_nat c)) in Hz. pose proof Hz as [Nz Rz]. exists z.
  assert (Ed : (q w / q (N.of_nat c) * q (N.of_nat c) == q w)%Q) by (field; lra). set (d := (q w / q (N.of_nat c))%Q) in *.
  split; [right; split; [exact Nz|]|split].
  - apply (nearest_le _ _ _ Rz); [apply F_B|]. rewrite B_m4. apply Qle_shift_div_l; lra.
  - apply (nearest_ge _ _ _ Rz); [apply F_half; exact H|]. apply Qle_shift_div_r; [lra|]. nra.
  - apply (nearest_le _ _ _ Rz); [apply F_part; exact H|]. apply Qle_shift_div_l; [lra|].
    assert (Hp : (q (N.of_nat c) * part n <= 1)%Q).
    { destruct (part_cases n) as [(_ & -> & Hk)|[(_ & -> & Hk)|[(_ & -> & Hk)|(_ & ->)]]]; [| | |lra].
      - assert (q (N.of_nat c) <= 2)%Q by (apply (q_le _ 2); lia). lra.
      - assert (q (N.of_nat c) <= 4)%Q by (apply (q_le _ 4); lia). lra.
      - assert (q (N.of_nat c) <= 8)%Q by (apply (q_le _ 8); lia). lra. }
    revert Hp. generalize (part n), (q (N.of_nat c)). intros. nra.
Qed.

(* ------------------------------------------------------------------------- *)
(** * The specification of rounding *)

Lemma digits_53 m : (2 ^ 52 <= Z.pos m < 2 ^ 53)%Z -> Z.pos (digits2_pos m) = 53%Z.
Proof.
  intros H. pose proof (digits_ok m) as K. set (d := Z.pos (digits2_pos m)) in *.
  destruct (Z_lt_le_dec d 53) as [L|L]; [pose proof (Z.pow_le_mono_r 2 d 52); lia|].
  destruct (Z_lt_le_dec 53 d) as [G|G]; [pose proof (Z.pow_le_mono_r 2 53 (d - 1)); lia|lia].
Qed.
Lemma num_float f v lo hi : (-200 <= lo)%Z -> (hi <= 200)%Z -> is_num f v -> (B lo <= v)%Q -> (v <= B hi)%Q -> float f.
Proof.
  intros Hlo Hhi (m & e & -> & C & Ev) L H. rewrite Ev in L, H. pose proof (num_exp _ _ _ _ C L H) as R. split; [exact I|]. destruct C as [C1 C2].
  cbn [valid_binary]. unfold bounded, canonical_mantissa, fexp, emin. rewrite (digits_53 m) by lia.
  apply andb_true_iff. split; [apply Zeq_is_eq_bool|apply Zle_imp_le_bool]; lia.
Qed.
Lemma float_zero : float f_zero. Proof. split; [exact I|reflexivity]. Qed.
Lemma value_zero : value f_zero = 0%Q. Proof. reflexivity. Qed.
(* the value of a float *)
Lemma float_F g : float g -> (0 <= value g)%Q -> F (value g).
Proof.
  intros [Hn Hv] H0. destruct g as [s|s| |s m e]; try contradiction.
  - exists 0%Z, 0%Z. split; [lia|]. reflexivity.
  - destruct s.
    + exfalso. unfold value in H0. change (Qpower 2 e) with (B e) in H0. pose proof (V_pos (Z.pos m) e ltac:(lia)) as P. unfold V in P.
      assert (E : (inject_Z (Z.neg m) == - inject_Z (Z.pos m))%Q) by reflexivity. rewrite E in H0. lra.
    + exists (Z.pos m), e. split; [|reflexivity]. cbn [valid_binary] in Hv. unfold bounded, canonical_mantissa, fexp in Hv. apply andb_true_iff in Hv as [Hv _].
      apply Zeq_is_eq_bool in Hv. pose proof (digits_ok m) as K. assert (D : (Z.pos (digits2_pos m) <= 53)%Z) by lia.
      pose proof (Z.pow_le_mono_r 2 (Z.pos (digits2_pos m)) 53). lia.
Qed.
Lemma nearest_closest x v u : nearest x v -> (0 <= x)%Q -> (0 <= v)%Q -> (0 <= u -> F u)%Q -> (Qabs (v - x) <= Qabs (u - x))%Q.
Proof.
  intros Hn Hx Hv Hu.
  assert (G : forall u, F u -> (Qabs (v - x) <= Qabs (u - x))%Q).
  { intros w Hw. destruct Hn as [_ H]. destruct (H w Hw) as [H1 H2]. pose proof (Qle_Qabs (w - x)) as A1. pose proof (Qle_Qabs (- (w - x))) as A2. rewrite Qabs_opp in A2.
    apply Qabs_Qle_condition. destruct (Qlt_le_dec w v) as [L|L].
    - specialize (H1 L). split; lra.
    - destruct (Qlt_le_dec v w) as [L2|L2]; [specialize (H2 L2)|]; split; lra. }
  destruct (Qlt_le_dec u 0) as [L|L]; [|exact (G u (Hu L))].
  assert (H0 : F 0) by (exists 0%Z, 0%Z; split; [lia|reflexivity]). specialize (G 0%Q H0). pose proof (Qle_Qabs (- (u - x))) as A2. rewrite Qabs_opp in A2.
  assert (E : (Qabs (0 - x) == x)%Q) by (rewrite <- Qabs_opp, Qabs_pos; [ring|lra]). lra.
Qed.
Lemma rounded_closest f x v lo hi : (-200 <= lo)%Z -> (hi <= 200)%Z -> rounded f x v -> (0 <= x)%Q -> (B lo <= v)%Q -> (v <= B hi)%Q -> closest f x.
Proof.
  intros Hlo Hhi [Nf Rf] Hx L H. pose proof (num_pos _ _ Nf) as Pv. destruct (value_num _ _ Nf) as [_ Ev]. split; [eapply num_float; eassumption|].
  intros g Hg. rewrite Ev. apply nearest_closest; [exact Rf|exact Hx|lra|]. intros H0. apply float_F; assumption.
Qed.
Lemma closest_zero x : (x == 0)%Q -> closest f_zero x.
Proof.
  intros H. split; [exact float_zero|]. intros g _. rewrite value_zero, H. change (Qabs (0 - 0)) with 0%Q. apply Qabs_nonneg.
Qed.

(* a quotient of a sum of levels *)
Lemma level_div f v s : level f v -> (v <= q s)%Q -> 0 < s -> s <= 2 ^ 53 -> let e := f_div f (f_of_N s) in
  closest e (v / q s) /\ (0 <= value e)%Q /\ (forall g, float g -> (value g <= v / q s)%Q -> (value g <= value e)%Q) /\ (forall g, float g -> (v / q s <= value g)%Q -> (value e <= value g)%Q).
Proof.
  intros Lf Hs H0 H53 e. pose proof (level_pos _ _ Lf) as Pv. assert (Ps : (1 <= q s)%Q) by (apply (q_le 1); lia).
  assert (Ed : (v / q s * q s == v)%Q) by (field; lra). destruct Lf as [[-> Ev]|[Nf Lf]].
  - unfold e. rewrite zero_div by assumption. assert (E : (v / q s == 0)%Q) by (rewrite Ev; field; lra). split; [apply closest_zero; exact E|]. rewrite value_zero.
    split; [lra|]. split; intros g _; rewrite E; auto.
  - assert (Hb : (v <= B 53)%Q) by (apply Qle_trans with (1 := Hs); apply q_53; exact H53).
    assert (Hm : mid_range v). { split; [apply Qle_trans with (2 := Lf); apply B_le; lia|apply Qle_trans with (1 := Hb); apply B_le; lia]. }
    destruct (div_ok _ _ _ _ Nf (int_float s ltac:(lia)) Hm (mid_q s H0 H53)) as (z & Hz). fold (q s) e in Hz. pose proof Hz as [Nz Rz].
    destruct (value_num _ _ Nz) as [_ Ez]. pose proof (num_pos _ _ Nz) as Pz.
    assert (D0 : (0 <= v / q s)%Q) by (apply Qle_shift_div_l; lra). assert (D1 : (v / q s <= 1)%Q) by (apply Qle_shift_div_r; lra).
    assert (DL : (B (-57) <= v / q s)%Q).
    { apply Qle_shift_div_l; [lra|]. apply Qle_trans with (2 := Lf). apply Qle_trans with (B (-57) * B 53)%Q; [|rewrite <- B_add; apply Qle_refl].
      rewrite !(Qmult_comm (B (-57))). apply Qmult_le_compat_r; [apply q_53; exact H53|apply Qlt_le_weak, B_pos]. }
    split; [|split; [rewrite Ez; lra|]].
    + apply (rounded_closest e _ z (-57) 0); [lia|lia|exact Hz|exact D0|apply (nearest_le _ _ _ Rz); [apply F_B|exact DL]|apply (nearest_ge _ _ _ Rz); [apply F_B|exact D1]].
    + split; intros g Hg Hle; rewrite Ez in *.
      * destruct (Qlt_le_dec (value g) 0) as [L|L]; [lra|]. apply (nearest_le _ _ _ Rz); [apply float_F; assumption|exact Hle].
      * apply (nearest_ge _ _ _ Rz); [apply float_F; [assumption|lra]|exact Hle].
Qed.
Lemma closest_ext f x y : (x == y)%Q -> closest f x -> closest f y.
Proof. intros E [H1 H2]. split; [exact H1|]. intros g Hg. rewrite <- E. apply H2. exact Hg. Qed.
Lemma int_closest a s : a <= s -> 0 < s -> s <= 2 ^ 53 -> closest (f_div (f_of_N a) (f_of_N s)) (ratio a s).
Proof. intros H H0 H53. apply (level_div (f_of_N a) (q a) s (level_int a ltac:(lia)) (q_le _ _ H) H0 H53). Qed.

(* ------------------------------------------------------------------------- *)
(** * The equity of an entry *)

Definition share_float (wins : N) (ct : f64) (total : N) : f64 := f_div (f_add (f_of_N wins) ct) (f_of_N total).
Lemma equity_ok n wins ties total ct : half n ties ct -> wins + ties <= total -> 0 < total -> total <= 2 ^ 49 -> let e := share_float wins ct total in
  between e (ratio (power_above n * wins + ties) (power_above n * total)) (ratio (2 * wins + ties) (2 * total)) /\ (n = 2%nat -> closest e (ratio (2 * wins + ties) (2 * total))).
Proof.
  intros Hh Hw H0 H49 e. assert (H53 : 16 * total <= 2 ^ 53) by (change (2 ^ 53) with (16 * 2 ^ 49); lia).
  assert (HP : exists P, power_above n = P /\ 2 <= P <= 16 /\ (q P * part n == 1)%Q).
  { destruct (part_cases n) as [(-> & -> & _)|[(-> & -> & _)|[(-> & -> & _)|(-> & ->)]]]; eexists; (split; [reflexivity|split; [lia|reflexivity]]). }
  destruct HP as (P & -> & HP & Epart).
  destruct (Hh ltac:(lia)) as (v & Lv & Uv & Dv). pose proof (level_pos _ _ Lv) as Pv. pose proof (q_le _ _ Hw) as Hq. rewrite q_add in Hq. pose proof (q_pos ties) as Pt. pose proof (q_pos wins) as Pw.
  assert (Ps : (1 <= q total)%Q) by (apply (q_le 1); lia). assert (P2 : (2 <= q P)%Q) by (apply (q_le 2); lia).
  destruct (level_add (f_of_N wins) ct (q wins) v total (level_int wins ltac:(lia)) Lv ltac:(lra) ltac:(lia)) as (z & Lz & Uz & Dz & _).
  assert (Eh : (q (2 * wins + ties) == 2 * q wins + q ties)%Q) by (rewrite q_add, q_mul; reflexivity).
  assert (Et : (q (2 * total) == 2 * q total)%Q) by (rewrite q_mul; reflexivity).
  assert (Eh' : (q (P * wins + ties) == q P * q wins + q ties)%Q) by (rewrite q_add, q_mul; reflexivity).
  assert (Et' : (q (P * total) == q P * q total)%Q) by (rewrite q_mul; reflexivity).
  assert (El : (q (P * wins + ties) * part n == q wins + q ties * part n)%Q).
  { rewrite Eh'. setoid_replace ((q P * q wins + q ties) * part n)%Q with ((q P * part n) * q wins + q ties * part n)%Q by ring. rewrite Epart. ring. }
  assert (Z1 : (q (P * wins + ties) * part n <= z)%Q) by (apply Dz; [apply F_part; nia|rewrite El; lra]).
  assert (Z2 : (z <= q (2 * wins + ties) * (1 # 2))%Q) by (apply Uz; [apply F_half; lia|lra]).
  assert (Z3 : (z <= q total)%Q) by lra.
  assert (R1 : (ratio (P * wins + ties) (P * total) <= z / q total)%Q).
  { unfold ratio. fold (q (P * wins + ties)) (q (P * total)). apply Qle_shift_div_l; [lra|].
    setoid_replace (q (P * wins + ties) / q (P * total) * q total)%Q with (q (P * wins + ties) / q P)%Q by (rewrite Et'; field; lra).
    apply Qle_shift_div_r; [lra|]. setoid_replace (q (P * wins + ties))%Q with (q (P * wins + ties) * (q P * part n))%Q by (rewrite Epart; ring). nra. }
  assert (R2 : (z / q total <= ratio (2 * wins + ties) (2 * total))%Q).
  { unfold ratio. fold (q (2 * wins + ties)) (q (2 * total)). apply Qle_shift_div_r; [lra|].
    setoid_replace (q (2 * wins + ties) / q (2 * total) * q total)%Q with (q (2 * wins + ties) * (1 # 2))%Q by (rewrite Et; field; lra). exact Z2. }
  destruct (level_div _ z total Lz Z3 H0 ltac:(lia)) as (Hc & _ & Hlo & Hhi). fold (share_float wins ct total) in Hc, Hlo, Hhi. fold e in Hc, Hlo, Hhi.
  split.
  - split; [apply Hc|]. split; intros g Hg Hle; [apply Hlo|apply Hhi]; try assumption; lra.
  - intros ->. apply (closest_ext e (z / q total)); [|exact Hc]. change (part 2) with (1 # 2)%Q in *. assert (EP : (q P == 2)%Q) by lra.
    assert (E : (z == q (2 * wins + ties) * (1 # 2))%Q) by (rewrite Eh', EP in Z1; lra).
    unfold ratio. fold (q (2 * wins + ties)) (q (2 * total)). rewrite E, Et. field. lra.
Qed.
