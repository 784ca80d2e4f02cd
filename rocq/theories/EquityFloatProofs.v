(* Sums of counters as binary64 numbers, and their shares of the total. *)
From Coq Require Import Floats.SpecFloat QArith Qpower Lqa.
From Verif Require Import Base BaseProofs Float64 FloatProofs FloatSumProofs Hand FastDivide Range Combined Sim ConvergeProofs.
Local Open Scope Z_scope.

(* ------------------------------------------------------------------------- *)
(** * Integers up to 2^53 are exact *)

Lemma num_unique f g v w : is_num f v -> is_num g w -> (v == w)%Q -> f = g.
Proof.
  intros (m & e & -> & [C1 C2] & Ev) (m' & e' & -> & [C1' C2'] & Ew) E. rewrite Ev, Ew in E. clear Ev Ew.
  assert (Hlt : forall a b c d, 2 ^ 52 <= Z.pos a < 2 ^ 53 -> 2 ^ 52 <= Z.pos c < 2 ^ 53 -> (V (Z.pos a) b == V (Z.pos c) d)%Q -> b <= d).
  { intros a b c d [A1 A2] [A3 A4] H. assert (K : (B (52 + b) < B (53 + d))%Q); [|apply B_lt_inv in K; lia].
    rewrite !B_add, (B_Z 52), (B_Z 53) by lia. unfold V in H. pose proof (B_pos b) as Pb. pose proof (B_pos d) as Pd. rewrite Zle_Qle in A1. rewrite Zlt_Qlt in A4. nra. }
  assert (He : e = e') by (apply Z.le_antisymm; [apply (Hlt m e m' e')|apply (Hlt m' e' m e)]; try split; try assumption; symmetry; exact E). subst e'.
  assert (Hm : (inject_Z (Z.pos m) == inject_Z (Z.pos m'))%Q).
  { unfold V in E. pose proof (B_pos e) as Pe. apply Qmult_inj_r with (B e); [lra|exact E]. }
  apply (proj1 (inject_Z_injective _ _)) in Hm. injection Hm as Hm. rewrite Hm. reflexivity.
Qed.
Lemma num_ext f v w : is_num f v -> (v == w)%Q -> is_num f w.
Proof. intros (m & e & E & C & Ev) H. exists m, e. split; [exact E|]. split; [exact C|]. rewrite <- H. exact Ev. Qed.

Lemma int_float n : (0 < n <= 2 ^ 53)%N -> is_num (f_of_N n) (inject_Z (Z.of_N n)).
Proof.
  intros H. destruct (of_N_ok n) as (v & Hv); [change (2 ^ 128)%N with (2 ^ 53 * 2 ^ 75)%N; nia|]. eapply num_ext; [exact (proj1 Hv)|].
  apply (rounded_exact _ _ _ Hv). apply F_Z. lia.
Qed.
Lemma add_zero_r f v : is_num f v -> f_add f f_zero = f.
Proof. intros (m & e & -> & _). reflexivity. Qed.
Lemma add_int a b : (a + b <= 2 ^ 53)%N -> f_add (f_of_N a) (f_of_N b) = f_of_N (a + b).
Proof.
  intros H. destruct (N.eq_dec a 0) as [->|Ha].
  { rewrite N.add_0_l. change (f_of_N 0) with f_zero. destruct (N.eq_dec b 0) as [->|Hb]; [reflexivity|]. eapply num_add. apply int_float. lia. }
  destruct (N.eq_dec b 0) as [->|Hb].
  { rewrite N.add_0_r. change (f_of_N 0) with f_zero. eapply add_zero_r. apply int_float. lia. }
  pose proof (int_float a ltac:(lia)) as Na. pose proof (int_float b ltac:(lia)) as Nb. pose proof (int_float (a + b) ltac:(lia)) as Nc.
  assert (Hr : forall n, (0 < n <= 2 ^ 53)%N -> (B 0 <= inject_Z (Z.of_N n))%Q /\ (inject_Z (Z.of_N n) <= B 53)%Q).
  { intros n Hn. rewrite (B_Z 53) by lia. change (B 0) with (inject_Z 1). rewrite <- !Zle_Qle. lia. }
  destruct (Hr a ltac:(lia)) as [A1 A2]. destruct (Hr b ltac:(lia)) as [B1 B2].
  destruct (add_ok_range _ _ _ _ 0 53 ltac:(lia) ltac:(lia) ltac:(lia) Na Nb A1 A2 B1 B2) as (z & Hz).
  apply (num_unique _ _ _ _ (proj1 Hz) Nc).
  assert (E : (inject_Z (Z.of_N a) + inject_Z (Z.of_N b) == inject_Z (Z.of_N (a + b)))%Q) by (rewrite <- inject_Z_plus, N2Z.inj_add; reflexivity).
  rewrite <- E. apply (rounded_exact _ _ _ Hz). destruct (F_Z (Z.of_N (a + b)) ltac:(lia)) as (m & e & Hm & Em). exists m, e. split; [exact Hm|]. rewrite E. exact Em.
Qed.
Lemma div_int a s : (0 < a)%N -> (a <= s)%N -> (s <= 2 ^ 53)%N -> exists v, rounded (f_div (f_of_N a) (f_of_N s)) (inject_Z (Z.of_N a) / inject_Z (Z.of_N s)) v.
Proof.
  intros H0 H1 H2.
  assert (Hr : forall n, (0 < n <= 2 ^ 53)%N -> mid_range (inject_Z (Z.of_N n))).
  { intros n Hn. split.
    - apply Qle_trans with (B 0); [apply B_le; lia|]. change (B 0) with (inject_Z 1). rewrite <- Zle_Qle. lia.
    - apply Qle_trans with (B 53); [|apply B_le; lia]. rewrite (B_Z 53) by lia. rewrite <- Zle_Qle. lia. }
  apply div_ok; [apply int_float; lia|apply int_float; lia|apply Hr; lia|apply Hr; lia].
Qed.

(* ------------------------------------------------------------------------- *)
(** * Zero, or a number from 1 to 2^k *)

Definition upto_B (k : Z) (f : f64) (v : Q) : Prop := (f = f_zero /\ v == 0 \/ is_num f v /\ 1 <= v)%Q /\ (v <= B k)%Q.
Lemma upto_nonneg k f v : upto_B k f v -> (0 <= v)%Q.
Proof. intros [[[_ H]|[_ H]] _]; lra. Qed.
Lemma upto_more j k f v : j <= k -> upto_B j f v -> upto_B k f v.
Proof. intros H [H1 H2]. split; [exact H1|]. apply Qle_trans with (1 := H2). apply B_le. exact H. Qed.
Lemma upto_zero k : upto_B k f_zero 0.
Proof. split; [left; split; reflexivity|]. apply Qlt_le_weak, B_pos. Qed.

Lemma add_upto k j f g v w : 0 <= k -> k < 130 -> j <= k -> upto_B k f v -> upto_B j g w -> exists z, upto_B (k + 1) (f_add f g) z /\ (v <= z)%Q /\ (w <= z)%Q /\
  (forall u, F u -> (u < z)%Q -> ((u + z) * (1 # 2) <= v + w)%Q).
Proof.
  intros Hk0 Hk Hj Hf Hg0. pose proof (upto_more j k g w Hj Hg0) as Hg. clear Hg0.
  assert (HB : (B k + B k == B (k + 1))%Q) by (rewrite B_add, B_1; ring). pose proof (B_pos k) as Pk.
  destruct Hf as [[[-> E]|[Nf L]] U], Hg as [[[-> E']|[Ng L']] U'].
  - exists 0%Q. split; [apply upto_zero|]. split; [lra|]. split; [lra|]. intros u _ Hu. lra.
  - exists w. rewrite (num_add g w Ng). split; [split; [right; split; assumption|lra]|]. split; [lra|]. split; [lra|]. intros u _ Hu. lra.
  - exists v. rewrite (add_zero_r f v Nf). split; [split; [right; split; assumption|lra]|]. split; [lra|]. split; [lra|]. intros u _ Hu. lra.
  - assert (B0 : (B 0 == 1)%Q) by reflexivity.
    destruct (add_ok_range f g v w 0 k ltac:(lia) ltac:(lia) ltac:(lia) Nf Ng) as (z & Hz); try lra.
    exists z. split; [split|split; [|split]].
    + right. split; [exact (proj1 Hz)|]. apply (nearest_le _ _ _ (proj2 Hz)); [apply (F_Z 1); lia|]. change (inject_Z 1) with 1%Q. lra.
    + apply (nearest_ge _ _ _ (proj2 Hz)); [apply F_B|]. lra.
    + apply (nearest_le _ _ _ (proj2 Hz)); [exact (num_F _ _ Nf)|lra].
    + apply (nearest_le _ _ _ (proj2 Hz)); [exact (num_F _ _ Ng)|lra].
    + intros u Hu Hl. exact (proj1 (proj2 (proj2 Hz) u Hu) Hl).
Qed.

(* adding numbers up to 2^64 never leads above 2^118 *)
Lemma add_small f g v w : upto_B 118 f v -> upto_B 64 g w -> exists z, upto_B 118 (f_add f g) z.
Proof.
  intros Hf Hg. destruct (add_upto 118 64 f g v w ltac:(lia) ltac:(lia) ltac:(lia) Hf Hg) as (z & Hz & _ & _ & Hn). exists z. split; [exact (proj1 Hz)|].
  destruct (Qlt_le_dec (B 118) z) as [G|G]; [|exact G]. exfalso.
  pose proof (Hn (B 118) (F_B 118) G) as H1. pose proof (proj2 Hf) as H2. pose proof (proj2 Hg) as H3.
  assert (E1 : (B 118 == B 66 * inject_Z (2 ^ 52))%Q) by (rewrite <- (B_Z 52) by lia; apply (B_eq_mul 66 52); lia).
  assert (E2 : (B 66 == 4 * B 64)%Q) by (rewrite (B_eq_mul 2 64 66) by lia; reflexivity). pose proof (B_pos 64) as P64.
  destruct (proj1 Hz) as [[_ E]|[(m & e & _ & [C1 C2] & Ez) _]]; [pose proof (B_pos 118); lra|].
  assert (Hze : (B 118 <= V (Z.pos m) e)%Q) by lra.
  assert (He : 66 <= e).
  { assert (K : (B 118 < B (53 + e))%Q); [|apply B_lt_inv in K; lia]. apply Qle_lt_trans with (1 := Hze). unfold V. rewrite B_add, (B_Z 53) by lia. pose proof (B_pos e). rewrite Zlt_Qlt in C2. nra. }
  assert (E3 : (z == inject_Z (Z.pos m * 2 ^ (e - 66)) * B 66)%Q).
  { rewrite Ez. replace e with (66 + (e - 66)) at 1 by lia. rewrite V_shift by lia. reflexivity. }
  assert (Hm : 2 ^ 52 + 1 <= Z.pos m * 2 ^ (e - 66)).
  { assert (K : (inject_Z (2 ^ 52) < inject_Z (Z.pos m * 2 ^ (e - 66)))%Q); [|rewrite <- Zlt_Qlt in K; lia].
    apply Qmult_lt_r with (B 66); [apply B_pos|]. rewrite <- E3. lra. }
  rewrite Zle_Qle, inject_Z_plus in Hm. change (inject_Z 1) with 1%Q in Hm. pose proof (B_pos 66). nra.
Qed.
Lemma of_N_upto n : (n < 2 ^ 64)%N -> exists v, upto_B 64 (f_of_N n) v /\ (n <> 0%N -> (1 <= v)%Q).
Proof.
  intros H. destruct (N.eq_dec n 0) as [->|Hn]; [exists 0%Q; split; [apply upto_zero|congruence]|].
  destruct (of_N_ok n) as (v & Hv); [change (2 ^ 128)%N with (2 ^ 64 * 2 ^ 64)%N; nia|].
  assert (H1 : (1 <= v)%Q) by (apply (nearest_le _ _ _ (proj2 Hv)); [apply (F_Z 1); lia|change 1%Q with (inject_Z 1); rewrite <- Zle_Qle; lia]).
  exists v. split; [|intros _; exact H1]. split; [right; split; [exact (proj1 Hv)|exact H1]|].
  apply (nearest_ge _ _ _ (proj2 Hv)); [apply F_B|]. rewrite (B_Z 64) by lia. rewrite <- Zle_Qle. lia.
Qed.

(* sums of at most nine such numbers *)
Lemma sum_upto : forall es vs k s v, Forall2 (upto_B 119) es vs -> 119 <= k -> k + Z.of_nat (length es) < 130 -> upto_B k s v ->
  exists z, upto_B (k + Z.of_nat (length es)) (fold_left f_add es s) z /\ (v <= z)%Q /\ Forall (fun x => (x <= z)%Q) vs.
Proof.
  intros es vs k s v HF. revert k s v. induction HF as [|e x es vs He _ IH]; intros k s v Hk Hl Hs.
  - exists v. cbn [length fold_left]. rewrite Z.add_0_r. split; [exact Hs|]. split; [lra|constructor].
  - cbn [length fold_left] in *. destruct (add_upto k 119 s e v x ltac:(lia) ltac:(lia) ltac:(lia) Hs He) as (z & Hz & Z1 & Z2 & _).
    destruct (IH (k + 1) (f_add s e) z ltac:(lia) ltac:(lia) Hz) as (y & Hy & Y1 & Y2). exists y.
    replace (k + Z.of_nat (S (length es))) with (k + 1 + Z.of_nat (length es)) by lia. split; [exact Hy|]. split; [lra|]. constructor; [lra|exact Y2].
Qed.

(* 0.0 <= x && x <= 1.0 in Rust *)
Definition within_one (x : f64) : Prop := SFleb f_zero x = true /\ SFleb x f_1 = true.
Lemma one_form : f_1 = S754_finite false 4503599627370496 (-52).
Proof. vm_compute. reflexivity. Qed.
Lemma pos_leb (m k : positive) : Z.pos m <= Z.pos k -> match Pos.compare_cont Eq m k with Gt => false | _ => true end = true.
Proof. unfold Z.le. cbn [Z.compare]. unfold Pos.compare. generalize (Pos.compare_cont Eq m k). intros c Hc. destruct c; [reflexivity|reflexivity|contradiction]. Qed.
Lemma scale_52 : (inject_Z (2 ^ 52) * B (-52) == 1)%Q.
Proof. vm_compute. reflexivity. Qed.
Lemma num_within f v : is_num f v -> (v <= 1)%Q -> within_one f.
Proof.
  intros (m & e & -> & [C1 C2] & Ev) H. split; [reflexivity|]. unfold SFleb. rewrite one_form. cbn [SFcompare].
  assert (He : e <= -52).
  { assert (K : (B (52 + e) < B 1)%Q); [|apply B_lt_inv in K; lia]. rewrite B_add, (B_Z 52), B_1 by lia. unfold V in Ev. pose proof (B_pos e). rewrite Zle_Qle in C1. nra. }
  destruct (Z.compare_spec e (-52)) as [E|E|E]; [|reflexivity|lia]. subst e.
  assert (Hm : Z.pos m <= 2 ^ 52).
  { rewrite Zle_Qle. apply Qmult_le_r with (B (-52)); [apply B_pos|]. rewrite scale_52. unfold V in Ev. rewrite <- Ev. exact H. }
  apply pos_leb. exact Hm.
Qed.

Lemma share_within k e s v z : k < 150 -> upto_B k e v -> upto_B k s z -> (v <= z)%Q -> (s = f_zero /\ f_is_nan (f_div e s) = true) \/ (s <> f_zero /\ within_one (f_div e s)).
Proof.
  intros Hk He Hs Hle. pose proof (upto_nonneg _ _ _ He) as Hv. destruct Hs as [[[-> Ez]|[Ns Ls]] Us].
  - left. split; [reflexivity|]. destruct He as [[[-> _]|[_ L]] _]; [reflexivity|lra].
  - right. split; [destruct Ns as (m & e0 & -> & _); discriminate|]. destruct He as [[[-> _]|[Ne Le]] Ue].
    + destruct Ns as (m & e0 & -> & _). split; reflexivity.
    + assert (Hm : forall x, (1 <= x)%Q -> (x <= B k)%Q -> mid_range x).
      { intros x H1 H2. split; [apply Qle_trans with (B 0); [apply B_le; lia|exact H1]|]. apply Qle_trans with (1 := H2). apply B_le. lia. }
      destruct (div_ok e s v z Ne Ns (Hm v Le Ue) (Hm z Ls Us)) as (q & Hq). apply (num_within _ q (proj1 Hq)). apply (nearest_ge _ _ _ (proj2 Hq)); [apply (F_Z 1); lia|].
      change (inject_Z 1) with 1%Q. apply Qle_shift_div_r; lra.
Qed.

(* ------------------------------------------------------------------------- *)
(** * get_equity *)

(* a tie counter *)
Definition tie_ok (t : f64) : Prop := exists v, upto_B 118 t v.

Lemma equities_ok ws ts : length ws = length ts -> (length ws <= 9)%nat -> Forall (fun w => w < 2 ^ 64)%N ws -> Forall tie_ok ts ->
  (Forall (fun w => w = 0%N) ws /\ Forall (fun t => t = f_zero) ts /\ Forall (fun e => f_is_nan e = true) (get_equity ws ts)) \/ Forall within_one (get_equity ws ts).
Proof.
  intros Hl H9 Hw Ht. unfold get_equity. set (es := map (fun '(w, t) => f_add (f_add f_zero (f_of_N w)) t) (combine ws ts)).
  assert (HE : exists vs, Forall2 (upto_B 119) es vs /\ (Forall (fun v => v <= 0)%Q vs -> Forall (fun w => w = 0%N) ws /\ Forall (fun t => t = f_zero) ts)).
  { subst es. clear H9. revert ts Hl Ht. induction Hw as [|w ws Hw0 Hw IH]; intros [|t ts] Hl Ht; try discriminate.
    - exists []. split; [constructor|]. intros _. split; constructor.
    - inversion Ht as [|? ? (v & Hv) Ht']; subst. cbn [length] in Hl. injection Hl as Hl. destruct (IH ts Hl Ht') as (vs & F2 & Fz). cbn [combine map].
      destruct (of_N_upto w Hw0) as (x & Hx & Hx1).
      assert (Ez : f_add f_zero (f_of_N w) = f_of_N w).
      { destruct (proj1 Hx) as [[E _]|[Nx _]]; [rewrite E; reflexivity|eapply num_add; exact Nx]. }
      rewrite Ez. destruct (add_upto 118 118 (f_of_N w) t x v ltac:(lia) ltac:(lia) ltac:(lia) (upto_more 64 118 _ _ ltac:(lia) Hx) Hv) as (z & Hz & Z1 & Z2 & _).
      exists (z :: vs). split; [constructor; [exact Hz|exact F2]|]. intros Hall. inversion Hall as [|? ? Hz0 Hall']; subst. destruct (Fz Hall') as [F3 F4].
      split; constructor; try assumption.
      + destruct (N.eq_dec w 0) as [E|E]; [exact E|]. specialize (Hx1 E). lra.
      + destruct Hv as [[[E _]|[_ L]] _]; [exact E|lra]. }
  destruct HE as (vs & F2 & Fz).
  assert (Hlen : (length es <= 9)%nat) by (unfold es; rewrite map_length, combine_length; lia).
  destruct (sum_upto es vs 119 f_zero 0 F2 ltac:(lia) ltac:(lia) (upto_zero 119)) as (z & Hz & _ & Hall).
  set (s := fold_left f_add es f_zero) in *. assert (Hk : 119 + Z.of_nat (length es) < 150) by lia.
  assert (HS : forall e, In e es -> (s = f_zero /\ f_is_nan (f_div e s) = true) \/ (s <> f_zero /\ within_one (f_div e s))).
  { clear - F2 Hall Hz Hk. revert Hz Hk. generalize (119 + Z.of_nat (length es)) as k. intros k Hz Hk. clearbody s.
    induction F2 as [|x v es vs Hx _ IH]; intros e He; [destruct He|].
    inversion Hall as [|? ? Hv Hall']; subst. destruct He as [->|He]; [|exact (IH Hall' e He)].
    apply (share_within 149 e s v z); [lia| | |exact Hv].
    - apply (upto_more 119); [lia|exact Hx].
    - apply (upto_more k); [lia|exact Hz]. }
  destruct (Z_le_gt_dec (Z.of_nat (length es)) 0) as [L0|G0].
  { right. destruct es; [constructor|cbn [length] in L0; lia]. }
  assert (Hs : s = f_zero \/ s <> f_zero) by (destruct (proj1 Hz) as [[E _]|[(m & e & E & _) _]]; [left; exact E|right; rewrite E; discriminate]).
  destruct Hs as [Es|Es].
  - left. assert (Ez : (z <= 0)%Q).
    { destruct (proj1 Hz) as [[_ E]|[(m & e & E & _) _]]; [lra|rewrite Es in E; discriminate]. }
    destruct Fz as [F3 F4]; [eapply Forall_impl; [|exact Hall]; cbv beta; intros v Hv; lra|]. split; [exact F3|]. split; [exact F4|].
    apply Forall_forall. intros x Hx. apply in_map_iff in Hx as (e & <- & He). destruct (HS e He) as [[_ H]|[H _]]; [exact H|contradiction].
  - right. apply Forall_forall. intros x Hx. apply in_map_iff in Hx as (e & <- & He). destruct (HS e He) as [[H _]|[_ H]]; [contradiction|exact H].
Qed.
