(* The reported percentage of an exact run: monotone, at most 100, 100 at the end. *)
From Coq Require Import Floats.SpecFloat QArith Qround Lqa.
From Coq Require Import Sorted.
From Verif Require Import Base Float64 Hand Range Combined Sim SpecEquity SpecRun ResultProofs RunProofs FloatProofs.
Local Open Scope Z_scope.

Lemma num_exp_unique m e m' e' : canon m -> canon m' -> (V (Z.pos m) e <= V (Z.pos m') e')%Q -> e <= e'.
Proof.
  intros [C1 C2] [D1 D2] H. cut (e + 52 < e' + 53); [lia|]. apply B_lt_inv. unfold V in H.
  rewrite !B_add, (B_Z 52), (B_Z 53) by lia. rewrite Zle_Qle in C1. rewrite Zlt_Qlt in D2.
  pose proof (B_pos e) as He. pose proof (B_pos e') as He'. nra.
Qed.

Lemma num_unique f g v w : is_num f v -> is_num g w -> (v == w)%Q -> f = g.
Proof.
  intros (m & e & -> & C & Ev) (m' & e' & -> & C' & Ew) E.
  assert (H1 : e <= e') by (apply (num_exp_unique m e m' e' C C'); lra).
  assert (H2 : e' <= e) by (apply (num_exp_unique m' e' m e C' C); lra).
  assert (e = e') by lia. subst e'. assert (K : (V (Z.pos m) e == V (Z.pos m') e)%Q) by lra.
  unfold V in K. apply Qmult_inj_r in K; [|pose proof (B_pos e); lra].
  unfold Qeq, inject_Z in K. cbn in K. f_equal. lia.
Qed.

(* two positive numbers in order *)
Definition num_le (f g : f64) : Prop := exists v w, is_num f v /\ is_num g w /\ (v <= w)%Q.

Lemma rounded_le f g x y v w : rounded f x v -> rounded g y w -> (x < y)%Q -> num_le f g.
Proof.
  intros [Nf Rf] [Ng Rg] L. exists v, w. split; [exact Nf|]. split; [exact Ng|]. apply (nearest_mono x y); assumption.
Qed.
Lemma num_le_refl f v : is_num f v -> num_le f f.
Proof. intros H. exists v, v. repeat split; try exact H. lra. Qed.

Lemma is_num_pos f v : is_num f v -> (0 < v)%Q.
Proof. intros (m & e & _ & _ & E). rewrite E. apply V_pos. lia. Qed.

Section Progress.
  Variable t : N.
  Hypothesis Ht : (0 < t < 2 ^ 63)%N.

  Definition in_run (e : N) : Prop := (0 < e <= t)%N.

  Lemma B63 : (B 63 == inject_Z (2 ^ 63))%Q. Proof. apply B_Z. lia. Qed.

  Lemma pos_num e : in_run e -> exists v, rounded (f_of_N e) (inject_Z (Z.of_N e)) v /\ (1 <= v)%Q /\ (v <= B 63)%Q.
  Proof.
    intros [H1 H2]. assert (Hb : (0 < e < 2 ^ 128)%N) by lia.
    destruct (of_N_ok e Hb) as (v & R). exists v. split; [exact R|]. destruct R as [_ N]. split.
    - apply (nearest_le _ _ 1 N); [apply (F_B 0)|]. change 1%Q with (inject_Z 1). rewrite <- Zle_Qle. lia.
    - apply (nearest_ge _ _ (B 63) N); [apply F_B|]. rewrite B63, <- Zle_Qle. lia.
  Qed.

  Lemma pos_mono e e' : in_run e -> in_run e' -> (e <= e')%N -> num_le (f_of_N e) (f_of_N e').
  Proof.
    intros H H' L. destruct (pos_num e H) as (v & R & _). destruct (pos_num e' H') as (v' & R' & _).
    destruct (N.eq_dec e e') as [->|Ne]; [exact (num_le_refl _ _ (proj1 R'))|].
    apply (rounded_le _ _ _ _ _ _ R R'). rewrite <- Zlt_Qlt. lia.
  Qed.

  Lemma mid_63 v : (1 <= v)%Q -> (v <= B 63)%Q -> mid_range v.
  Proof.
    intros L H. split.
    - apply Qle_trans with (2 := L). change 1%Q with (B 0). apply B_le. lia.
    - apply Qle_trans with (1 := H). apply B_le. lia.
  Qed.

  Definition ratio (e : N) : f64 := f_div (f_of_N e) (f_of_N t).

  Lemma t_num : in_run t. Proof. unfold in_run. lia. Qed.

  Lemma ratio_num e : in_run e -> exists v w z,
    is_num (f_of_N e) v /\ is_num (f_of_N t) w /\ rounded (ratio e) (v / w) z /\ (B (-63) <= z)%Q /\ (z <= 1)%Q.
  Proof.
    intros H. destruct (pos_num e H) as (v & [Nv Rv] & Lv & Hv). destruct (pos_num t t_num) as (w & [Nw Rw] & Lw & Hw).
    destruct (div_ok _ _ v w Nv Nw (mid_63 v Lv Hv) (mid_63 w Lw Hw)) as (z & R).
    exists v, w, z. split; [exact Nv|]. split; [exact Nw|]. split; [exact R|]. destruct R as [_ N]. split.
    - apply (nearest_le _ _ _ N); [apply F_B|]. apply Qle_shift_div_l; [lra|].
      pose proof (B_opp 63) as Ho. pose proof (B_pos (-63)) as Hp. change (- (63)) with (-63) in Ho. nra.
    - apply (nearest_ge _ _ _ N); [apply (F_B 0)|]. apply Qle_shift_div_r; [lra|].
      destruct (pos_mono e t H t_num (proj2 H)) as (v' & w' & Nv' & Nw' & L).
      assert (E1 : (v == v')%Q).
      { destruct Nv as (a & b & E & _ & V1), Nv' as (a' & b' & E' & _ & V2). rewrite E in E'. inversion E'; subst. lra. }
      assert (E2 : (w == w')%Q).
      { destruct Nw as (a & b & E & _ & V1), Nw' as (a' & b' & E' & _ & V2). rewrite E in E'. inversion E'; subst. lra. }
      lra.
  Qed.

  Lemma is_num_value f v v' : is_num f v -> is_num f v' -> (v == v')%Q.
  Proof. intros (a & b & E & _ & V1) (a' & b' & E' & _ & V2). rewrite E in E'. inversion E'; subst. lra. Qed.

  Lemma ratio_mono e e' : in_run e -> in_run e' -> (e <= e')%N -> num_le (ratio e) (ratio e').
  Proof.
    intros H H' L. destruct (ratio_num e H) as (v & w & z & Nv & Nw & R & _).
    destruct (ratio_num e' H') as (v' & w' & z' & Nv' & Nw' & R' & _).
    destruct (pos_mono e e' H H' L) as (a & a' & Na & Na' & La).
    pose proof (is_num_value _ _ _ Nv Na) as E1. pose proof (is_num_value _ _ _ Nv' Na') as E2.
    pose proof (is_num_value _ _ _ Nw Nw') as E3. pose proof (is_num_pos _ _ Nw) as Hw.
    destruct (Qlt_le_dec v v') as [Lt|Ge].
    - apply (rounded_le _ _ _ _ _ _ R R'). rewrite <- E3. unfold Qdiv. apply Qmult_lt_r; [apply Qinv_lt_0_compat, Hw|exact Lt].
    - assert (E : f_of_N e = f_of_N e') by (apply (num_unique _ _ v v' Nv Nv'); lra).
      unfold ratio. rewrite E. exact (num_le_refl _ _ (proj1 R')).
  Qed.

  Definition percent (e : N) : f64 := f_mul (ratio e) f_100.

  Lemma num_100 : is_num f_100 100.
  Proof.
    exists 7036874417766400%positive, (-46). split; [vm_compute; reflexivity|]. split; [unfold canon; lia|reflexivity].
  Qed.
  Lemma mid_100 : mid_range 100. Proof. split; vm_compute; discriminate. Qed.

  Lemma percent_num e : in_run e -> exists v z, is_num (ratio e) v /\ rounded (percent e) (v * 100) z /\ (z <= 100)%Q.
  Proof.
    intros H. destruct (ratio_num e H) as (_ & _ & v & _ & _ & [Nv _] & L & U).
    assert (M : mid_range v).
    { split; [apply Qle_trans with (2 := L); apply B_le; lia|]. apply Qle_trans with (1 := U). change 1%Q with (B 0). apply B_le. lia. }
    destruct (mul_ok _ _ v 100 Nv num_100 M mid_100) as (z & R). exists v, z. split; [exact Nv|]. split; [exact R|].
    destruct R as [_ N]. apply (nearest_ge _ _ _ N); [apply (F_Z 100); lia|]. lra.
  Qed.

  Lemma percent_mono e e' : in_run e -> in_run e' -> (e <= e')%N -> num_le (percent e) (percent e').
  Proof.
    intros H H' L. destruct (percent_num e H) as (v & z & Nv & R & _). destruct (percent_num e' H') as (v' & z' & Nv' & R' & _).
    destruct (ratio_mono e e' H H' L) as (a & a' & Na & Na' & La).
    pose proof (is_num_value _ _ _ Nv Na) as E1. pose proof (is_num_value _ _ _ Nv' Na') as E2.
    destruct (Qlt_le_dec v v') as [Lt|Ge].
    - apply (rounded_le _ _ _ _ _ _ R R'). lra.
    - assert (E : ratio e = ratio e') by (apply (num_unique _ _ v v' Nv Nv'); lra).
      unfold percent. rewrite E. exact (num_le_refl _ _ (proj1 R')).
  Qed.

  (* truncation to u8 *)
  Lemma u8_floor f v : is_num f v -> (v <= 100)%Q -> f_to_u8 f = Z.to_N (Qfloor v).
  Proof.
    intros Nf L. pose proof (is_num_pos _ _ Nf) as Hp.
    assert (F0 : 0 <= Qfloor v) by (change 0 with (Qfloor 0); apply Qfloor_resp_le; lra).
    assert (F1 : Qfloor v <= 100) by (change 100 with (Qfloor 100); apply Qfloor_resp_le; lra).
    rewrite (to_u8_ok f v (Z.to_N (Qfloor v)) Nf); [lia| | |].
    - apply Qle_lt_trans with (1 := L). rewrite (B_Z 52) by lia. reflexivity.
    - rewrite Z2N.id by exact F0. apply Qfloor_le.
    - rewrite Z2N.id by exact F0. pose proof (Qlt_floor v) as K. rewrite inject_Z_plus in K. exact K.
  Qed.

  Lemma progress_pos e : in_run e -> exists z, is_num (percent e) z /\ (z <= 100)%Q /\ exact_progress e t = Z.to_N (Qfloor z).
  Proof.
    intros H. destruct (percent_num e H) as (v & z & _ & [Nz _] & L). exists z. split; [exact Nz|]. split; [exact L|].
    exact (u8_floor _ _ Nz L).
  Qed.

  Lemma progress_zero : exact_progress 0 t = 0%N.
  Proof.
    destruct (pos_num t t_num) as (w & [Nw _] & _). destruct Nw as (m & e & E & _). unfold exact_progress. rewrite E.
    destruct num_100 as (m1 & e1 & E1 & _). rewrite E1. reflexivity.
  Qed.

  Theorem progress_mono e e' : (e <= e' <= t)%N -> (exact_progress e t <= exact_progress e' t)%N.
  Proof.
    intros [L U]. destruct (N.eq_dec e 0) as [->|Ne]; [rewrite progress_zero; lia|].
    assert (H : in_run e) by (unfold in_run; lia). assert (H' : in_run e') by (unfold in_run; lia).
    destruct (progress_pos e H) as (z & Nz & _ & E). destruct (progress_pos e' H') as (z' & Nz' & _ & E').
    rewrite E, E'. destruct (percent_mono e e' H H' L) as (a & a' & Na & Na' & La).
    pose proof (is_num_value _ _ _ Nz Na) as E1. pose proof (is_num_value _ _ _ Nz' Na') as E2.
    pose proof (is_num_pos _ _ Nz) as Hp.
    assert (F0 : 0 <= Qfloor z) by (change 0 with (Qfloor 0); apply Qfloor_resp_le; lra).
    assert (F1 : Qfloor z <= Qfloor z') by (apply Qfloor_resp_le; lra). lia.
  Qed.

  Theorem progress_le e : (e <= t)%N -> (exact_progress e t <= 100)%N.
  Proof.
    intros U. destruct (N.eq_dec e 0) as [->|Ne]; [rewrite progress_zero; lia|].
    assert (H : in_run e) by (unfold in_run; lia). destruct (progress_pos e H) as (z & Nz & L & E). rewrite E.
    assert (F1 : Qfloor z <= 100) by (change 100 with (Qfloor 100); apply Qfloor_resp_le; lra). lia.
  Qed.

  Theorem progress_full : exact_progress t t = 100%N.
  Proof.
    destruct (progress_pos t t_num) as (z & Nz & L & E). rewrite E.
    destruct (percent_num t t_num) as (v & z' & Nv & [Nz' R] & _). pose proof (is_num_value _ _ _ Nz Nz') as Ez.
    destruct (ratio_num t t_num) as (a & w & y & Na & Nw & [Ny Ry] & _ & _). pose proof (is_num_value _ _ _ Nv Ny) as Ev.
    pose proof (is_num_value _ _ _ Na Nw) as Ea. pose proof (is_num_pos _ _ Nw) as Hw.
    assert (Y : (1 <= y)%Q).
    { apply (nearest_le _ _ 1 Ry (F_B 0)). rewrite Ea. apply Qle_shift_div_l; lra. }
    assert (Z1 : (100 <= z')%Q).
    { apply (nearest_le _ _ _ R); [apply (F_Z 100); lia|]. lra. }
    assert (Ef : (z == 100)%Q) by lra. rewrite (Qfloor_comp _ _ Ef). reflexivity.
  Qed.
End Progress.

(* ------------------------------------------------------------------------- *)
(** * Runs *)

Lemma sorted_map {A} (R S : A -> A -> Prop) (P : A -> Prop) (f : A -> A) l : (forall a b, P a -> P b -> R a b -> S (f a) (f b)) ->
  Forall P l -> StronglySorted R l -> StronglySorted S (map f l).
Proof.
  intros Hf. induction l as [|a l IH]; intros HP HR; cbn [map]; [constructor|].
  inversion HP as [|a' l' Pa Pl]; subst. inversion HR as [|a' l' Rl Ra]; subst. constructor; [apply IH; assumption|].
  apply Forall_map. rewrite Forall_forall in *. intros b Hb. apply Hf; [exact Pa|apply Pl, Hb|apply Ra, Hb].
Qed.
Lemma last_map {A B} (f : A -> B) l d : l <> [] -> last (map f l) (f d) = f (last l d).
Proof.
  induction l as [|a l IH]; intros H; [contradiction|]. destruct l as [|b l]; [reflexivity|].
  change (last (map f (a :: b :: l)) (f d)) with (last (map f (b :: l)) (f d)). rewrite IH by discriminate. reflexivity.
Qed.
Lemma last_any {A} (l : list A) d d' : l <> [] -> last l d = last l d'.
Proof.
  induction l as [|a l IH]; intros H; [contradiction|]. destruct l as [|b l]; [reflexivity|]. apply IH. discriminate.
Qed.

Lemma run_progress p ranges board dead threads cancelled sched o : usable ranges ->
  exact_equity p ranges board dead threads cancelled sched = Ret (ROk o) ->
  StronglySorted N.le (o_progress o) /\ Forall (fun x => x <= 100)%N (o_progress o) /\
  (cancelled = false -> ~ In Cancel sched -> (0 < threads)%nat -> last (o_progress o) 0%N = 100%N).
Proof.
  intros Hu H. destruct (exact_common p ranges board dead Hu) as (total & work & Ht & _ & _ & Hrun).
  destruct (Hrun _ _ _ _ H) as (_ & made & left & es & [_ Hfull _ Hprog Hsort Hbound _]). rewrite Hprog. split; [|split].
  - apply (sorted_map N.le N.le (fun e => e <= total)%N); [|exact Hbound|exact Hsort].
    intros a b Ha Hb L. apply progress_mono; [exact Ht|]. split; assumption.
  - apply Forall_map. apply Forall_forall. intros e He. rewrite Forall_forall in Hbound. apply progress_le; [exact Ht|apply Hbound, He].
  - intros -> Hc Hth. destruct Hfull as [_ Hl]; [split; [reflexivity|]; split; [apply not_cancelled; exact Hc|exact Hth]|].
    assert (Hes : es <> []) by (intros ->; cbn in Hl; lia).
    rewrite (last_any _ 0%N (exact_progress 0 total)).
    + rewrite (last_map (fun e => exact_progress e total)) by exact Hes. rewrite Hl. apply progress_full, Ht.
    + destruct es; [contradiction|discriminate].
Qed.
