(* All flags of get_draw. *)
From Verif Require Import Base BaseProofs Hand SpecPoker SpecHand SpecFinal SpecDraw ListFacts PokerFacts EvalCheck HandProofs HandExprProofs EvalProofs SetupProofs DrawProofs.
Local Open Scope N_scope.

(* ------------------------------------------------------------------------- *)
(** * Flush flags *)

Definition lead (bm hm : N) : bool :=
  leading_zeros 16 (N.land (N.lxor (N.land bm TOP5) TOP5) TOP5) =? leading_zeros 16 (N.land hm TOP5).
Lemma top5_bit k : N.testbit TOP5 k = (8 <=? k) && (k <=? 12).
Proof.
  change TOP5 with (N.shiftl (N.ones 5) 8). destruct (N.leb_spec 8 k) as [H|H].
  - rewrite N.shiftl_spec_high' by exact H. destruct (N.leb_spec k 12) as [H2|H2]; [apply N.ones_spec_low; lia|apply N.ones_spec_high; lia].
  - apply N.shiftl_spec_low. exact H.
Qed.
Lemma size_bits x k : x <> 0 -> N.testbit x k = true -> (forall j, k < j -> N.testbit x j = false) -> N.size x = N.succ k.
Proof. intros H0 H1 H2. rewrite N.size_log2 by exact H0. f_equal. apply N.log2_bits_unique; assumption. Qed.
Lemma size_top x : x <> 0 -> N.testbit x (N.size x - 1) = true /\ forall j, N.size x <= j -> N.testbit x j = false.
Proof.
  intros H. rewrite N.size_log2 by exact H. split; [replace (N.succ (N.log2 x) - 1) with (N.log2 x) by lia; apply N.bit_log2; exact H|].
  intros j Hj. apply N.bits_above_log2. lia.
Qed.
Lemma lead_iff bm hm : (forall k, N.testbit hm k = true -> N.testbit bm k = false) -> (exists k, 8 <= k <= 12 /\ N.testbit bm k = false) ->
  lead bm hm = true <-> exists r, r <= 12 /\ N.testbit hm r = true /\ forall r', r < r' -> r' <= 12 -> N.testbit bm r' = true.
Proof.
  intros Hdis (k0 & Hk0 & Hf0). set (X := N.land (N.lxor (N.land bm TOP5) TOP5) TOP5). set (H := N.land hm TOP5).
  assert (HX : forall k, N.testbit X k = negb (N.testbit bm k) && ((8 <=? k) && (k <=? 12))).
  { intros k. unfold X. rewrite !N.land_spec, N.lxor_spec, N.land_spec, top5_bit. destruct (N.testbit bm k), ((8 <=? k) && (k <=? 12)); reflexivity. }
  assert (HH : forall k, N.testbit H k = N.testbit hm k && ((8 <=? k) && (k <=? 12))) by (intros k; unfold H; rewrite N.land_spec, top5_bit; reflexivity).
  assert (Hin : forall k, (8 <=? k) && (k <=? 12) = true <-> 8 <= k <= 12) by (intros k; rewrite andb_true_iff, !N.leb_le; tauto).
  assert (X0 : X <> 0). { intros E. specialize (HX k0). rewrite E, N.bits_0, Hf0, (proj2 (Hin k0) Hk0) in HX. discriminate. }
  assert (Hsz : forall Y, (forall k, N.testbit Y k = true -> k <= 12) -> N.size Y <= 13).
  { intros Y HY. destruct (N.eq_dec Y 0) as [->|Hy]; [cbn; lia|]. destruct (size_top Y Hy) as [H1 _]. apply HY in H1. lia. }
  assert (SX : N.size X <= 13) by (apply Hsz; intros k Hk; rewrite HX in Hk; apply andb_true_iff in Hk as [_ Hk]; apply Hin in Hk; lia).
  assert (SH : N.size H <= 13) by (apply Hsz; intros k Hk; rewrite HH in Hk; apply andb_true_iff in Hk as [_ Hk]; apply Hin in Hk; lia).
  destruct (size_top X X0) as [TX UX].
  assert (SX0 : 0 < N.size X) by (destruct X; [congruence|cbn; lia]).
  unfold lead. fold X. fold H. unfold leading_zeros. rewrite N.eqb_eq. split.
  - intros E. assert (Es : N.size X = N.size H) by lia. assert (H0 : H <> 0) by (intros ->; cbn in Es; lia).
    destruct (size_top H H0) as [TH _]. rewrite <- Es in TH. exists (N.size X - 1). rewrite HH in TH. apply andb_true_iff in TH as [TH R]. apply Hin in R.
    split; [lia|]. split; [exact TH|]. intros r' H1 H2. assert (Hr : N.testbit X r' = false) by (apply UX; lia). rewrite HX in Hr.
    destruct (N.testbit bm r'); [reflexivity|]. rewrite (proj2 (Hin r')) in Hr by lia. discriminate.
  - intros (r & Hr & Hhm & Hab).
    assert (H8 : 8 <= r). { destruct (N.le_gt_cases 8 r) as [|Hlt]; [assumption|]. rewrite (Hab k0) in Hf0 by lia. discriminate. }
    assert (N.size X = N.succ r).
    { apply size_bits; [exact X0|rewrite HX, (Hdis r Hhm), (proj2 (Hin r)) by lia; reflexivity|]. intros j Hj. rewrite HX.
      destruct (N.leb_spec j 12) as [Hj2|Hj2]; [rewrite (Hab j) by lia; reflexivity|rewrite !andb_false_r; reflexivity]. }
    assert (N.size H = N.succ r).
    { assert (HT : N.testbit H r = true) by (rewrite HH, Hhm, (proj2 (Hin r)) by lia; reflexivity).
      apply size_bits; [intros E; rewrite E, N.bits_0 in HT; discriminate|exact HT|]. intros j Hj. rewrite HH.
      destruct (N.leb_spec j 12) as [Hj2|Hj2]; [|rewrite !andb_false_r; reflexivity].
      destruct (N.testbit hm j) eqn:Ej; [|reflexivity]. apply Hdis in Ej. rewrite (Hab j) in Ej by lia. discriminate. }
    lia.
Qed.

(* ------------------------------------------------------------------------- *)
(** * Nut straights *)

Fixpoint bits_upto (f : N -> bool) (n : nat) (i : N) : N :=
  match n with O => 0 | S n' => (if f i then 1 else 0) + bits_upto f n' (N.succ i) end.
Lemma bits_upto_ext f g n : forall i, (forall k, f k = g k) -> bits_upto f n i = bits_upto g n i.
Proof. induction n as [|n IH]; intros i H; cbn [bits_upto]; [reflexivity|]. rewrite H, (IH _ H). reflexivity. Qed.
Lemma ones_bits n : forall m i, m < 2 ^ N.of_nat n -> count_ones m = bits_upto (fun k => N.testbit m (k - i)) n i.
Proof.
  assert (G : forall n m i, m < 2 ^ N.of_nat n -> count_ones m = bits_upto (fun k => N.testbit m (k - i)) n i); [|exact (G n)].
  clear n. induction n as [|n IH]; intros m i H.
  - change (2 ^ N.of_nat 0) with 1 in H. assert (m = 0) as -> by lia. reflexivity.
  - rewrite ones_step. cbn [bits_upto]. rewrite N.sub_diag. f_equal. rewrite (IH (N.div2 m) (N.succ i)).
    + assert (E : forall n j, i < j -> bits_upto (fun k => N.testbit (N.div2 m) (k - N.succ i)) n j = bits_upto (fun k => N.testbit m (k - i)) n j).
      { clear. induction n as [|n IH]; intros j Hj; cbn [bits_upto]; [reflexivity|]. rewrite IH by lia. f_equal.
        rewrite N.div2_spec, N.shiftr_spec by lia. replace (j - N.succ i + 1) with (j - i) by lia. reflexivity. }
      apply E. lia.
    + rewrite Nat2N.inj_succ, N.pow_succ_r' in H. rewrite N.div2_div. apply N.div_lt_upper_bound; lia.
Qed.

Definition window (i : N) : N := N.shiftl 31 i.
Lemma window_bit i k : N.testbit (window i) k = (i <=? k) && (k <? i + 5).
Proof.
  unfold window. change 31 with (N.ones 5). destruct (N.leb_spec i k) as [H|H].
  - rewrite N.shiftl_spec_high' by exact H. destruct (N.ltb_spec k (i + 5)); [apply N.ones_spec_low; lia|apply N.ones_spec_high; lia].
  - apply N.shiftl_spec_low. exact H.
Qed.
Lemma covers_iff rm m : covers rm m = true <-> forall k, N.testbit m k = true -> N.testbit rm k = true.
Proof.
  unfold covers. rewrite N.eqb_eq. split.
  - intros E k Hk. rewrite <- E, N.land_spec in Hk. apply andb_true_iff in Hk. apply Hk.
  - intros H. apply N.bits_inj. intros k. rewrite N.land_spec. destruct (N.testbit m k) eqn:E; [rewrite (H k E); reflexivity|apply andb_false_r].
Qed.
Lemma in_bits rs k : N.testbit (rank_bits rs) k = true <-> In k rs.
Proof.
  rewrite testbit_rank_bits, existsb_exists. split.
  - intros (r & Hr & E). apply N.eqb_eq in E. subst. exact Hr.
  - intros H. exists k. split; [exact H|apply N.eqb_refl].
Qed.
Lemma covers_run rs i : covers (rank_bits rs) (window i) = true <-> has_run rs i.
Proof.
  rewrite covers_iff. unfold has_run. split.
  - intros H k Hk. apply in_bits, H. rewrite window_bit, andb_true_iff, N.leb_le, N.ltb_lt. lia.
  - intros H k Hk. rewrite window_bit, andb_true_iff, N.leb_le, N.ltb_lt in Hk. apply in_bits. replace k with (i + (k - i)) by lia. apply H. lia.
Qed.
Definition five (f : N -> bool) (i : N) : N := bits_upto f 5 i.
Lemma ones_window rs i : count_ones (N.land (rank_bits rs) (window i)) = five (N.testbit (rank_bits rs)) i.
Proof.
  set (m := rank_bits rs). clearbody m.
  assert (E : count_ones (N.land m (window i)) = count_ones (N.shiftr (N.land m (window i)) i)).
  { assert (Hlow : forall k, k < i -> N.testbit (N.land m (window i)) k = false).
    { intros k Hk. rewrite N.land_spec, window_bit, (proj2 (N.leb_gt i k)) by exact Hk. apply andb_false_r. }
    revert Hlow. generalize (N.land m (window i)). rewrite <- (N2Nat.id i). generalize (N.to_nat i). clear. intros j.
    induction j as [|j IH]; intros x Hlow; [rewrite N.shiftr_0_r; reflexivity|].
    rewrite ones_step, (Hlow 0) by lia. rewrite N.add_0_l, IH.
    - rewrite N.div2_spec, N.shiftr_shiftr. f_equal. f_equal. lia.
    - intros k Hk. rewrite N.div2_spec, N.shiftr_spec by lia. apply Hlow. lia. }
  rewrite E, (ones_bits 5 _ i).
  - unfold five.
    assert (G : forall n j, i <= j -> j + N.of_nat n = i + 5 -> bits_upto (fun k => N.testbit (N.shiftr (N.land m (window i)) i) (k - i)) n j = bits_upto (N.testbit m) n j).
    { induction n as [|n IH]; intros j H1 H2; cbn [bits_upto]; [reflexivity|]. rewrite IH by lia. f_equal.
      rewrite N.shiftr_spec by lia. rewrite N.land_spec, window_bit. replace (j - i + i) with j by lia.
      rewrite (proj2 (N.leb_le i j)), (proj2 (N.ltb_lt j (i + 5))) by lia. rewrite andb_true_r. reflexivity. }
    apply G; lia.
  - apply N.le_lt_trans with (N.ones 5); [|reflexivity].
    assert (Hl : N.land (N.shiftr (N.land m (window i)) i) (N.ones 5) = N.shiftr (N.land m (window i)) i).
    { apply N.bits_inj. intros k. rewrite N.land_spec, N.shiftr_spec by lia. destruct (N.lt_ge_cases k 5) as [Hk|Hk].
      - rewrite N.ones_spec_low by exact Hk. apply andb_true_r.
      - rewrite N.ones_spec_high, andb_false_r, N.land_spec, window_bit, (proj2 (N.ltb_ge _ _)) by lia. rewrite !andb_false_r. reflexivity. }
    rewrite <- Hl, N.land_ones. pose proof (N.mod_lt (N.shiftr (N.land m (window i)) i) (2 ^ 5) ltac:(discriminate)). change (N.ones 5) with 31. change (2 ^ 5) with 32 in *. lia.
Qed.

Lemma five_spec f i : five f i = (if f i then 1 else 0) + (if f (i + 1) then 1 else 0) + (if f (i + 2) then 1 else 0) + (if f (i + 3) then 1 else 0) + (if f (i + 4) then 1 else 0).
Proof.
  unfold five. cbn [bits_upto]. replace (N.succ i) with (i + 1) by lia. replace (N.succ (i + 1)) with (i + 2) by lia.
  replace (N.succ (i + 2)) with (i + 3) by lia. replace (N.succ (i + 3)) with (i + 4) by lia. lia.
Qed.
Lemma five_or rs i x : (N.testbit (rank_bits rs) (i + x) = true /\ In (i + x) rs) \/ (N.testbit (rank_bits rs) (i + x) = false /\ ~ In (i + x) rs).
Proof. destruct (N.testbit (rank_bits rs) (i + x)) eqn:E; [left|right]; (split; [reflexivity|]); rewrite <- in_bits, E; [reflexivity|discriminate]. Qed.
Lemma run_cases rs i : has_run rs i <-> In i rs /\ In (i + 1) rs /\ In (i + 2) rs /\ In (i + 3) rs /\ In (i + 4) rs.
Proof.
  unfold has_run. split.
  - intros H. rewrite <- (N.add_0_r i) at 1. repeat split; apply H; lia.
  - intros (H0 & H1 & H2 & H3 & H4) k Hk. assert (Hc : k = 0 \/ k = 1 \/ k = 2 \/ k = 3 \/ k = 4) by lia. destruct Hc as [->|[->|[->|[->| ->]]]]; [rewrite N.add_0_r|..]; assumption.
Qed.
(* three of five ranks are there if two more complete the run *)
Lemma three_of_five rs i : 3 <= five (N.testbit (rank_bits rs)) i <-> exists x y, has_run (x :: y :: rs) i.
Proof.
  rewrite five_spec. pose proof (five_or rs i 0) as F0. rewrite N.add_0_r in F0.
  pose proof (five_or rs i 1) as F1. pose proof (five_or rs i 2) as F2. pose proof (five_or rs i 3) as F3. pose proof (five_or rs i 4) as F4. split.
  - intros H. enough (G : exists x y, (x = i \/ y = i \/ In i rs) /\ (x = i + 1 \/ y = i + 1 \/ In (i + 1) rs) /\ (x = i + 2 \/ y = i + 2 \/ In (i + 2) rs) /\
      (x = i + 3 \/ y = i + 3 \/ In (i + 3) rs) /\ (x = i + 4 \/ y = i + 4 \/ In (i + 4) rs)).
    { destruct G as (x & y & G). exists x, y. apply run_cases. exact G. }
    destruct F0 as [[E0 I0]|[E0 I0]], F1 as [[E1 I1]|[E1 I1]], F2 as [[E2 I2]|[E2 I2]], F3 as [[E3 I3]|[E3 I3]], F4 as [[E4 I4]|[E4 I4]];
        rewrite E0, E1, E2, E3, E4 in H; try (exfalso; revert H; clear; lia);
        match goal with
        | _ : ~ In ?a rs, _ : ~ In ?b rs |- _ => tryif constr_eq a b then fail else exists a, b
        | _ : ~ In ?a rs |- _ => exists a, a
        | _ => exists 0, 0
        end; repeat split; tauto.
  - intros (x & y & H). apply run_cases in H. cbn [In] in H. destruct H as (H0 & H1 & H2 & H3 & H4).
    destruct F0 as [[-> I0]|[-> I0]], F1 as [[-> I1]|[-> I1]], F2 as [[-> I2]|[-> I2]], F3 as [[-> I3]|[-> I3]], F4 as [[-> I4]|[-> I4]]; try (clear; lia);
      exfalso; repeat match goal with H : _ = _ \/ _ = _ \/ In ?a rs, I : ~ In ?a rs |- _ => destruct H as [H|[H|H]]; [| |contradiction] end; lia.
Qed.

Lemma nut_loop_bit rm bm : N.testbit (nut_straight_loop 10 TOP5 rm bm 0) 4 =
  existsb (fun i => (3 <=? count_ones (N.land bm (window i))) && covers rm (window i) &&
                    forallb (fun j => (j <=? i) || (count_ones (N.land bm (window j)) <? 3)) [8; 7; 6; 5; 4; 3; 2; 1; 0]) [8; 7; 6; 5; 4; 3; 2; 1; 0]
  || ((3 <=? count_ones (N.land bm 15)) && covers rm 15 && forallb (fun j => count_ones (N.land bm (window j)) <? 3) [8; 7; 6; 5; 4; 3; 2; 1; 0]).
Proof.
  cbn [nut_straight_loop].
  repeat match goal with |- context [N.shiftr ?a 1] => let v := eval vm_compute in (N.shiftr a 1) in change (N.shiftr a 1) with v end.
  cbn [existsb forallb].
  repeat match goal with |- context [?a <=? ?b] => match a with N0 => idtac | Npos _ => idtac end; match b with N0 => idtac | Npos _ => idtac end; let v := eval vm_compute in (a <=? b) in change (a <=? b) with v end.
  cbn [orb andb].
  assert (EQ : forall x, (x <? 3) = negb (3 <=? x)) by (intros x; rewrite N.leb_antisym, negb_involutive; reflexivity). rewrite !EQ.
  repeat match goal with |- context [window ?i] => let v := eval vm_compute in (window i) in change (window i) with v end.
  change TOP5 with 7936.
  assert (Hor : N.testbit (N.lor 0 16) 4 = true) by reflexivity. assert (Hz : N.testbit 0 4 = false) by reflexivity.
  repeat match goal with |- context [3 <=? count_ones (N.land bm ?m)] => let c := fresh "c" in set (c := 3 <=? count_ones (N.land bm m)); clearbody c end.
  repeat match goal with |- context [covers rm ?m] => let c := fresh "v" in set (c := covers rm m); clearbody c end.
  repeat match goal with |- context [if ?c then if ?v then N.lor 0 16 else 0 else _] => destruct c; cbn [andb orb negb]; rewrite ?andb_false_r, ?orb_false_r, ?andb_true_r; cbn [andb orb negb]; [destruct v; reflexivity|] end.
  reflexivity.
Qed.

Lemma in_windows i : In i [8; 7; 6; 5; 4; 3; 2; 1; 0] <-> i <= 8.
Proof. cbn [In]. lia. Qed.
(* the hole cards add two ranks to those of the board *)
Lemma nut_straight_ok x y brs : let rs := x :: y :: brs in
  N.testbit (nut_straight_loop 10 TOP5 (rank_bits rs) (rank_bits brs) 0) 4 = true <->
  exists i, i <= 8 /\ has_run rs i /\ forall j a b, i < j -> j <= 8 -> ~ has_run (a :: b :: brs) j.
Proof.
  intros rs. rewrite nut_loop_bit, orb_true_iff.
  assert (Hlast : (3 <=? count_ones (N.land (rank_bits brs) 15)) && covers (rank_bits rs) 15 && forallb (fun j => count_ones (N.land (rank_bits brs) (window j)) <? 3) [8; 7; 6; 5; 4; 3; 2; 1; 0] = true -> False).
  { intros H. apply andb_true_iff in H as [H H2]. apply andb_true_iff in H as [H1 _]. rewrite forallb_forall in H2. specialize (H2 0 ltac:(cbn; tauto)).
    apply N.ltb_lt in H2. apply N.leb_le in H1. rewrite ones_window, five_spec in H2.
    assert (E : count_ones (N.land (rank_bits brs) 15) = bits_upto (N.testbit (rank_bits brs)) 4 0).
    { assert (Hb : forall k, N.testbit (N.land (rank_bits brs) 15) k = N.testbit (rank_bits brs) k && (k <? 4)).
      { intros k. rewrite N.land_spec. f_equal. change 15 with (N.ones 4). destruct (N.ltb_spec k 4); [apply N.ones_spec_low|apply N.ones_spec_high]; assumption. }
      rewrite (ones_bits 4 _ 0).
      - cbn [bits_upto]. rewrite !N.sub_0_r, !Hb. cbn [N.succ Pos.succ N.ltb N.compare Pos.compare Pos.compare_cont]. rewrite !andb_true_r. reflexivity.
      - change 15 with (N.ones 4). rewrite N.land_ones. apply N.mod_lt. discriminate. }
    rewrite E in H1. cbn [bits_upto N.succ Pos.succ] in H1. rewrite !N.add_0_l in H2. destruct (N.testbit (rank_bits brs) 4); lia. }
  split.
  - intros [H|H]; [|contradiction (Hlast H)]. apply existsb_exists in H as (i & Hi & H). apply in_windows in Hi. apply andb_true_iff in H as [H H2]. apply andb_true_iff in H as [_ H1].
    exists i. split; [exact Hi|]. split; [apply covers_run; exact H1|]. intros j a b Hij Hj Hrun. rewrite forallb_forall in H2. specialize (H2 j (proj2 (in_windows j) Hj)).
    apply orb_true_iff in H2 as [H2|H2]; [apply N.leb_le in H2; lia|]. apply N.ltb_lt in H2. rewrite ones_window in H2.
    assert (3 <= five (N.testbit (rank_bits brs)) j) by (apply three_of_five; exists a, b; exact Hrun). lia.
  - intros (i & Hi & Hrun & Hno). left. apply existsb_exists. exists i. split; [apply in_windows; exact Hi|]. rewrite !andb_true_iff. split; [split|].
    + apply N.leb_le. rewrite ones_window. apply three_of_five. exists x, y. exact Hrun.
    + apply covers_run. exact Hrun.
    + apply forallb_forall. intros j Hj. apply in_windows in Hj. destruct (N.leb_spec j i) as [|Hij]; [reflexivity|]. cbn [orb]. apply N.ltb_lt. rewrite ones_window.
      destruct (N.lt_ge_cases (five (N.testbit (rank_bits brs)) j) 3) as [|H3]; [assumption|]. apply three_of_five in H3 as (a & b & Hr). contradiction (Hno j a b Hij Hj Hr).
Qed.

(* ------------------------------------------------------------------------- *)
(** * Straight draws *)

(* all sets of ranks, as masks *)
Definition run_from (f : N -> bool) (i : N) : bool := f i && f (i + 1) && f (i + 2) && f (i + 3) && f (i + 4).
Definition windows : list N := [8; 7; 6; 5; 4; 3; 2; 1; 0].
Definition ranks13 : list N := [0; 1; 2; 3; 4; 5; 6; 7; 8; 9; 10; 11; 12].
Definition outs (rm : N) : list N := filter (fun r => negb (N.testbit rm r) && existsb (run_from (fun k => (k =? r) || N.testbit rm k)) windows) ranks13.
Definition backdoor (rm : N) : bool := existsb (fun i => 3 <=? five (N.testbit rm) i) windows.
Definition draw_check (rm : N) : bool :=
  if 6 <? count_ones rm then true else
  if existsb (run_from (N.testbit rm)) windows then true else
  let d := straight_draws rm true 0 in
  let n := length (outs rm) in
  let any := N.testbit d 0 || N.testbit d 1 || N.testbit d 2 in
  Bool.eqb any (0 <? n)%nat && Bool.eqb (N.testbit d 0 || N.testbit d 2) (1 <? n)%nat &&
  implb (N.testbit d 3) (backdoor rm) && implb (backdoor rm) (any || N.testbit d 3).
Lemma draw_checked : forallb draw_check (nseq 0 (N.to_nat 8192)) = true.
Proof. vm_compute. reflexivity. Qed.

Lemma draw_check_all rm : rm < 8192 -> draw_check rm = true.
Proof.
  intros H. apply (proj1 (forallb_forall draw_check (nseq 0 (N.to_nat 8192))) draw_checked). apply nseq_In. split; [lia|]. rewrite N2Nat.id. exact H.
Qed.
Lemma nodup_ranks_len rs : Forall (fun r => r < 13) rs -> (length rs <= 6)%nat -> count_ones (rank_bits rs) <= 6.
Proof.
  intros _ H. transitivity (N.of_nat (length rs)); [|lia]. clear H. induction rs as [|r rs IH]; [reflexivity|].
  cbn [rank_bits fold_right length]. fold (rank_bits rs). rewrite N.shiftl_1_l. destruct (N.testbit (rank_bits rs) r) eqn:E.
  - assert (Es : N.lor (2 ^ r) (rank_bits rs) = rank_bits rs).
    { apply N.bits_inj. intros k. rewrite N.lor_spec, N.pow2_bits_eqb. destruct (N.eqb_spec r k) as [<-|]; [rewrite E; reflexivity|reflexivity]. }
    rewrite Es. lia.
  - rewrite <- (N2Nat.id r), ones_lor_bit by (rewrite N2Nat.id; exact E). lia.
Qed.
Lemma run_from_iff f i : run_from f i = true <-> forall k, k < 5 -> f (i + k) = true.
Proof.
  unfold run_from. rewrite !andb_true_iff. split.
  - intros ((((H0 & H1) & H2) & H3) & H4) k Hk. assert (Hc : k = 0 \/ k = 1 \/ k = 2 \/ k = 3 \/ k = 4) by lia. destruct Hc as [->|[->|[->|[->| ->]]]]; [rewrite N.add_0_r|..]; assumption.
  - intros H. rewrite <- (N.add_0_r i) at 1. repeat split; apply H; lia.
Qed.
Lemma windows_iff (f : N -> bool) (P : N -> Prop) : (forall i, f i = true <-> P i) -> (existsb f windows = true <-> exists i, i <= 8 /\ P i).
Proof.
  intros H. rewrite existsb_exists. split.
  - intros (i & Hi & Hf). exists i. split; [apply in_windows; exact Hi|apply H; exact Hf].
  - intros (i & Hi & Hp). exists i. split; [apply in_windows; exact Hi|apply H; exact Hp].
Qed.
Lemma outs_iff rs r : ~ high_straight rs -> (In r (outs (rank_bits rs)) <-> completes rs r).
Proof.
  intros Hno. unfold outs, completes, high_straight. rewrite filter_In, andb_true_iff, negb_true_iff.
  assert (Hn : N.testbit (rank_bits rs) r = false <-> ~ In r rs) by (rewrite <- in_bits; destruct (N.testbit (rank_bits rs) r); split; congruence).
  rewrite Hn. rewrite (windows_iff _ (has_run (r :: rs))).
  - split; [tauto|]. intros [H1 (i & Hi & Hr)]. split; [|split; [exact H1|eauto]].
    assert (Hlt : r <= 12 \/ 12 < r) by lia. destruct Hlt as [Hle|Hgt]; [unfold ranks13; cbn [In]; lia|]. exfalso.
    apply Hno. exists i. split; [exact Hi|]. intros k Hk. specialize (Hr k Hk). destruct Hr as [E|Hr]; [lia|exact Hr].
  - intros i. rewrite run_from_iff. unfold has_run. split; intros H k Hk; specialize (H k Hk).
    + apply orb_true_iff in H as [H|H]; [left; apply N.eqb_eq in H; symmetry; exact H|right; apply in_bits; exact H].
    + apply orb_true_iff. destruct H as [H|H]; [left; apply N.eqb_eq; symmetry; exact H|right; apply in_bits; exact H].
Qed.

(* the loop on ranks below the ace does not look at the number of board cards for the other flags *)
Lemma sd_step_gb rm draw draw' m i : (forall k, k <> 3 -> N.testbit draw k = N.testbit draw' k) -> N.testbit draw' 3 = false ->
  snd (sd_step rm true (draw, m) i) = snd (sd_step rm false (draw', m) i) /\
  (forall k, k <> 3 -> N.testbit (fst (sd_step rm true (draw, m) i)) k = N.testbit (fst (sd_step rm false (draw', m) i)) k) /\
  N.testbit (fst (sd_step rm false (draw', m) i)) 3 = false.
Proof.
  intros H H3. unfold sd_step. cbn [fst snd]. split; [reflexivity|].
  assert (B2 : forall a k, N.testbit (N.lor a 2) k = N.testbit a k || (k =? 1)) by (intros; rewrite N.lor_spec, (bit_of _ 1 : N.testbit 2 _ = _); reflexivity).
  assert (B1 : forall a k, N.testbit (N.lor a 1) k = N.testbit a k || (k =? 0)) by (intros; rewrite N.lor_spec, (bit_of _ 0 : N.testbit 1 _ = _); reflexivity).
  assert (B8 : forall a k, k <> 3 -> N.testbit (N.lor a 8) k = N.testbit a k) by (intros a k Hk; rewrite N.lor_spec, (bit_of _ 3 : N.testbit 8 _ = _), (proj2 (N.eqb_neq k 3) Hk); apply orb_false_r).
  assert (B4 : forall a k, N.testbit (N.lor a 4) k = N.testbit a k || (k =? 2)) by (intros; rewrite N.lor_spec, (bit_of _ 2 : N.testbit 4 _ = _); reflexivity).
  destruct (covers rm (gsd1 m) || covers rm (gsd2 m) || covers rm (gsd3 m)), (covers rm (dgsd1 m) || covers rm (dgsd2 m)),
    (count_ones (N.land rm (bdsd m)) =? 3), (negb (3 <? count_ones (N.land rm (shl1_16 (bdsd m)))) && negb (3 <? count_ones (N.land rm (N.shiftr (bdsd m) 1)))),
    (covers rm (oesd m)), ((i =? 0) || (i =? 9)); cbn [andb negb];
    (split; [intros k Hk; specialize (H k Hk)|]; repeat (rewrite B1 || rewrite B2 || rewrite B4 || rewrite B8 by exact Hk); rewrite ?H, ?H3; reflexivity).
Qed.
Lemma straight_draws_gb rm : (forall k, k <> 3 -> N.testbit (straight_draws rm true 0) k = N.testbit (straight_draws rm false 0) k) /\ N.testbit (straight_draws rm false 0) 3 = false.
Proof.
  assert (G : forall l d d' m, (forall k, k <> 3 -> N.testbit d k = N.testbit d' k) -> N.testbit d' 3 = false ->
    (forall k, k <> 3 -> N.testbit (fst (fold_left (sd_step rm true) l (d, m))) k = N.testbit (fst (fold_left (sd_step rm false) l (d', m))) k) /\
    N.testbit (fst (fold_left (sd_step rm false) l (d', m))) 3 = false).
  { induction l as [|i l IH]; intros d d' m H H3; cbn [fold_left]; [auto|]. destruct (sd_step_gb rm d d' m i H H3) as (E & H' & H3').
    destruct (sd_step rm true (d, m) i) as [e n], (sd_step rm false (d', m) i) as [e' n']. cbn [fst snd] in *. subst n'. apply IH; assumption. }
  apply G; [reflexivity|apply N.bits_0].
Qed.

#[local] Opaque straight_draws.
Lemma two_outs (l : list N) : NoDup l -> ((1 <? length l)%nat = true <-> exists r r', r <> r' /\ In r l /\ In r' l).
Proof.
  intros Hn. rewrite Nat.ltb_lt. split.
  - destruct l as [|r [|r' l]]; cbn [length]; try lia. intros _. exists r, r'. inversion Hn as [|? ? H _]; subst. split; [|cbn; tauto]. intros ->. apply H. left. reflexivity.
  - intros (r & r' & Hne & H1 & H2). destruct l as [|x [|y l]]; cbn in *; [contradiction| |lia]. destruct H1 as [->|[]], H2 as [->|[]]. congruence.
Qed.
Lemma straight_flags rs gb : Forall (fun r => r < 13) rs -> (length rs <= 6)%nat -> ~ high_straight rs ->
  let d := straight_draws (rank_bits rs) gb 0 in
  let any := N.testbit d 0 || N.testbit d 1 || N.testbit d 2 in
  (any = true <-> exists r, completes rs r) /\
  (N.testbit d 0 || N.testbit d 2 = true <-> exists r r', r <> r' /\ completes rs r /\ completes rs r') /\
  (N.testbit d 3 = true -> gb = true /\ exists x y, high_straight (x :: y :: rs)) /\
  (gb = true -> any = false -> (exists x y, high_straight (x :: y :: rs)) -> N.testbit d 3 = true).
Proof.
  intros Hrs Hlen Hno. cbv zeta. pose proof (draw_check_all (rank_bits rs) (rank_bits_lt _ Hrs)) as HC.
  unfold draw_check in HC. rewrite (proj2 (N.ltb_ge 6 _)) in HC by (apply nodup_ranks_len; assumption).
  assert (Hw : existsb (run_from (N.testbit (rank_bits rs))) windows = false).
  { apply not_true_iff_false. rewrite (windows_iff _ (has_run rs)); [exact Hno|]. intros i. rewrite run_from_iff. unfold has_run. split; intros H k Hk; apply in_bits; apply H; exact Hk. }
  rewrite Hw in HC. cbv zeta in HC. apply andb_true_iff in HC as [HC C4]. apply andb_true_iff in HC as [HC C3]. apply andb_true_iff in HC as [C1 C2].
  apply Bool.eqb_prop in C1, C2.
  assert (Hnd : NoDup (outs (rank_bits rs))) by (apply NoDup_filter; unfold ranks13; repeat constructor; cbn [In]; lia).
  assert (Hbd : backdoor (rank_bits rs) = true <-> exists x y, high_straight (x :: y :: rs)).
  { unfold backdoor. rewrite (windows_iff _ (fun i => exists x y, has_run (x :: y :: rs) i)).
    - unfold high_straight. split; [intros (i & Hi & x & y & H)|intros (x & y & i & Hi & H)]; eauto.
    - intros i. rewrite N.leb_le. apply three_of_five. }
  assert (Hout : (0 <? length (outs (rank_bits rs)))%nat = true <-> exists r, completes rs r).
  { rewrite Nat.ltb_lt. split.
    - destruct (outs (rank_bits rs)) as [|r l] eqn:E; cbn [length]; [lia|]. intros _. exists r. apply outs_iff; [exact Hno|]. rewrite E. left. reflexivity.
    - intros (r & Hr). apply outs_iff in Hr; [|exact Hno]. destruct (outs (rank_bits rs)); [contradiction|cbn [length]; lia]. }
  destruct (straight_draws_gb (rank_bits rs)) as [G1 G2].
  assert (Hgb : forall k, k <> 3 -> N.testbit (straight_draws (rank_bits rs) gb 0) k = N.testbit (straight_draws (rank_bits rs) true 0) k) by (intros k Hk; destruct gb; [reflexivity|symmetry; apply G1; exact Hk]).
  rewrite (Hgb 0), (Hgb 1), (Hgb 2) by discriminate. rewrite C1, C2. split; [exact Hout|]. split.
  - rewrite two_outs by exact Hnd. split; intros (r & r' & Hne & H1 & H2); exists r, r'; (split; [exact Hne|]); split; apply outs_iff; assumption.
  - split.
    + intros H3. destruct gb; [|congruence]. split; [reflexivity|]. apply Hbd. rewrite H3 in C3. cbn [implb] in C3. exact C3.
    + intros -> H0 H2. apply Hbd in H2. rewrite H2, C1, H0 in C4. cbn [implb orb] in C4. exact C4.
Qed.

(* ------------------------------------------------------------------------- *)
(** * A hand without a straight *)

Lemma lle_head a b : lle a b -> a <> [] -> hd 0 a <= hd 0 b.
Proof.
  unfold lle. destruct a as [|x a]; [congruence|]. destruct b as [|y b]; cbn [lex hd]; [congruence|].
  intros H _. destruct (N.compare_spec x y); try lia. congruence.
Qed.
Lemma no_straight l : cards l -> category_of l < 4 -> ~ high_straight (map rank_of l).
Proof.
  intros Hl Hc (i & Hi & Hr).
  assert (Hpick : forall k, k < 5 -> exists c, In c l /\ rank_of c = i + k) by (intros k Hk; specialize (Hr k Hk); apply in_map_iff in Hr as (c & E & Hin); eauto).
  destruct (Hpick 0 eq_refl) as (c0 & I0 & E0), (Hpick 1 eq_refl) as (c1 & I1 & E1), (Hpick 2 eq_refl) as (c2 & I2 & E2), (Hpick 3 eq_refl) as (c3 & I3 & E3), (Hpick 4 eq_refl) as (c4 & I4 & E4).
  rewrite N.add_0_r in E0. set (f := [c0; c1; c2; c3; c4]).
  assert (Hinc : incl f l) by (intros c Hin; unfold f in Hin; cbn [In] in Hin; destruct Hin as [<-|[<-|[<-|[<-|[<-|[]]]]]]; assumption).
  assert (Hf : cards f).
  { split.
    - unfold f. repeat constructor; cbn [In]; intros Hin; repeat (destruct Hin as [Hin|Hin]; [subst; lia|]); exact Hin.
    - destruct Hl as [_ Hl]. rewrite Forall_forall in *. intros c Hin. apply Hl, Hinc, Hin. }
  pose proof (best_incl f l Hf Hl Hinc) as Hle.
  assert (Hb : 4 <= hd 0 (best f)).
  { apply N.le_trans with (hd 0 (strength f)).
    - unfold strength. assert (Hst : exists t, straight_top (map rank_of f) = Some t).
      { unfold f. cbn [map]. rewrite E0, E1, E2, E3, E4. apply in_windows in Hi. destruct Hi as [<-|[<-|[<-|[<-|[<-|[<-|[<-|[<-|[<-|[]]]]]]]]]]; eexists; vm_compute; reflexivity. }
      destruct Hst as (t & Et). unfold strength_ranks. rewrite Et. destruct (is_flush f); cbn [hd]; lia.
    - apply lle_head; [|unfold strength, strength_ranks; destruct (straight_top _); [destruct (is_flush f)|]; discriminate].
      unfold best. apply lmax_ub. apply in_map. unfold f. cbn [length Nat.min choose map app]. left. reflexivity. }
  pose proof (lle_head _ _ Hle (best_nonempty f)) as Hh. unfold category_of in Hc. lia.
Qed.

(* ------------------------------------------------------------------------- *)
(** * get_draw *)

Section Flags.
  Variable p : profile.
  Variables a b : N.
  Variable bl : list N.
  Variables hc bd : hand.
  Hypothesis Hcards : cards (a :: b :: bl).
  Hypothesis Hlen : (length bl <= 4)%nat.
  Hypothesis Hh : hand_of 0 [a; b] hc.
  Hypothesis Hb : hand_of base bl bd.
  Notation l := (a :: b :: bl).

  Definition nut_in (s : N) : bool := lead (rank_bits (map rank_of (suited s bl))) (rank_bits (map rank_of (suited s [a; b]))).
  Lemma suit_mask_bit s (x : list N) r : s < 4 -> N.testbit (rank_bits (map rank_of (suited s x))) r = true <-> In (4 * r + s) x.
  Proof.
    intros Hs. rewrite in_bits, in_map_iff. split.
    - intros (c & E & Hc). apply suited_spec in Hc as [Hc Es]. rewrite <- E, <- Es, <- card_eq. exact Hc.
    - intros H. exists (4 * r + s). unfold rank_of, suit_of. split; [|apply suited_spec; split; [exact H|]].
      + unfold rank_of. rewrite N.mul_comm, N.div_add_l by discriminate. rewrite N.div_small by exact Hs. lia.
      + unfold suit_of. rewrite N.add_comm, N.mul_comm, N.mod_add by discriminate. apply N.mod_small. exact Hs.
  Qed.
  (* the board cannot hold the five highest cards of a suit *)
  Lemma some_missing s : s < 4 -> exists k, 8 <= k <= 12 /\ N.testbit (rank_bits (map rank_of (suited s bl))) k = false.
  Proof.
    intros Hs.
      destruct (in_dec N.eq_dec (4 * 12 + s) bl) as [H12|H12]; [|exists 12; split; [lia|apply not_true_iff_false; rewrite suit_mask_bit; assumption]].
      destruct (in_dec N.eq_dec (4 * 11 + s) bl) as [H11|H11]; [|exists 11; split; [lia|apply not_true_iff_false; rewrite suit_mask_bit; assumption]].
      destruct (in_dec N.eq_dec (4 * 10 + s) bl) as [H10|H10]; [|exists 10; split; [lia|apply not_true_iff_false; rewrite suit_mask_bit; assumption]].
      destruct (in_dec N.eq_dec (4 * 9 + s) bl) as [H9|H9]; [|exists 9; split; [lia|apply not_true_iff_false; rewrite suit_mask_bit; assumption]].
      destruct (in_dec N.eq_dec (4 * 8 + s) bl) as [H8|H8]; [|exists 8; split; [lia|apply not_true_iff_false; rewrite suit_mask_bit; assumption]].
      exfalso. assert (Hl5 : (length [4 * 12 + s; 4 * 11 + s; 4 * 10 + s; 4 * 9 + s; 4 * 8 + s]%N <= length bl)%nat).
      { apply NoDup_incl_length; [repeat constructor; cbn [In]; lia|]. intros c Hc. cbn [In] in Hc. destruct Hc as [<-|[<-|[<-|[<-|[<-|[]]]]]]; assumption. }
      cbn [length] in Hl5. lia.
  Qed.
  Lemma nut_in_iff s : s < 4 -> nut_in s = true <-> top_of_suit s [a; b] bl.
  Proof.
    intros Hs. unfold nut_in, top_of_suit. rewrite lead_iff.
    - split.
      + intros (r & Hr & H1 & H2). exists r. split; [apply suit_mask_bit; assumption|]. intros r' H3 H4. apply suit_mask_bit; [exact Hs|]. apply H2; assumption.
      + intros (r & H1 & H2). exists r. split; [|split; [apply suit_mask_bit; assumption|intros r' H3 H4; apply suit_mask_bit; [exact Hs|apply H2; assumption]]].
        destruct Hcards as [_ Hf]. rewrite Forall_forall in Hf. assert (Hc : is_card (4 * r + s)) by (apply Hf; cbn [In] in *; tauto). unfold is_card in Hc. lia.
    - intros k H. apply suit_mask_bit in H; [|exact Hs]. apply not_true_iff_false. intros H'. apply suit_mask_bit in H'; [|exact Hs].
      destruct Hcards as [Hn _]. inversion Hn as [|? ? N1 Hn']; subst. inversion Hn' as [|? ? N2 _]; subst. destruct H as [E|[E|[]]]; rewrite <- E in H'; [apply N1; right; exact H'|apply N2; exact H'].
    - apply some_missing. exact Hs.
  Qed.

  Notation gb := (length bl <? 4)%nat.
  Definition flagged (s : N) : bool := (nsuit s l =? 4)%nat || ((nsuit s l =? 3)%nat && gb).
  Lemma chF : Forall is_card [a; b]. Proof. destruct Hcards as [_ H]. inversion H as [|? ? H1 H']; subst. inversion H' as [|? ? H2 _]; subst. auto. Qed.
  Lemma cbF : Forall is_card bl. Proof. destruct Hcards as [_ H]. inversion H as [|? ? H1 H']; subst. inversion H' as [|? ? H2 ?]; subst. assumption. Qed.
  Lemma step_flags h draw i : hand_of base l h -> i < 4 ->
    exists d, flush_draw_step p hc bd h gb draw i = Ret d /\
      forall k, N.testbit d k = N.testbit draw k || ((k =? 5) && (nsuit i l =? 4)%nat) || ((k =? 6) && (nsuit i l =? 3)%nat && gb) || ((k =? 7) && flagged i && nut_in i).
  Proof.
    intros Hof Hi. unfold flush_draw_step.
    rewrite (suit_count_of base l h) by (auto; try (cbn [length]; lia); apply small_fits; cbn [length]; lia). cbn [bind].
    change (if base =? 0 then 0 else 3) with 3.
    replace (Z.of_N 3 + Z.of_nat (nsuit i l) - 3)%Z with (Z.of_nat (nsuit i l)) by lia.
    rewrite !(get_suit_mask_of p base bl bd), !(get_suit_mask_of p 0 [a; b] hc) by (assumption || apply chF || apply cbF). cbn [bind].
    match goal with |- context [leading_zeros 16 ?x =? leading_zeros 16 ?y] => change (leading_zeros 16 x =? leading_zeros 16 y) with (nut_in i) end.
    assert (E4 : (Z.of_nat (nsuit i l) =? 4)%Z = (nsuit i l =? 4)%nat) by (destruct (Nat.eqb_spec (nsuit i l) 4), (Z.eqb_spec (Z.of_nat (nsuit i l)) 4); lia).
    assert (E3 : (Z.of_nat (nsuit i l) =? 3)%Z = (nsuit i l =? 3)%nat) by (destruct (Nat.eqb_spec (nsuit i l) 3), (Z.eqb_spec (Z.of_nat (nsuit i l)) 3); lia).
    rewrite E4, E3. unfold flagged.
    assert (B32 : forall k, N.testbit 32 k = (k =? 5)) by (intros k; exact (bit_of k 5)).
    assert (B64 : forall k, N.testbit 64 k = (k =? 6)) by (intros k; exact (bit_of k 6)).
    assert (B128 : forall k, N.testbit 128 k = (k =? 7)) by (intros k; exact (bit_of k 7)).
    assert (Hx : (nsuit i l =? 4)%nat && (nsuit i l =? 3)%nat = false) by (destruct (Nat.eqb_spec (nsuit i l) 4), (Nat.eqb_spec (nsuit i l) 3); try reflexivity; lia).
    destruct (nsuit i l =? 4)%nat, (nsuit i l =? 3)%nat, gb, (nut_in i); cbn [andb orb] in *; try discriminate; (eexists; split; [reflexivity|]); intros k;
      rewrite ?N.lor_spec, ?B32, ?B64, ?B128, ?andb_false_r, ?andb_true_r, ?orb_false_r; reflexivity.
  Qed.
  Lemma steps_flags h draw suits : hand_of base l h -> Forall (fun s => s < 4) suits ->
    exists d, foldM (flush_draw_step p hc bd h gb) suits draw = Ret d /\
      forall k, N.testbit d k = N.testbit draw k || ((k =? 5) && existsb (fun s => (nsuit s l =? 4)%nat) suits) ||
        ((k =? 6) && existsb (fun s => (nsuit s l =? 3)%nat && gb) suits) || ((k =? 7) && existsb (fun s => flagged s && nut_in s) suits).
  Proof.
    intros Hof HF. revert draw. induction HF as [|s suits Hs HF IH]; intros draw; cbn [foldM existsb].
    - exists draw. split; [reflexivity|]. intros k. rewrite !andb_false_r, !orb_false_r. reflexivity.
    - destruct (step_flags h draw s Hof Hs) as (d & E & Hd). rewrite E. cbn [bind]. destruct (IH d) as (d' & E' & Hd'). exists d'. split; [exact E'|].
      intros k. rewrite Hd', Hd. clear. destruct (N.testbit draw k), (k =? 5), (k =? 6), (k =? 7), (nsuit s l =? 4)%nat, (nsuit s l =? 3)%nat, gb, (flagged s), (nut_in s); cbn [andb orb]; rewrite ?orb_true_r, ?orb_false_r; reflexivity.
  Qed.

  Notation suits4 := [0; 1; 2; 3].
  Lemma all_flags rank : (rank = 5 -> exists s, s < 4 /\ (5 <= nsuit s l)%nat) ->
    exists d, get_draw p hc bd rank = Ret d /\
      (forall k, k < 4 -> N.testbit d k = (rank <? 4) && N.testbit (straight_draws (rank_bits (map rank_of l)) gb 0) k) /\
      N.testbit d 4 = (rank =? 4) && N.testbit (nut_straight_loop 10 TOP5 (rank_bits (map rank_of l)) (rank_bits (map rank_of bl)) 0) 4 /\
      N.testbit d 5 = (rank <? 5) && existsb (fun s => (nsuit s l =? 4)%nat) suits4 /\
      N.testbit d 6 = (rank <? 5) && existsb (fun s => (nsuit s l =? 3)%nat && gb) suits4 /\
      (rank < 5 -> N.testbit d 7 = existsb (fun s => flagged s && nut_in s) suits4) /\
      (rank = 5 -> exists s, s < 4 /\ (5 <= nsuit s l)%nat /\ N.testbit d 7 = nut_in s) /\
      (5 < rank -> N.testbit d 7 = false) /\ (forall k, 7 < k -> N.testbit d k = false).
  Proof.
    intros Hr. unfold get_draw. destruct (draw_hand p [a; b] bl hc bd) as (h & E & Hof); [cbn [length app]; lia|exact Hh|exact Hb|]. rewrite E. cbn [bind].
    change ([a; b] ++ bl) with l in Hof.
    rewrite (get_rank_mask_of base l h) by (apply Hcards || exact Hof). rewrite (get_rank_mask_of base bl bd) by (apply cbF || exact Hb).
    assert (Hcnt : count_ones (mask bd) = N.of_nat (length bl)).
    { destruct Hb as [_ ->]. apply ones_mask_of. eapply (cards_app_r [a; b]). exact Hcards. }
    rewrite Hcnt.
    assert (Hgb : (N.of_nat (length bl) <? 4) = gb) by (destruct (N.ltb_spec (N.of_nat (length bl)) 4), (Nat.ltb_spec (length bl) 4); lia).
    rewrite Hgb. clear Hgb Hcnt.
    set (rm := rank_bits (map rank_of l)). set (bm := rank_bits (map rank_of bl)).
    destruct (straight_draws_bits rm gb) as [S1 _].
    set (sd := straight_draws rm gb 0) in *.
    set (d0 := if rank <? 4 then sd else 0).
    assert (D0 : forall k, N.testbit d0 k = (rank <? 4) && N.testbit sd k) by (intros k; unfold d0; destruct (rank <? 4); [reflexivity|apply N.bits_0]).
    set (d1 := if rank =? 4 then nut_straight_loop 10 TOP5 rm bm d0 else d0).
    assert (D1 : forall k, k <> 4 -> N.testbit d1 k = N.testbit d0 k) by (intros k Hk; unfold d1; destruct (rank =? 4); [apply nut_straight_bits; exact Hk|reflexivity]).
    assert (D4 : N.testbit d1 4 = (rank =? 4) && N.testbit (nut_straight_loop 10 TOP5 rm bm 0) 4).
    { unfold d1. destruct (N.eqb_spec rank 4) as [Er|Er]; [unfold d0; rewrite Er; reflexivity|]. rewrite D0, S1 by lia. apply andb_false_r. }
    clearbody d1 d0. destruct (N.ltb_spec rank 5) as [H5|H5].
    - destruct (steps_flags h d1 suits4 Hof) as (d & Ed & Hd); [repeat constructor|]. rewrite Ed. cbn [bind].
      rewrite (proj2 (N.eqb_neq rank 5)) by lia. exists d. split; [reflexivity|]. split; [|split; [|split; [|split; [|split; [|split; [|split]]]]]].
      + intros k Hk. rewrite Hd, D1, D0 by lia. rewrite (proj2 (N.eqb_neq k 5)), (proj2 (N.eqb_neq k 6)), (proj2 (N.eqb_neq k 7)) by lia. rewrite !orb_false_r. reflexivity.
      + rewrite Hd, D4. cbn [N.eqb Pos.eqb andb]. rewrite !orb_false_r. reflexivity.
      + rewrite Hd, D1, D0, S1 by lia. rewrite andb_false_r. cbn [N.eqb Pos.eqb andb orb]. rewrite !orb_false_r. reflexivity.
      + rewrite Hd, D1, D0, S1 by lia. rewrite andb_false_r. cbn [N.eqb Pos.eqb andb orb]. rewrite !orb_false_r. reflexivity.
      + intros _. rewrite Hd, D1, D0, S1 by lia. rewrite andb_false_r. reflexivity.
      + intros ->. lia.
      + lia.
      + intros k Hk. rewrite Hd, D1, D0, S1 by lia. rewrite (proj2 (N.eqb_neq k 5)), (proj2 (N.eqb_neq k 6)), (proj2 (N.eqb_neq k 7)) by lia. rewrite andb_false_r. reflexivity.
    - cbn [bind]. rewrite (proj2 (N.ltb_ge rank 4)) in D0 |- * by lia. cbn [andb] in D0 |- *.
      rewrite (proj2 (N.eqb_neq rank 4)) in D4 |- * by lia. cbn [andb] in D4 |- *.
      assert (Dz : forall k, N.testbit d1 k = false) by (intros k; destruct (N.eq_dec k 4) as [->|Hk]; [exact D4|rewrite (D1 k Hk); apply D0]).
      destruct (N.eqb_spec rank 5) as [->|Hne].
      + destruct (Hr eq_refl) as (s & Hs & Hs5).
        destruct (flush_suit_ok p [a; b] bl) with (h := h) (suits := suits4) as (t & Et & Ht & Ht5); [cbn [length app]; lia|exact Hof|repeat constructor|exists s; split; [cbn [In]; lia|exact Hs5]|].
        change ([a; b] ++ bl) with l in *.
        rewrite Et. cbn [bind]. rewrite (get_suit_mask_of p base bl bd), (get_suit_mask_of p 0 [a; b] hc) by (assumption || apply chF || apply cbF). cbn [bind].
        match goal with |- context [if ?x =? 0 then Ret _ else _] => destruct (N.eqb_spec x 0) as [E0|E0] end.
        * exfalso. destruct (some_missing t Ht) as (k & Hk & Ek).
          assert (Eb : N.testbit 0 k = true); [|rewrite N.bits_0 in Eb; discriminate]. rewrite <- E0, N.land_spec, N.lxor_spec, N.land_spec, top5_bit, Ek.
          rewrite (proj2 (N.leb_le 8 k)), (proj2 (N.leb_le k 12)) by lia. reflexivity.
        * match goal with |- context [leading_zeros 16 ?x =? leading_zeros 16 ?y] => change (leading_zeros 16 x =? leading_zeros 16 y) with (nut_in t) end.
          assert (B128 : forall k, N.testbit 128 k = (k =? 7)) by (intros k; exact (bit_of k 7)).
          exists (if nut_in t then N.lor d1 128 else d1). split; [reflexivity|].
          assert (Hd : forall k, N.testbit (if nut_in t then N.lor d1 128 else d1) k = (k =? 7) && nut_in t).
          { intros k. destruct (nut_in t); rewrite ?N.lor_spec, ?B128, Dz; [rewrite andb_true_r; reflexivity|rewrite andb_false_r; reflexivity]. }
          split; [|split; [|split; [|split; [|split; [|split; [|split]]]]]]; try (rewrite Hd; reflexivity); try lia.
          -- intros k Hk. rewrite Hd, (proj2 (N.eqb_neq k 7)) by lia. reflexivity.
          -- intros _. exists t. split; [exact Ht|]. split; [exact Ht5|]. rewrite Hd. reflexivity.
          -- intros k Hk. rewrite Hd, (proj2 (N.eqb_neq k 7)) by lia. reflexivity.
      + exists d1. split; [reflexivity|]. repeat split; intros; try apply Dz; try lia.
  Qed.
End Flags.

(* ------------------------------------------------------------------------- *)
(** * The flags of two hole cards on a board *)

Section Hole.
  Variables (p : profile) (a b : N) (bl : list N) (hc bd : hand) (cat d : N).
  Notation l := (a :: b :: bl).
  Hypothesis Hcards : cards l.
  Hypothesis Hlen : (length bl <= 4)%nat.
  Hypothesis Hhc : hand_of 0 [a; b] hc.
  Hypothesis Hbd : hand_of base bl bd.
  Hypothesis Hcat5 : cat = 5 -> exists s, s < 4 /\ (5 <= nsuit s l)%nat.
  Hypothesis Hcat4 : cat < 4 -> ~ high_straight (map rank_of l).
  Hypothesis Hd : get_draw p hc bd cat = Ret d.

  Lemma flags_all :
      (forall k, k < 4 -> N.testbit d k = (cat <? 4) && N.testbit (straight_draws (rank_bits (map rank_of l)) (length bl <? 4)%nat 0) k) /\
      N.testbit d 4 = (cat =? 4) && N.testbit (nut_straight_loop 10 TOP5 (rank_bits (map rank_of l)) (rank_bits (map rank_of bl)) 0) 4 /\
      N.testbit d 5 = (cat <? 5) && existsb (fun s => (nsuit s l =? 4)%nat) [0; 1; 2; 3] /\
      N.testbit d 6 = (cat <? 5) && existsb (fun s => (nsuit s l =? 3)%nat && (length bl <? 4)%nat) [0; 1; 2; 3] /\
      (cat < 5 -> N.testbit d 7 = existsb (fun s => flagged a b bl s && nut_in a b bl s) [0; 1; 2; 3]) /\
      (cat = 5 -> exists s, s < 4 /\ (5 <= nsuit s l)%nat /\ N.testbit d 7 = nut_in a b bl s) /\
      (5 < cat -> N.testbit d 7 = false) /\ (forall k, 7 < k -> N.testbit d k = false).
  Proof. destruct (all_flags p a b bl hc bd Hcards Hlen Hhc Hbd cat Hcat5) as (d' & E3 & HF). rewrite E3 in Hd. injection Hd as <-. exact HF. Qed.

  Lemma suits_iff (f : N -> bool) (P : N -> Prop) : (forall s, s < 4 -> f s = true <-> P s) -> existsb f [0; 1; 2; 3] = true <-> exists s, s < 4 /\ P s.
  Proof.
    intros H. rewrite existsb_exists. split.
    - intros (s & Hs & Hf). assert (Hlt : s < 4) by (cbn [In] in Hs; lia). exists s. split; [exact Hlt|apply H; assumption].
    - intros (s & Hs & Hp). exists s. split; [cbn [In]; lia|apply H; assumption].
  Qed.

  Lemma flags_flush : cat < 5 ->
    (N.testbit d 5 = true <-> exists s, s < 4 /\ of_suit s l = 4%nat) /\
    (N.testbit d 6 = true <-> (length bl < 4)%nat /\ exists s, s < 4 /\ of_suit s l = 3%nat).
  Proof.
    intros Hc. destruct flags_all as (_ & _ & F5 & F6 & _). rewrite (proj2 (N.ltb_lt cat 5) Hc) in F5, F6. cbn [andb] in F5, F6. rewrite F5, F6. split.
    - apply suits_iff. intros s _. apply Nat.eqb_eq.
    - rewrite (suits_iff _ (fun s => of_suit s l = 3%nat /\ (length bl < 4)%nat)).
      + split; [intros (s & Hs & H1 & H2)|intros (H2 & s & Hs & H1)]; eauto.
      + intros s _. rewrite andb_true_iff, Nat.eqb_eq, Nat.ltb_lt. reflexivity.
  Qed.
  Lemma flags_nut_flush :
    (cat < 5 -> (N.testbit d 7 = true <-> exists s, s < 4 /\ (of_suit s l = 4%nat \/ of_suit s l = 3%nat /\ (length bl < 4)%nat) /\ top_of_suit s [a; b] bl)) /\
    (cat = 5 -> (N.testbit d 7 = true <-> exists s, s < 4 /\ (5 <= of_suit s l)%nat /\ top_of_suit s [a; b] bl)) /\
    (5 < cat -> N.testbit d 7 = false).
  Proof.
    destruct flags_all as (_ & _ & _ & _ & F7 & F75 & F76 & _). split; [|split; [|exact F76]].
    - intros Hc. rewrite (F7 Hc). apply suits_iff. intros s Hs. rewrite andb_true_iff, (nut_in_iff a b bl Hcards Hlen s Hs). unfold flagged.
      rewrite orb_true_iff, andb_true_iff, !Nat.eqb_eq, Nat.ltb_lt. reflexivity.
    - intros Hc. destruct (F75 Hc) as (s & Hs & H5 & E). rewrite E, (nut_in_iff a b bl Hcards Hlen s Hs). split.
      + intros H. exists s. auto.
      + intros (t & Ht & Ht5 & H). assert (t = s) as <-; [|exact H].
        (* six cards cannot hold two flushes *)
        destruct (N.eq_dec t s) as [|Hne]; [assumption|exfalso].
        assert (Hsum : (nsuit t l + nsuit s l <= length l)%nat).
        { unfold nsuit, suited. clear -Hne. generalize l. intros x0. induction x0 as [|c x IH]; [cbn; lia|]. cbn [filter length]. destruct (N.eqb_spec (suit_of c) t), (N.eqb_spec (suit_of c) s); cbn [length]; lia. }
        change (of_suit t l) with (nsuit t l) in Ht5. cbn [length] in Hsum. lia.
  Qed.

  Lemma ranks_ok : Forall (fun r => r < 13) (map rank_of l).
  Proof. apply Forall_forall. intros r Hr. apply in_map_iff in Hr as (c & <- & Hc). apply rank_lt. destruct Hcards as [_ H]. rewrite Forall_forall in H. apply H. exact Hc. Qed.
  Lemma flags_straight : cat < 4 -> let rs := map rank_of l in
    let any := N.testbit d 0 || N.testbit d 1 || N.testbit d 2 in
    (any = true <-> exists r, completes rs r) /\
    (N.testbit d 0 || N.testbit d 2 = true <-> exists r r', r <> r' /\ completes rs r /\ completes rs r') /\
    (N.testbit d 3 = true -> (length bl < 4)%nat /\ exists x y, high_straight (x :: y :: rs)) /\
    ((length bl < 4)%nat -> any = false -> (exists x y, high_straight (x :: y :: rs)) -> N.testbit d 3 = true).
  Proof.
    intros Hc. cbv zeta. destruct flags_all as (F & _). rewrite (proj2 (N.ltb_lt cat 4) Hc) in F. rewrite (F 0), (F 1), (F 2), (F 3) by reflexivity. cbn [andb].
    pose proof (straight_flags (map rank_of l) (length bl <? 4)%nat ranks_ok) as H.
    assert (H6 : (length (map rank_of l) <= 6)%nat) by (rewrite map_length; cbn [length]; lia). specialize (H H6 (Hcat4 Hc)). cbv zeta in H. destruct H as (G0 & G1 & G2 & G3).
    split; [exact G0|]. split; [exact G1|]. rewrite <- Nat.ltb_lt. split; [exact G2|exact G3].
  Qed.
  Lemma four_from_iff rs i : four_from (rank_bits rs) i = true /\ (i <= 8)%nat <-> (forall k, k < 4 -> In (N.of_nat i + k) rs) /\ (i <= 8)%nat.
  Proof.
    assert (E : (i <= 8)%nat -> oesd (Nat.iter i sd_next sd_init) = N.shiftl (N.ones 4) (N.of_nat i)).
    { intros Hi. assert (Hc : In i [0; 1; 2; 3; 4; 5; 6; 7; 8]%nat) by (cbn [In]; lia). cbn [In] in Hc.
      destruct Hc as [<-|[<-|[<-|[<-|[<-|[<-|[<-|[<-|[<-|[]]]]]]]]]]; vm_compute; reflexivity. }
    unfold four_from. split; intros [H Hi]; (split; [|exact Hi]); rewrite E, covers_iff in * by exact Hi.
    - intros k Hk. apply in_bits, H. rewrite N.shiftl_spec_high' by lia. apply N.ones_spec_low. lia.
    - intros k Hk. destruct (N.lt_ge_cases k (N.of_nat i)) as [Hlt|Hge]; [rewrite N.shiftl_spec_low in Hk by exact Hlt; discriminate|].
      rewrite N.shiftl_spec_high' in Hk by exact Hge. destruct (N.lt_ge_cases (k - N.of_nat i) 4) as [H4|H4]; [|rewrite N.ones_spec_high in Hk by exact H4; discriminate].
      apply in_bits. replace k with (N.of_nat i + (k - N.of_nat i)) by lia. apply H. exact H4.
  Qed.
  Lemma flags_open_ended : cat < 4 -> (N.testbit d 0 = true <-> exists i, 1 <= i <= 8 /\ forall k, k < 4 -> In (i + k) (map rank_of l)).
  Proof.
    intros Hc. destruct flags_all as (F & _). rewrite (F 0), (proj2 (N.ltb_lt cat 4) Hc) by reflexivity. cbn [andb].
    rewrite (proj2 (straight_draws_bits _ _)), existsb_exists. split.
    - intros (i & Hi & H). assert (Hr : (1 <= i <= 8)%nat) by (cbn [In] in Hi; lia). exists (N.of_nat i). split; [lia|]. apply four_from_iff. split; [exact H|lia].
    - intros (i & Hi & H). exists (N.to_nat i). split; [cbn [In]; lia|]. apply four_from_iff. rewrite N2Nat.id. split; [exact H|lia].
  Qed.
  Lemma flags_nut_straight : let rs := map rank_of l in
    (cat = 4 -> (N.testbit d 4 = true <-> exists i, i <= 8 /\ has_run rs i /\ forall j x y, i < j -> j <= 8 -> ~ has_run (x :: y :: map rank_of bl) j)) /\
    (cat <> 4 -> N.testbit d 4 = false).
  Proof.
    cbv zeta. destruct flags_all as (_ & F4 & _). split; intros Hc; rewrite F4.
    - rewrite Hc. cbn [N.eqb Pos.eqb andb]. apply (nut_straight_ok (rank_of a) (rank_of b)).
    - rewrite (proj2 (N.eqb_neq cat 4) Hc). reflexivity.
  Qed.
End Hole.

Lemma flags_ready p a b board : cards (a :: b :: mask_cards board) -> (length (mask_cards board) <= 4)%nat ->
  exists hc bd, hand_of 0 [a; b] hc /\ hand_of base (mask_cards board) bd /\ from_hole_cards p a b = Ret hc /\ from_bit_mask p board = Ret bd.
Proof.
  intros Hcards Hlen. pose proof (chF a b _ Hcards) as Hf. inversion Hf as [|? ? Ha Hf']; subst. inversion Hf' as [|? ? Hb _]; subst.
  destruct (from_hole_cards_of p a b Ha Hb) as (hc & E1 & H1). destruct (from_bit_mask_of p board) as (bd & E2 & H2); [apply fits_of_length; lia|]. exists hc, bd. auto.
Qed.
Lemma flags_of p a b board d : draw_flags p a b board = Ret d -> cards (a :: b :: mask_cards board) -> (length (mask_cards board) <= 4)%nat ->
  exists hc bd, hand_of 0 [a; b] hc /\ hand_of base (mask_cards board) bd /\ get_draw p hc bd (category_of (a :: b :: mask_cards board)) = Ret d.
Proof.
  intros Hd Hcards Hlen. destruct (flags_ready p a b board Hcards Hlen) as (hc & bd & H1 & H2 & E1 & E2). exists hc, bd. split; [exact H1|]. split; [exact H2|].
  unfold draw_flags in Hd. revert Hd. generalize (category_of (a :: b :: mask_cards board)). intros cat. rewrite E1, E2. exact (fun H => H).
Qed.
Lemma flags_exist p a b board : cards (a :: b :: mask_cards board) -> (length (mask_cards board) <= 4)%nat -> exists d, draw_flags p a b board = Ret d.
Proof.
  intros Hcards Hlen. destruct (flags_ready p a b board Hcards Hlen) as (hc & bd & H1 & H2 & E1 & E2). unfold draw_flags.
  pose proof (category_flush (a :: b :: mask_cards board)) as H5. revert H5. generalize (category_of (a :: b :: mask_cards board)). intros cat H5. rewrite E1, E2. cbn [bind].
  destruct (all_flags p a b _ hc bd Hcards Hlen H1 H2 cat H5) as (d' & E3 & _). eauto.
Qed.

Ltac by_flags f := intros Hd Hcards Hlen; destruct (flags_of _ _ _ _ _ Hd Hcards Hlen) as (hc & bd & H1 & H2 & E);
  first [exact (f _ _ _ _ hc bd _ _ Hcards Hlen H1 H2 (category_flush _) (no_straight _ Hcards) E)
        |exact (f _ _ _ _ hc bd _ _ Hcards Hlen H1 H2 (category_flush _) E)].
