(* Categories of the current hand and draw flags. *)
From Verif Require Import Base BaseProofs Hand SpecPoker SpecHand ListFacts PokerFacts EvalCheck HandProofs HandExprProofs EvalProofs SetupProofs.
Local Open Scope N_scope.

(* ------------------------------------------------------------------------- *)
(** * Number of cards in a mask *)

Lemma ones_lor_bit k : forall m, N.testbit m (N.of_nat k) = false -> count_ones (N.lor (2 ^ N.of_nat k) m) = 1 + count_ones m.
Proof.
  induction k as [|k IH]; intros m H; rewrite (ones_step m), (ones_step (N.lor _ m)), N.lor_spec, N.div2_spec, N.shiftr_lor, <- !N.div2_spec.
  - change (N.of_nat 0) with 0 in *. rewrite H. change (2 ^ 0) with 1. change (N.div2 1) with 0. rewrite N.lor_0_l. cbn [N.testbit Pos.testbit orb]. lia.
  - assert (E : N.div2 (2 ^ N.of_nat (S k)) = 2 ^ N.of_nat k).
    { rewrite Nat2N.inj_succ, N.pow_succ_r', N.div2_double. reflexivity. }
    rewrite E, IH.
    + rewrite N.pow2_bits_false by lia. cbn [orb]. lia.
    + rewrite N.div2_spec, N.shiftr_spec by lia. rewrite Nat2N.inj_succ in H. rewrite N.add_1_r. exact H.
Qed.
Lemma ones_mask_of l : cards l -> count_ones (mask_of l) = N.of_nat (length l).
Proof.
  intros [Hn Hc]. induction l as [|c l IH]; [reflexivity|]. inversion Hn; subst. inversion Hc; subst.
  cbn [mask_of fold_right length]. fold (mask_of l). rewrite <- (N2Nat.id (card_bit c)), ones_lor_bit.
  - rewrite IH by assumption. lia.
  - rewrite N2Nat.id, testbit_mask_of. apply not_true_iff_false. rewrite existsb_bit by assumption. assumption.
Qed.

(* ------------------------------------------------------------------------- *)
(** * Categories *)

Lemma strength_head h : (hd 0 (strength h) <= 8) /\ (hd 0 (strength h) = 5 -> is_flush h = true).
Proof.
  unfold strength, strength_ranks. destruct (straight_top _) as [t|].
  - destruct (is_flush h); cbn [hd]; split; try lia; auto.
  - cbn [hd]. generalize (map rank_of h). intros rs.
    destruct (held 4 rs), (held 3 rs), (held 2 rs) as [|? [|? ?]], (is_flush h); split; try lia; auto.
Qed.
Lemma best_is_strength l : exists h, In h (choose (Nat.min 5 (length l)) l) /\ best l = strength h.
Proof.
  assert (Hin : In (best l) (map strength (choose (Nat.min 5 (length l)) l))).
  { unfold best. apply lmax_in. intros H. apply map_eq_nil in H. revert H. apply choose_nonempty. lia. }
  apply in_map_iff in Hin as (h & E & Hh). exists h. auto.
Qed.
Lemma category_le l : category_of l <= 8.
Proof. destruct (best_is_strength l) as (h & _ & E). unfold category_of. rewrite E. apply strength_head. Qed.
Lemma category_flush l : category_of l = 5 -> exists s, s < 4 /\ (5 <= nsuit s l)%nat.
Proof.
  destruct (best_is_strength l) as (h & Hh & E). unfold category_of. rewrite E. intros H.
  apply strength_head, is_flush_spec in H as (_ & s & Hs & H5). exists s. split; [exact Hs|].
  pose proof (nsuit_choose s _ _ _ Hh). lia.
Qed.

(* ------------------------------------------------------------------------- *)
(** * Straight draws *)

Lemma bit_of k i : N.testbit (2 ^ i) k = (k =? i).
Proof. rewrite N.pow2_bits_eqb. apply N.eqb_sym. Qed.
Lemma sd_step_bits rm gb draw m i k :
  snd (sd_step rm gb (draw, m) i) = sd_next m /\
  (4 <= k -> N.testbit (fst (sd_step rm gb (draw, m) i)) k = N.testbit draw k) /\
  N.testbit (fst (sd_step rm gb (draw, m) i)) 0 = N.testbit draw 0 || (covers rm (oesd m) && negb ((i =? 0) || (i =? 9))).
Proof.
  unfold sd_step. cbn [snd fst]. split; [reflexivity|].
  assert (B2 : forall a k, N.testbit (N.lor a 2) k = N.testbit a k || (k =? 1)) by (intros; rewrite N.lor_spec, (bit_of _ 1 : N.testbit 2 _ = _); reflexivity).
  assert (B1 : forall a k, N.testbit (N.lor a 1) k = N.testbit a k || (k =? 0)) by (intros; rewrite N.lor_spec, (bit_of _ 0 : N.testbit 1 _ = _); reflexivity).
  assert (B8 : forall a k, N.testbit (N.lor a 8) k = N.testbit a k || (k =? 3)) by (intros; rewrite N.lor_spec, (bit_of _ 3 : N.testbit 8 _ = _); reflexivity).
  assert (B4 : forall a k, N.testbit (N.lor a 4) k = N.testbit a k || (k =? 2)) by (intros; rewrite N.lor_spec, (bit_of _ 2 : N.testbit 4 _ = _); reflexivity).
  destruct (covers rm (gsd1 m) || covers rm (gsd2 m) || covers rm (gsd3 m)), (covers rm (dgsd1 m) || covers rm (dgsd2 m)),
    gb, (count_ones (N.land rm (bdsd m)) =? 3), (negb (3 <? count_ones (N.land rm (shl1_16 (bdsd m)))) && negb (3 <? count_ones (N.land rm (N.shiftr (bdsd m) 1)))),
    (covers rm (oesd m)), ((i =? 0) || (i =? 9)); cbn [andb negb];
    (split; [intros Hk;
      assert (E0 : (k =? 0) = false) by (apply N.eqb_neq; lia); assert (E1 : (k =? 1) = false) by (apply N.eqb_neq; lia);
      assert (E2 : (k =? 2) = false) by (apply N.eqb_neq; lia); assert (E3 : (k =? 3) = false) by (apply N.eqb_neq; lia)|];
      repeat (rewrite B1 || rewrite B2 || rewrite B4 || rewrite B8); rewrite ?E0, ?E1, ?E2, ?E3; cbn [N.eqb Pos.eqb]; rewrite ?orb_false_r; reflexivity).
Qed.

Lemma existsb_map {A C} (f : C -> bool) (g : A -> C) l : existsb f (map g l) = existsb (fun x => f (g x)) l.
Proof. induction l as [|x l IH]; [reflexivity|]. cbn [map existsb]. rewrite IH. reflexivity. Qed.
Lemma existsb_same {A} (f g : A -> bool) l : (forall x, f x = g x) -> existsb f l = existsb g l.
Proof. intros H. induction l as [|x l IH]; [reflexivity|]. cbn [existsb]. rewrite IH, H. reflexivity. Qed.
Lemma iter_succ_r {A} (f : A -> A) n x : Nat.iter (S n) f x = Nat.iter n f (f x).
Proof. induction n as [|n IH]; [reflexivity|]. cbn [Nat.iter nat_rect] in *. f_equal. exact IH. Qed.
Definition four_from (rm : N) (i : nat) : bool := covers rm (oesd (Nat.iter i sd_next sd_init)).
Lemma straight_draws_bits rm gb :
  (forall k, 4 <= k -> N.testbit (straight_draws rm gb 0) k = false) /\
  N.testbit (straight_draws rm gb 0) 0 = existsb (four_from rm) [1; 2; 3; 4; 5; 6; 7; 8]%nat.
Proof.
  assert (G : forall n i draw m, let r := fold_left (sd_step rm gb) (nseq i n) (draw, m) in
     (forall k, 4 <= k -> N.testbit (fst r) k = N.testbit draw k) /\
     N.testbit (fst r) 0 = N.testbit draw 0 || existsb (fun j => covers rm (oesd (Nat.iter j sd_next m)) && negb ((i + N.of_nat j =? 0) || (i + N.of_nat j =? 9))) (seq 0 n)).
  { induction n as [|n IH]; intros i draw m; cbn [nseq fold_left seq existsb]; cbv zeta; [rewrite orb_false_r; auto|].
    destruct (sd_step_bits rm gb draw m i 0) as (E1 & _ & E3).
    assert (E2 : forall k, 4 <= k -> N.testbit (fst (sd_step rm gb (draw, m) i)) k = N.testbit draw k) by (intros k Hk; apply (sd_step_bits rm gb draw m i k); exact Hk).
    destruct (sd_step rm gb (draw, m) i) as [d' m']. cbn [fst snd] in E1, E2, E3. subst m'.
    specialize (IH (N.succ i) d' (sd_next m)). cbv zeta in IH. destruct IH as [H1 H2]. split.
    - intros k Hk. rewrite (H1 k Hk). apply E2. exact Hk.
    - rewrite H2, E3, <- orb_assoc. f_equal. f_equal.
      + cbn [Nat.iter]. change (N.of_nat 0) with 0. rewrite N.add_0_r. reflexivity.
      + rewrite <- seq_shift. rewrite existsb_map. apply existsb_same. intros j. rewrite iter_succ_r.
        replace (N.succ i + N.of_nat j) with (i + N.of_nat (S j)) by lia. reflexivity. }
  specialize (G 10%nat 0 0 sd_init). cbv zeta in G. destruct G as [G1 G2]. unfold straight_draws. split.
  - intros k Hk. rewrite (G1 k Hk). apply N.bits_0.
  - rewrite G2. cbn [seq existsb]. rewrite !N.add_0_l. change (N.testbit 0 0) with false.
    repeat match goal with |- context [negb ?b] => let v := eval vm_compute in (negb b) in change (negb b) with v end.
    rewrite !andb_false_r, !andb_true_r, !orb_false_r, !orb_false_l. reflexivity.
Qed.

Lemma nut_straight_bits n : forall m rm bm draw k, k <> 4 -> N.testbit (nut_straight_loop n m rm bm draw) k = N.testbit draw k.
Proof.
  induction n as [|n IH]; intros m rm bm draw k Hk; cbn [nut_straight_loop]; [reflexivity|].
  destruct (3 <=? _); [|apply IH; exact Hk]. destruct (covers rm m); [|reflexivity].
  rewrite N.lor_spec, (bit_of _ 4 : N.testbit 16 _ = _), (proj2 (N.eqb_neq k 4) Hk), orb_false_r. reflexivity.
Qed.

(* ------------------------------------------------------------------------- *)
(** * get_draw *)

Section Draw.
  Variable p : profile.
  Variables hl bl : list N.
  Variables hc bd : hand.
  Hypothesis Hcards : cards (hl ++ bl).
  Hypothesis Hlen : (length (hl ++ bl) <= 7)%nat.
  Hypothesis Hh : hand_of 0 hl hc.
  Hypothesis Hb : hand_of base bl bd.
  Notation l := (hl ++ bl).

  Lemma draw_ch : Forall is_card hl. Proof. destruct Hcards as [_ H]. apply Forall_app in H. apply H. Qed.
  Lemma draw_cb : Forall is_card bl. Proof. destruct Hcards as [_ H]. apply Forall_app in H. apply H. Qed.
  Lemma draw_hand : exists h, hand_add p hc bd = Ret h /\ hand_of base l h.
  Proof. apply (hand_add_of p 0 base hl bl); try assumption; [reflexivity|lia|apply small_fits; exact Hlen]. Qed.

  (* what one suit contributes *)
  Lemma flush_draw_step_ok h gb draw i : hand_of base l h -> i < 4 ->
    exists d, flush_draw_step p hc bd h gb draw i = Ret d /\
      forall k, k <> 7 -> N.testbit d k = N.testbit draw k || ((k =? 5) && (nsuit i l =? 4)%nat) || ((k =? 6) && (nsuit i l =? 3)%nat && gb).
  Proof.
    intros Hof Hi. unfold flush_draw_step.
    rewrite (suit_count_of base l h) by (auto; try lia; apply small_fits; exact Hlen). cbn [bind].
    change (if base =? 0 then 0 else 3) with 3.
    replace (Z.of_N 3 + Z.of_nat (nsuit i l) - 3)%Z with (Z.of_nat (nsuit i l)) by lia.
    rewrite !(get_suit_mask_of p base bl bd), !(get_suit_mask_of p 0 hl hc) by (assumption || apply draw_ch || apply draw_cb). cbn [bind].
    set (lead := leading_zeros 16 _ =? leading_zeros 16 _). clearbody lead.
    assert (E4 : (Z.of_nat (nsuit i l) =? 4)%Z = (nsuit i l =? 4)%nat) by (destruct (Nat.eqb_spec (nsuit i l) 4), (Z.eqb_spec (Z.of_nat (nsuit i l)) 4); lia).
    assert (E3 : (Z.of_nat (nsuit i l) =? 3)%Z = (nsuit i l =? 3)%nat) by (destruct (Nat.eqb_spec (nsuit i l) 3), (Z.eqb_spec (Z.of_nat (nsuit i l)) 3); lia).
    rewrite E4, E3.
    assert (B32 : forall k, N.testbit 32 k = (k =? 5)) by (intros k; change 32 with (2 ^ 5); rewrite N.pow2_bits_eqb; apply N.eqb_sym).
    assert (B64 : forall k, N.testbit 64 k = (k =? 6)) by (intros k; change 64 with (2 ^ 6); rewrite N.pow2_bits_eqb; apply N.eqb_sym).
    assert (B128 : forall k, k <> 7 -> N.testbit 128 k = false) by (intros k Hk; change 128 with (2 ^ 7); apply N.pow2_bits_false; auto).
    destruct (Nat.eqb_spec (nsuit i l) 4) as [H4|H4]; cbn [orb andb].
    - rewrite H4. cbn [Nat.eqb]. eexists. split; [reflexivity|]. intros k Hk.
      rewrite andb_false_r, andb_true_r, orb_false_r. destruct lead; rewrite !N.lor_spec, B32, ?B128, ?orb_false_r by exact Hk; reflexivity.
    - destruct (Nat.eqb_spec (nsuit i l) 3) as [H3|H3]; cbn [andb]; rewrite ?andb_false_r, ?andb_true_r, ?orb_false_r.
      + destruct gb; cbn [andb]; (eexists; split; [reflexivity|]); intros k Hk; rewrite ?andb_false_r, ?andb_true_r, ?orb_false_r; [|reflexivity].
        destruct lead; rewrite !N.lor_spec, B64, ?B128, ?orb_false_r by exact Hk; reflexivity.
      + eexists. split; [reflexivity|]. intros k Hk. rewrite !andb_false_r. cbn [andb]. rewrite !orb_false_r. reflexivity.
  Qed.

  Definition some_suit (n : nat) : bool := existsb (fun s => (nsuit s l =? n)%nat) [0; 1; 2; 3].

  Lemma flush_draws_ok h gb draw : hand_of base l h ->
    exists d, foldM (flush_draw_step p hc bd h gb) [0; 1; 2; 3] draw = Ret d /\
      forall k, k <> 7 -> N.testbit d k = N.testbit draw k || ((k =? 5) && some_suit 4) || ((k =? 6) && some_suit 3 && gb).
  Proof.
    intros Hof. cbn [foldM].
    destruct (flush_draw_step_ok h gb draw 0 Hof eq_refl) as (d0 & E0 & H0). rewrite E0. cbn [bind].
    destruct (flush_draw_step_ok h gb d0 1 Hof eq_refl) as (d1 & E1 & H1). rewrite E1. cbn [bind].
    destruct (flush_draw_step_ok h gb d1 2 Hof eq_refl) as (d2 & E2 & H2). rewrite E2. cbn [bind].
    destruct (flush_draw_step_ok h gb d2 3 Hof eq_refl) as (d3 & E3 & H3). rewrite E3. cbn [bind].
    exists d3. split; [reflexivity|]. intros k Hk. rewrite (H3 k Hk), (H2 k Hk), (H1 k Hk), (H0 k Hk). unfold some_suit. cbn [existsb].
    rewrite !orb_false_r. clear.
    destruct (N.testbit draw k), (k =? 5), (k =? 6), gb, (nsuit 0 l =? 4)%nat, (nsuit 1 l =? 4)%nat, (nsuit 2 l =? 4)%nat, (nsuit 3 l =? 4)%nat,
      (nsuit 0 l =? 3)%nat, (nsuit 1 l =? 3)%nat, (nsuit 2 l =? 3)%nat, (nsuit 3 l =? 3)%nat; reflexivity.
  Qed.

  Lemma flush_suit_ok h suits : hand_of base l h -> Forall (fun s => s < 4) suits -> (exists s, In s suits /\ (5 <= nsuit s l)%nat) ->
    exists s, flush_suit p h suits = Ret s /\ s < 4 /\ (5 <= nsuit s l)%nat.
  Proof.
    intros Hof HF. induction HF as [|s suits Hs HF IH]; intros (t & Ht & H5); [contradiction|]. cbn [flush_suit].
    rewrite (suit_count_of base l h) by (auto; try lia; apply small_fits; exact Hlen). cbn [bind].
    change (if base =? 0 then 0 else 3) with 3.
    replace (Z.of_N 3 + Z.of_nat (nsuit s l) - 3)%Z with (Z.of_nat (nsuit s l)) by lia.
    destruct (Z.leb_spec 5 (Z.of_nat (nsuit s l))) as [H|H].
    - exists s. split; [reflexivity|]. split; [exact Hs|lia].
    - apply IH. exists t. split; [|exact H5]. destruct Ht as [->|Ht]; [lia|exact Ht].
  Qed.

  Lemma get_draw_ok rank : (rank = 5 -> exists s, s < 4 /\ (5 <= nsuit s l)%nat) ->
    exists d, get_draw p hc bd rank = Ret d /\
      (rank < 5 -> N.testbit d 5 = some_suit 4 /\ N.testbit d 6 = some_suit 3 && (length bl <? 4)%nat) /\
      (rank < 4 -> N.testbit d 0 = existsb (four_from (rank_bits (map rank_of l))) [1; 2; 3; 4; 5; 6; 7; 8]%nat).
  Proof.
    intros Hr. unfold get_draw. destruct draw_hand as (h & E & Hof). rewrite E. cbn [bind].
    rewrite (get_rank_mask_of base l h) by (apply Hcards || exact Hof).
    assert (Hcnt : count_ones (mask bd) = N.of_nat (length bl)).
    { destruct Hb as [_ ->]. apply ones_mask_of. eapply cards_app_r. exact Hcards. }
    rewrite Hcnt.
    assert (Hgb : (N.of_nat (length bl) <? 4) = (length bl <? 4)%nat) by (destruct (N.ltb_spec (N.of_nat (length bl)) 4), (Nat.ltb_spec (length bl) 4); lia).
    rewrite Hgb. set (gb := (length bl <? 4)%nat). clearbody gb. clear Hgb Hcnt.
    set (rm := rank_bits (map rank_of l)).
    destruct (straight_draws_bits rm gb) as [S1 S2].
    set (d0 := if rank <? 4 then straight_draws rm gb 0 else 0).
    assert (D0 : forall k, 4 <= k -> N.testbit d0 k = false) by (intros k Hk; unfold d0; destruct (rank <? 4); [apply S1; exact Hk|apply N.bits_0]).
    set (d1 := if rank =? 4 then nut_straight_loop 10 TOP5 rm (get_rank_mask bd) d0 else d0).
    assert (D1 : forall k, k <> 4 -> N.testbit d1 k = N.testbit d0 k) by (intros k Hk; unfold d1; destruct (rank =? 4); [apply nut_straight_bits; exact Hk|reflexivity]).
    clearbody d1. destruct (N.ltb_spec rank 5) as [H5|H5].
    - destruct (flush_draws_ok h gb d1 Hof) as (d & Ed & Hd). rewrite Ed. cbn [bind].
      rewrite (proj2 (N.eqb_neq rank 5)) by lia. exists d. split; [reflexivity|]. split.
      + intros _. rewrite (Hd 5), (Hd 6), (D1 5), (D1 6), (D0 5), (D0 6) by lia. cbn [N.eqb Pos.eqb andb orb]. rewrite orb_false_r. auto.
      + intros H4. rewrite (Hd 0), (D1 0) by lia. cbn [N.eqb Pos.eqb andb orb]. rewrite !orb_false_r. unfold d0.
        rewrite (proj2 (N.ltb_lt rank 4) H4). exact S2.
    - cbn [bind]. destruct (N.eqb_spec rank 5) as [->|Hne]; [|eexists; split; [reflexivity|split; intros; lia]].
      destruct (Hr eq_refl) as (s & Hs & Hs5).
      destruct (flush_suit_ok h [0; 1; 2; 3] Hof) as (t & Et & Ht & _).
      + repeat constructor.
      + exists s. split; [|exact Hs5]. cbn. lia.
      + rewrite Et. cbn [bind]. rewrite (get_suit_mask_of p base bl bd), (get_suit_mask_of p 0 hl hc) by (assumption || apply draw_ch || apply draw_cb).
        cbn [bind]. match goal with |- context [if ?b then Ret _ else _] => destruct b end; (eexists; split; [reflexivity|split; intros; lia]).
  Qed.
End Draw.
