(* What a Hand value holds: the relation between key/mask and a set of cards. *)
From Verif Require Import Base BaseProofs Hand SpecPoker ListFacts PokerFacts EvalCheck.
From Coq Require Import Permutation.
Local Open Scope N_scope.

Definition suits_val (l : list N) : N := fold_right (fun c s => 16 ^ suit_of c + s) 0 l.
Definition card_bit (c : N) : N := (3 - suit_of c) * 16 + rank_of c.
Definition mask_of (l : list N) : N := fold_right (fun c m => N.lor (2 ^ card_bit c) m) 0 l.

(* h is the sum of the card constants of l, on top of the suit counters b *)
Definition hand_of (b : N) (l : list N) (h : hand) : Prop :=
  key h = 2 ^ 48 * (b + suits_val l) + 2 ^ 32 * N.of_nat (length l) + rank_sum (map rank_of l) /\
  mask h = mask_of l.

Definition base : N := 0x3333.

Lemma suits_val_app l l' : suits_val (l ++ l') = suits_val l + suits_val l'.
Proof. induction l as [|c l IH]; cbn [app suits_val fold_right]; [reflexivity|]. fold (suits_val (l ++ l')) (suits_val l). lia. Qed.
Lemma rank_sum_app l l' : rank_sum (l ++ l') = rank_sum l + rank_sum l'.
Proof. induction l as [|c l IH]; cbn [app rank_sum fold_right]; [reflexivity|]. fold (rank_sum (l ++ l')) (rank_sum l). lia. Qed.
Lemma mask_of_app l l' : mask_of (l ++ l') = N.lor (mask_of l) (mask_of l').
Proof.
  induction l as [|c l IH]; cbn [app mask_of fold_right]; [reflexivity|].
  fold (mask_of (l ++ l')) (mask_of l). rewrite IH. apply N.lor_assoc.
Qed.
Lemma suits_val_perm l l' : Permutation l l' -> suits_val l = suits_val l'.
Proof. induction 1; unfold suits_val in *; cbn [fold_right] in *; lia. Qed.
Lemma rank_sum_perm l l' : Permutation l l' -> rank_sum l = rank_sum l'.
Proof. induction 1; unfold rank_sum in *; cbn [fold_right] in *; lia. Qed.

Lemma testbit_mask_of l k : N.testbit (mask_of l) k = existsb (fun c => card_bit c =? k) l.
Proof.
  induction l as [|c l IH]; cbn [mask_of fold_right existsb].
  - apply N.bits_0.
  - fold (mask_of l). rewrite N.lor_spec, IH, N.pow2_bits_eqb. reflexivity.
Qed.
Lemma existsb_perm {A} (f : A -> bool) l l' : Permutation l l' -> existsb f l = existsb f l'.
Proof.
  induction 1 as [|x l l' HP IH|x y l|l1 l2 l3 H1 IH1 H2 IH2]; cbn; try congruence.
  rewrite !orb_assoc. f_equal. apply orb_comm.
Qed.
Lemma mask_of_perm l l' : Permutation l l' -> mask_of l = mask_of l'.
Proof. intros H. apply N.bits_inj. intros k. rewrite !testbit_mask_of. apply existsb_perm, H. Qed.

Lemma hand_of_perm b l l' h : Permutation l l' -> hand_of b l h -> hand_of b l' h.
Proof.
  intros H [Hk Hm]. split.
  - rewrite <- (suits_val_perm _ _ H), <- (Permutation_length H),
      <- (rank_sum_perm _ _ (Permutation_map rank_of H)). assumption.
  - rewrite <- (mask_of_perm _ _ H). assumption.
Qed.
Lemma hand_of_unique b l h h' : hand_of b l h -> hand_of b l h' -> h = h'.
Proof. intros [H1 H2] [H3 H4]. destruct h, h'; cbn in *. congruence. Qed.

(* single cards *)
Lemma CARDS_get_ok c : is_card c -> exists h, CARDS_get c = Ret h /\ hand_of 0 [c] h.
Proof.
  intros Hc. unfold CARDS_get. exists (card_const c). split.
  - apply get_ret. unfold CARDS.
    rewrite nth_error_map, nseq_nth by (unfold is_card in Hc; lia).
    cbn [option_map]. do 2 f_equal. lia.
  - unfold hand_of, card_const. cbn [key mask].
    assert (Hl : N.land c 3 = suit_of c).
    { change 3 with (N.ones 2). rewrite N.land_ones. reflexivity. }
    assert (Hr : N.shiftr c 2 = rank_of c) by (rewrite N.shiftr_div_pow2; reflexivity).
    rewrite Hl, Hr. split.
    + cbn [suits_val map length fold_right rank_sum]. rewrite !N.shiftl_mul_pow2, !N.mul_1_l.
      unfold SUITS_SHIFT, CARD_COUNT_SHIFT. rewrite N.pow_add_r, N.pow_mul_r. change (2 ^ 4) with 16.
      rewrite N.add_0_l, !N.add_0_r, (N.mul_comm (16 ^ suit_of c)). change (N.of_nat 1) with 1. lia.
    + cbn [mask_of fold_right]. rewrite N.lor_0_r, N.shiftl_mul_pow2, N.mul_1_l. reflexivity.
Qed.

Lemma hand_default_of : hand_of base [] hand_default.
Proof. split; reflexivity. Qed.

(* ------------------------------------------------------------------------- *)
(** * Bounds *)

Lemma suits_val_nsuit l : suits_val l =
  N.of_nat (nsuit 0 l) + 16 * N.of_nat (nsuit 1 l) + 256 * N.of_nat (nsuit 2 l) + 4096 * N.of_nat (nsuit 3 l).
Proof.
  induction l as [|c l IH]; [reflexivity|]. cbn [suits_val fold_right]. fold (suits_val l). rewrite IH. clear IH.
  unfold nsuit, suited. cbn [filter].
  destruct (suit_in c) as [E|[E|[E|[E|[]]]]]; rewrite <- E; cbn [N.eqb Pos.eqb length];
    rewrite ?Nat2N.inj_succ; cbn [N.pow Pos.pow Pos.iter]; lia.
Qed.

Lemma cards_length l : cards l -> (length l <= 52)%nat.
Proof.
  intros [Hn Hf]. replace 52%nat with (length (nseq 0 52)) by apply nseq_length.
  apply NoDup_incl_length; [assumption|]. intros c Hc. apply nseq_In.
  rewrite Forall_forall in Hf. specialize (Hf c Hc). unfold is_card in Hf. lia.
Qed.
Lemma cards_nsuit l s : cards l -> (nsuit s l <= 13)%nat.
Proof.
  intros [Hn Hf]. unfold nsuit. rewrite <- (map_length rank_of).
  replace 13%nat with (length (nseq 0 13)) by apply nseq_length.
  apply NoDup_incl_length.
  - apply suit_ranks_NoDup with s; [apply NoDup_filter; assumption|].
    apply Forall_forall. intros c Hc. apply suited_spec in Hc. tauto.
  - intros r Hr. apply in_map_iff in Hr as (c & <- & Hc). apply suited_spec in Hc as [Hc _].
    apply nseq_In. rewrite Forall_forall in Hf. specialize (Hf c Hc). apply rank_lt in Hf. lia.
Qed.
Lemma RANKS_bound r : nth (N.to_nat r) RANKS 0 <= 4801683.
Proof.
  destruct (Nat.ltb_spec (N.to_nat r) 13) as [H|H].
  - assert (Hf : Forall (fun x => x <= 4801683) RANKS) by (repeat constructor; discriminate).
    rewrite Forall_forall in Hf. apply Hf, nth_In. exact H.
  - rewrite nth_overflow by exact H. discriminate.
Qed.
Lemma rank_sum_bound l : rank_sum l <= 4801683 * N.of_nat (length l).
Proof.
  induction l as [|r l IH]; [cbn; lia|]. cbn [rank_sum fold_right length]. fold (rank_sum l).
  pose proof (RANKS_bound r). lia.
Qed.
Lemma rank_sum_lt l : (length l <= 52)%nat -> rank_sum l < 2 ^ 32.
Proof. intros H. pose proof (rank_sum_bound l). change (2 ^ 32) with 4294967296. lia. Qed.

(* few enough cards for the counters of the given base *)
Definition fits (l : list N) : Prop := forall s, s < 4 -> (nsuit s l <= 12)%nat.

Lemma fits_of_length l : (length l <= 12)%nat -> fits l.
Proof. intros H s _. unfold nsuit, suited. pose proof (filter_length_le (fun c => suit_of c =? s) l). lia. Qed.

Lemma fits_sub l l' : fits l' -> (forall s, (nsuit s l <= nsuit s l')%nat) -> fits l.
Proof. intros H H1 s Hs. specialize (H s Hs). specialize (H1 s). lia. Qed.

Lemma key_lt b l h : b <= base -> (length l <= 52)%nat -> fits l -> hand_of b l h -> key h < 2 ^ 64.
Proof.
  intros Hb Hl Hf [-> _].
  pose proof (rank_sum_lt (map rank_of l)) as Hr. rewrite map_length in Hr. specialize (Hr Hl).
  rewrite suits_val_nsuit.
  pose proof (Hf 0 eq_refl). pose proof (Hf 1 eq_refl). pose proof (Hf 2 eq_refl). pose proof (Hf 3 eq_refl).
  unfold base in Hb. change (2 ^ 64) with (2 ^ 48 * 2 ^ 16). change (2 ^ 32) with 4294967296 in *.
  change (2 ^ 48) with 281474976710656. change (2 ^ 16) with 65536. lia.
Qed.

Lemma fits_app_l l l' : fits (l ++ l') -> fits l.
Proof.
  intros H. eapply fits_sub; [exact H|]. intros s. unfold nsuit, suited. rewrite filter_app, app_length. lia.
Qed.
Lemma fits_app_r l l' : fits (l ++ l') -> fits l'.
Proof.
  intros H. eapply fits_sub; [exact H|]. intros s. unfold nsuit, suited. rewrite filter_app, app_length. lia.
Qed.

Lemma hand_add_of p b1 b2 l1 l2 h1 h2 : b1 + b2 <= base -> (length (l1 ++ l2) <= 52)%nat ->
  fits (l1 ++ l2) -> hand_of b1 l1 h1 -> hand_of b2 l2 h2 ->
  exists h, hand_add p h1 h2 = Ret h /\ hand_of (b1 + b2) (l1 ++ l2) h.
Proof.
  intros Hb Hl Hf [Hk1 Hm1] [Hk2 Hm2]. unfold hand_add.
  exists {| key := key h1 + key h2; mask := N.lor (mask h1) (mask h2) |}.
  assert (Hof : hand_of (b1 + b2) (l1 ++ l2) {| key := key h1 + key h2; mask := N.lor (mask h1) (mask h2) |}).
  { split; cbn [key mask].
    - rewrite Hk1, Hk2, suits_val_app, map_app, rank_sum_app, app_length. lia.
    - rewrite Hm1, Hm2, mask_of_app. reflexivity. }
  split; [|exact Hof].
  pose proof (key_lt _ _ _ Hb Hl Hf Hof) as Hlt. cbn [key] in Hlt.
  rewrite add_ok by exact Hlt. reflexivity.
Qed.

Lemma hand_add_card p b l h c x : b <= base -> (length (c :: l) <= 52)%nat -> fits (c :: l) ->
  is_card c -> hand_of b l h -> CARDS_get c = Ret x ->
  exists h', hand_add p h x = Ret h' /\ hand_of b (c :: l) h'.
Proof.
  intros Hb Hl Hf Hc Hh Hx. destruct (CARDS_get_ok c Hc) as (x' & Hx' & Hof).
  rewrite Hx in Hx'. inversion Hx'; subst x'.
  destruct (hand_add_of p b 0 l [c] h x) as (h' & Hadd & Hof').
  - lia.
  - rewrite app_length in *. cbn in *. lia.
  - eapply fits_sub; [exact Hf|]. intros s.
    rewrite (nsuit_perm s (c :: l) (l ++ [c])); [lia|]. apply Permutation_cons_append.
  - assumption.
  - assumption.
  - exists h'. split; [assumption|]. rewrite N.add_0_r in Hof'.
    eapply hand_of_perm; [|exact Hof']. symmetry. apply Permutation_cons_append.
Qed.

(* ------------------------------------------------------------------------- *)
(** * Finite facts about four counters that start at 3 *)

Definition top_flush (a b c d : N) : option N :=
  if 5 <=? d then Some 3 else if 5 <=? c then Some 2 else if 5 <=? b then Some 1
  else if 5 <=? a then Some 0 else None.
Definition counters_ok (a b c d : N) : bool :=
  let v := N.land ((3 + a) + 16 * (3 + b) + 256 * (3 + c) + 4096 * (3 + d)) 0x8888 in
  match top_flush a b c d with
  | None => v =? 0
  | Some i => negb (v =? 0) && (N.shiftl (leading_zeros 32 (N.shiftl v 16)) 2 =? 16 * (3 - i))
  end.
Definition n13 : list N := nseq 0 13.
Lemma counters_check :
  forallb (fun a => forallb (fun b => forallb (fun c => forallb (counters_ok a b c) n13) n13) n13) n13 = true.
Proof. vm_compute. reflexivity. Qed.
Lemma counters_all a b c d : a <= 12 -> b <= 12 -> c <= 12 -> d <= 12 -> counters_ok a b c d = true.
Proof.
  assert (Hin : forall x, x <= 12 -> In x n13) by (intros x Hx; apply nseq_In; lia).
  intros Ha Hb Hc Hd. pose proof counters_check as H.
  apply forallb_In with (x := a) in H; [|auto]. apply forallb_In with (x := b) in H; [|auto].
  apply forallb_In with (x := c) in H; [|auto]. apply forallb_In with (x := d) in H; [|auto]. exact H.
Qed.

Lemma land_shifted k m n : N.land k (N.shiftl m n) = N.shiftl (N.land (N.shiftr k n) m) n.
Proof.
  apply N.bits_inj. intros i. rewrite N.land_spec.
  destruct (N.lt_ge_cases i n) as [H|H].
  - rewrite !N.shiftl_spec_low by assumption. apply andb_false_r.
  - rewrite !N.shiftl_spec_high', N.land_spec, N.shiftr_spec' by assumption.
    do 2 f_equal. lia.
Qed.

(* the suit with at least five cards *)
Definition flush_of (l : list N) : option N :=
  top_flush (N.of_nat (nsuit 0 l)) (N.of_nat (nsuit 1 l)) (N.of_nat (nsuit 2 l)) (N.of_nat (nsuit 3 l)).

Lemma flush_of_some l i : flush_of l = Some i -> i < 4 /\ (5 <= nsuit i l)%nat.
Proof.
  unfold flush_of, top_flush.
  repeat match goal with |- context [?x <=? ?y] => destruct (N.leb_spec x y) end;
    let E := fresh in intros E; inversion E; subst; split; lia.
Qed.
Lemma flush_of_none l : flush_of l = None <-> forall s, s < 4 -> (nsuit s l < 5)%nat.
Proof.
  unfold flush_of, top_flush. split.
  - repeat match goal with |- context [?x <=? ?y] => destruct (N.leb_spec x y) end; try discriminate.
    intros _ s Hs. assert (Hc : s = 0 \/ s = 1 \/ s = 2 \/ s = 3) by lia.
    destruct Hc as [->|[->|[->| ->]]]; lia.
  - intros H. pose proof (H 0 eq_refl). pose proof (H 1 eq_refl). pose proof (H 2 eq_refl). pose proof (H 3 eq_refl).
    repeat match goal with |- context [?x <=? ?y] => destruct (N.leb_spec x y) end; try lia; reflexivity.
Qed.

(* ------------------------------------------------------------------------- *)
(** * Reading a mask *)

Lemma card_bit_inj c d : is_card c -> is_card d -> card_bit c = card_bit d -> c = d.
Proof.
  intros Hc Hd H. unfold card_bit in H. apply rank_lt in Hc. apply rank_lt in Hd.
  pose proof (suit_lt c). pose proof (suit_lt d). apply card_inj; lia.
Qed.
Lemma card_bit_lt c : is_card c -> card_bit c < 61.
Proof. intros Hc. apply rank_lt in Hc. unfold card_bit. lia. Qed.

Lemma existsb_bit l c : Forall is_card l -> is_card c ->
  existsb (fun d => card_bit d =? card_bit c) l = true <-> In c l.
Proof.
  intros Hl Hc. rewrite existsb_exists. rewrite Forall_forall in Hl. split.
  - intros (d & Hd & E). apply N.eqb_eq in E. apply card_bit_inj in E; subst; auto.
  - intros H. exists c. split; [assumption|apply N.eqb_refl].
Qed.

Lemma testbit_rank_bits l k : N.testbit (rank_bits l) k = existsb (fun r => r =? k) l.
Proof.
  induction l as [|c l IH]; cbn [rank_bits fold_right existsb].
  - apply N.bits_0.
  - fold (rank_bits l). rewrite N.lor_spec, IH, N.shiftl_1_l, N.pow2_bits_eqb. reflexivity.
Qed.
Lemma rank_bits_perm l l' : Permutation l l' -> rank_bits l = rank_bits l'.
Proof. intros H. apply N.bits_inj. intros k. rewrite !testbit_rank_bits. apply existsb_perm, H. Qed.
Lemma rank_bits_lt l : Forall (fun r => r < 13) l -> rank_bits l < 2 ^ 13.
Proof.
  intros H. destruct (N.eq_dec (rank_bits l) 0) as [E|E]; [rewrite E; reflexivity|].
  apply N.log2_lt_pow2; [lia|].
  destruct (N.lt_ge_cases (N.log2 (rank_bits l)) 13) as [Hl|Hl]; [assumption|].
  pose proof (N.bit_log2 _ E) as Hb. rewrite testbit_rank_bits in Hb.
  apply existsb_exists in Hb as (r & Hr & Hb). apply N.eqb_eq in Hb.
  rewrite Forall_forall in H. specialize (H r Hr). lia.
Qed.

(* the sixteen bits of one suit *)
Lemma suit_bits l s : Forall is_card l -> s < 4 ->
  N.land (N.shiftr (mask_of l) (16 * (3 - s))) 0xFFFF = rank_bits (map rank_of (suited s l)).
Proof.
  intros Hl Hs. apply N.bits_inj. intros k. rewrite testbit_rank_bits.
  change 0xFFFF with (N.ones 16). rewrite N.land_spec, N.shiftr_spec', testbit_mask_of.
  rewrite Forall_forall in Hl.
  destruct (N.lt_ge_cases k 16) as [Hk|Hk].
  - rewrite N.ones_spec_low, andb_true_r by assumption.
    apply eq_true_iff_eq. rewrite !existsb_exists. split.
    + intros (c & Hc & E). apply N.eqb_eq in E. unfold card_bit in E.
      pose proof (suit_lt c). pose proof (rank_lt c (Hl c Hc)).
      exists (rank_of c). split.
      * apply in_map, suited_spec. split; [assumption|lia].
      * apply N.eqb_eq. lia.
    + intros (r & Hr & E). apply in_map_iff in Hr as (c & <- & Hc). apply suited_spec in Hc as [Hc E'].
      apply N.eqb_eq in E. exists c. split; [assumption|]. apply N.eqb_eq. unfold card_bit. lia.
  - rewrite N.ones_spec_high, andb_false_r by assumption. symmetry.
    apply not_true_iff_false. rewrite existsb_exists. intros (r & Hr & E).
    apply in_map_iff in Hr as (c & <- & Hc). apply suited_spec in Hc as [Hc _].
    apply N.eqb_eq in E. apply Hl, rank_lt in Hc. lia.
Qed.

(* ------------------------------------------------------------------------- *)
(** * Reading a hand *)

Section Read.
  Variables (b : N) (l : list N) (h : hand).
  Hypothesis (Hb : b = base \/ b = 0) (Hl : (length l <= 52)%nat) (Hf : fits l) (Hh : hand_of b l h).

  Let V := b + suits_val l.
  Let bb := if b =? 0 then 0 else 3.

  Lemma V_nibbles : V = (bb + N.of_nat (nsuit 0 l)) + 16 * (bb + N.of_nat (nsuit 1 l))
    + 256 * (bb + N.of_nat (nsuit 2 l)) + 4096 * (bb + N.of_nat (nsuit 3 l)).
  Proof.
    unfold V, bb. rewrite suits_val_nsuit. destruct Hb as [E|E]; rewrite E.
    - change (if base =? 0 then 0 else 3) with 3. unfold base. lia.
    - change (if 0 =? 0 then 0 else 3) with 0. lia.
  Qed.
  Lemma nib_lt s : s < 4 -> bb + N.of_nat (nsuit s l) < 16.
  Proof. intros Hs. pose proof (Hf s Hs). unfold bb. destruct (b =? 0); lia. Qed.
  Lemma V_lt : V < 2 ^ 16.
  Proof.
    rewrite V_nibbles. change (2 ^ 16) with 65536.
    pose proof (nib_lt 0 eq_refl). pose proof (nib_lt 1 eq_refl). pose proof (nib_lt 2 eq_refl). pose proof (nib_lt 3 eq_refl). lia.
  Qed.
  Lemma key_split : key h = rank_sum (map rank_of l) + 2 ^ 32 * (N.of_nat (length l) + 2 ^ 16 * V).
  Proof. destruct Hh as [-> _]. unfold V. change (2 ^ 48) with (2 ^ 32 * 2 ^ 16). lia. Qed.
  Lemma rs_lt : rank_sum (map rank_of l) < 2 ^ 32.
  Proof. apply rank_sum_lt. rewrite map_length. assumption. Qed.

  Lemma get_rank_key_of : get_rank_key h = rank_sum (map rank_of l).
  Proof.
    unfold get_rank_key, trunc. rewrite key_split, N.mul_comm, N.mod_add by discriminate.
    apply N.mod_small, rs_lt.
  Qed.
  Lemma get_counters_of : get_counters h = N.of_nat (length l) + 2 ^ 16 * V.
  Proof.
    unfold get_counters, trunc. rewrite N.shiftr_div_pow2, key_split, N.mul_comm, N.div_add by discriminate.
    rewrite (N.div_small (rank_sum _)) by apply rs_lt. rewrite N.add_0_l. apply N.mod_small.
    pose proof V_lt as HV. change (2 ^ 16) with 65536 in *. change (2 ^ 32) with 4294967296. lia.
  Qed.
  Lemma count_of : count h = N.of_nat (length l) mod 16.
  Proof.
    unfold count. rewrite get_counters_of. change (CARD_COUNT_SHIFT - 32) with 0. rewrite N.shiftr_0_r.
    change 0xf with (N.ones 4). rewrite N.land_ones. change (2 ^ 16) with (4096 * 2 ^ 4).
    rewrite (N.mul_comm 4096), <- N.mul_assoc, (N.mul_comm (2 ^ 4)), N.mod_add by discriminate. reflexivity.
  Qed.
  Lemma V_nib s : s < 4 -> N.land (N.shiftr V (4 * s)) 0xf = bb + N.of_nat (nsuit s l).
  Proof.
    intros Hs. change 0xf with (N.ones 4). rewrite N.land_ones, N.shiftr_div_pow2, N.pow_mul_r.
    change (2 ^ 4) with 16. rewrite V_nibbles.
    pose proof (nib_lt 0 eq_refl) as H0. pose proof (nib_lt 1 eq_refl) as H1.
    pose proof (nib_lt 2 eq_refl) as H2. pose proof (nib_lt 3 eq_refl) as H3.
    assert (Hcase : s = 0 \/ s = 1 \/ s = 2 \/ s = 3) by lia.
    revert H0 H1 H2 H3.
    destruct Hcase as [->|[->|[->| ->]]];
      generalize (bb + N.of_nat (nsuit 0 l)) (bb + N.of_nat (nsuit 1 l))
        (bb + N.of_nat (nsuit 2 l)) (bb + N.of_nat (nsuit 3 l)); intros a0 a1 a2 a3 H0 H1 H2 H3;
      [change (16 ^ 0) with 1|change (16 ^ 1) with 16|change (16 ^ 2) with 256|change (16 ^ 3) with 4096].
    - rewrite N.div_1_r. symmetry. apply N.mod_unique with (a1 + 16 * a2 + 256 * a3); lia.
    - rewrite <- (N.div_unique (a0 + 16 * a1 + 256 * a2 + 4096 * a3) 16 (a1 + 16 * a2 + 256 * a3) a0) by lia.
      symmetry. apply N.mod_unique with (a2 + 16 * a3); lia.
    - rewrite <- (N.div_unique (a0 + 16 * a1 + 256 * a2 + 4096 * a3) 256 (a2 + 16 * a3) (a0 + 16 * a1)) by lia.
      symmetry. apply N.mod_unique with a3; lia.
    - rewrite <- (N.div_unique (a0 + 16 * a1 + 256 * a2 + 4096 * a3) 4096 a3 (a0 + 16 * a1 + 256 * a2)) by lia.
      apply N.mod_small. assumption.
  Qed.
  Lemma suit_count_of p s : s < 4 ->
    suit_count p h s = Ret (Z.of_N bb + Z.of_nat (nsuit s l) - 3)%Z.
  Proof.
    intros Hs. unfold suit_count. change (SUITS_SHIFT - 32) with 16.
    rewrite mul_ok by (change (2 ^ 8) with 256; lia). cbn [bind].
    rewrite add_ok by (change (2 ^ 8) with 256; lia). cbn [bind].
    rewrite shr_ok by lia. cbn [bind]. rewrite get_counters_of.
    assert (HE : N.shiftr (N.of_nat (length l) + 2 ^ 16 * V) (4 * s + 16) = N.shiftr V (4 * s)).
    { rewrite (N.add_comm (4 * s)), <- N.shiftr_shiftr. f_equal.
      rewrite (N.mul_comm (2 ^ 16) V), N.shiftr_div_pow2, N.div_add by discriminate.
      rewrite N.div_small; [apply N.add_0_l|]. change (2 ^ 16) with 65536. lia. }
    rewrite HE, V_nib by assumption.
    f_equal. rewrite N2Z.inj_add, nat_N_Z. lia.
  Qed.
End Read.

Lemma shiftr_key b l h : b = base \/ b = 0 -> (length l <= 52)%nat -> fits l -> hand_of b l h ->
  N.shiftr (key h) 48 = b + suits_val l.
Proof.
  intros Hb Hl Hf Hh. rewrite (key_split b l h) by assumption.
  rewrite N.shiftr_div_pow2. symmetry.
  apply N.div_unique with (rank_sum (map rank_of l) + 2 ^ 32 * N.of_nat (length l)).
  - assert (rank_sum (map rank_of l) < 2 ^ 32) by (apply rank_sum_lt; rewrite map_length; assumption). change (2 ^ 48) with (2 ^ 32 * 65536). change (2 ^ 32) with 4294967296 in *. lia.
  - change (2 ^ 48) with (2 ^ 32 * 2 ^ 16). lia.
Qed.

Section ReadFlush.
  Variables (l : list N) (h : hand).
  Hypothesis (Hl : (length l <= 52)%nat) (Hf : fits l) (Hh : hand_of base l h).

  Lemma V3 : base + suits_val l = (3 + N.of_nat (nsuit 0 l)) + 16 * (3 + N.of_nat (nsuit 1 l))
    + 256 * (3 + N.of_nat (nsuit 2 l)) + 4096 * (3 + N.of_nat (nsuit 3 l)).
  Proof. rewrite suits_val_nsuit. unfold base. lia. Qed.

  Lemma has_flush_bits : has_flush h = negb (N.land (base + suits_val l) 0x8888 =? 0).
  Proof.
    unfold has_flush, FLUSH_CHECK_MASK64, SUITS_SHIFT. rewrite land_shifted.
    rewrite (shiftr_key base l h) by auto. f_equal.
    apply eq_true_iff_eq. rewrite !N.eqb_eq, N.shiftl_eq_0_iff. reflexivity.
  Qed.
  Lemma counters_ok_of : counters_ok (N.of_nat (nsuit 0 l)) (N.of_nat (nsuit 1 l))
                                     (N.of_nat (nsuit 2 l)) (N.of_nat (nsuit 3 l)) = true.
  Proof.
    pose proof (Hf 0 eq_refl). pose proof (Hf 1 eq_refl). pose proof (Hf 2 eq_refl). pose proof (Hf 3 eq_refl).
    apply counters_all; lia.
  Qed.
  Lemma has_flush_of : has_flush h = match flush_of l with Some _ => true | None => false end.
  Proof.
    rewrite has_flush_bits, V3. pose proof counters_ok_of as H. unfold counters_ok in H.
    unfold flush_of. destruct (top_flush _ _ _ _).
    - apply andb_true_iff in H as [H _]. exact H.
    - rewrite H. reflexivity.
  Qed.
  Lemma get_flush_key_of i : Forall is_card l -> flush_of l = Some i ->
    get_flush_key h = rank_bits (map rank_of (suited i l)).
  Proof.
    intros Hc Hi. unfold get_flush_key. rewrite has_flush_of, Hi.
    rewrite (get_counters_of base l h) by auto.
    unfold FLUSH_CHECK_MASK32, SUITS_SHIFT. change (48 - 32) with 16.
    rewrite land_shifted.
    assert (HE : N.shiftr (N.of_nat (length l) + 2 ^ 16 * (base + suits_val l)) 16 = base + suits_val l).
    { rewrite (N.mul_comm (2 ^ 16)), N.shiftr_div_pow2, N.div_add by discriminate.
      rewrite N.div_small; [apply N.add_0_l|]. change (2 ^ 16) with 65536. lia. }
    rewrite HE, V3. pose proof counters_ok_of as H. unfold counters_ok in H.
    unfold flush_of in Hi. rewrite Hi in H. apply andb_true_iff in H as [_ H]. apply N.eqb_eq in H.
    cbv zeta. rewrite H. unfold trunc. rewrite <- N.land_ones. change (N.ones 16) with 0xFFFF.
    destruct Hh as [_ Hm]. rewrite Hm. apply suit_bits; [assumption|].
    exact (proj1 (flush_of_some l i Hi)).
  Qed.
End ReadFlush.

(* membership *)
Lemma contains_of p b l h c : Forall is_card l -> hand_of b l h -> is_card c ->
  exists r, contains p h c = Ret r /\ (r = true <-> In c l).
Proof.
  intros Hl [_ Hm] Hc. unfold contains.
  change ((3 - c mod 4) * 16 + c / 4) with (card_bit c).
  pose proof (card_bit_lt c Hc). rewrite shl1_ok' by lia. cbn [bind].
  eexists. split; [reflexivity|]. rewrite land_bit_zero, negb_involutive, Hm, testbit_mask_of.
  apply existsb_bit; assumption.
Qed.
Lemma get_suit_mask_of p b l h s : Forall is_card l -> hand_of b l h -> s < 4 ->
  get_suit_mask p h s = Ret (rank_bits (map rank_of (suited s l))).
Proof.
  intros Hl [_ Hm] Hs. unfold get_suit_mask.
  rewrite sub_ok by lia. cbn [bind]. rewrite mul_ok by (change (2 ^ 8) with 256; lia). cbn [bind].
  rewrite shr_ok by lia. cbn [bind]. rewrite Hm, suit_bits by assumption. reflexivity.
Qed.

Lemma rank_bits_app l l' : rank_bits (l ++ l') = N.lor (rank_bits l) (rank_bits l').
Proof.
  apply N.bits_inj. intros k. rewrite N.lor_spec, !testbit_rank_bits. apply existsb_app.
Qed.
Lemma get_rank_mask_of b l h : Forall is_card l -> hand_of b l h ->
  get_rank_mask h = rank_bits (map rank_of l).
Proof.
  intros Hl [_ Hm]. unfold get_rank_mask. cbn [fold_left]. rewrite Hm, !suit_bits by (assumption || reflexivity).
  rewrite N.lor_0_l, <- !rank_bits_app, <- !map_app.
  apply N.bits_inj. intros k. rewrite !testbit_rank_bits. apply eq_true_iff_eq. rewrite !existsb_exists.
  split; intros (r & Hr & E); exists r; (split; [|assumption]); apply in_map_iff in Hr as (c & <- & Hc); apply in_map.
  - rewrite !in_app_iff, !suited_spec in Hc. tauto.
  - rewrite !in_app_iff, !suited_spec. destruct (suit_in c) as [E'|[E'|[E'|[E'|[]]]]]; intuition.
Qed.

(* equal sets of cards *)
Lemma mask_of_inj l l' : Forall is_card l -> Forall is_card l' -> mask_of l = mask_of l' ->
  forall c, In c l <-> In c l'.
Proof.
  intros H1 H2 H.
  assert (Hx : forall l, Forall is_card l -> forall c, In c l <-> is_card c /\ N.testbit (mask_of l) (card_bit c) = true).
  { clear. intros l H c. rewrite testbit_mask_of. rewrite Forall_forall in H. split.
    - intros Hc. split; [auto|]. apply existsb_bit; auto. apply Forall_forall; assumption.
    - intros [Hc Hb]. apply existsb_bit in Hb; auto. apply Forall_forall; assumption. }
  intros c. rewrite (Hx l), (Hx l'), H by assumption. reflexivity.
Qed.
