(* update_results: the counters of a batch are added to the counters of the results. *)
From Verif Require Import Base BaseProofs SumFacts Ghost Float64 Hand Range Combined Sim SpecPoker SpecEquity EnumProofs ShowdownProofs.
Local Open Scope N_scope.

(* the counters of the results *)
Definition rdr (o : obs) (r : results) : N :=
  match o with
  | OMask m => nth m (r_wins_by_mask r) 0
  | OHand f k => hget f (r_hand_results r) k
  | OCount => r_eval_count r
  end.
Definition inr (n : nat) (o : obs) : Prop :=
  match o with OMask m => (m < 2 ^ n)%nat | OHand _ k => (k < n * NUM_HANDS)%nat | OCount => True end.

(* the fields of a hand which merging leaves alone *)
Definition static (u u0 : unit_results) : Prop :=
  u_weight u = u_weight u0 /\ u_rank u = u_rank u0 /\ u_draw u = u_draw u0 /\ u_valid u = u_valid u0.
Lemma static_refl u : static u u. Proof. repeat split. Qed.
Lemma static_trans u v w : static u v -> static v w -> static u w.
Proof. unfold static. intuition congruence. Qed.
Lemma Forall2_refl {A} (R : A -> A -> Prop) l : (forall x, R x x) -> Forall2 R l l.
Proof. intros H. induction l; constructor; auto. Qed.
Lemma Forall2_trans {A} (R : A -> A -> Prop) l1 : (forall x y z, R x y -> R y z -> R x z) -> forall l2 l3,
  Forall2 R l1 l2 -> Forall2 R l2 l3 -> Forall2 R l1 l3.
Proof.
  intros H l2 l3 H1. revert l3. induction H1 as [|x y l l' Hxy _ IH]; intros l3 H2; inversion H2; subst; constructor.
  - eapply H; eassumption.
  - apply IH. assumption.
Qed.

Lemma may_seq {S} p (B : Prop) (f : S -> nat -> outcome S) (I : nat -> S -> Prop) n s : I 0%nat s ->
  (forall k s, (k < n)%nat -> I k s -> may p B (f s k) (I (Datatypes.S k))) -> may p B (foldM f (seq 0 n) s) (I n).
Proof.
  intros H0 H. assert (G : forall k a s, (a + k = n)%nat -> I a s -> may p B (foldM f (seq a k) s) (I n)).
  { induction k as [|k IH]; intros a s0 Ha Hs; cbn [seq foldM].
    - apply may_ret. replace n with a by lia. exact Hs.
    - eapply may_bind; [apply H; [lia|exact Hs]|]. intros s1 Hs1. apply IH; [lia|exact Hs1]. }
  apply (G n 0%nat s); [reflexivity|exact H0].
Qed.

Section Merge.
  Variable p : profile.
  Variable B : Prop.

  Lemma unit_add_ok a b V W : (forall f, agr p (fget f a) (V f)) -> (forall f, agr p (fget f b) (W f)) ->
    (B -> forall f, V f + W f < 2 ^ 64) ->
    may p B (unit_add_assign p a b) (fun u => (forall f, agr p (fget f u) (V f + W f)) /\ static u a).
  Proof.
    intros Ha Hb HB. unfold unit_add_assign.
    eapply may_bind; [apply (may_add p B _ _ (V FWins) (W FWins)); [apply (Ha FWins)|apply (Hb FWins)|auto]|]. intros w Hw. cbv beta in Hw.
    eapply may_bind; [apply (may_add p B _ _ (V FTies) (W FTies)); [apply (Ha FTies)|apply (Hb FTies)|auto]|]. intros t Ht. cbv beta in Ht.
    eapply may_bind; [apply (may_add p B _ _ (V FTotal) (W FTotal)); [apply (Ha FTotal)|apply (Hb FTotal)|auto]|]. intros n Hn. cbv beta in Hn.
    apply may_ret. split; [intros []; cbn [fget u_total u_wins u_ties]; assumption|repeat split].
  Qed.

  Lemma merge_hands_ok : forall rs bs V W, length rs = length bs ->
    (forall f k, (k < length rs)%nat -> agr p (hget f rs k) (V f k)) -> (forall f k, (k < length rs)%nat -> agr p (hget f bs k) (W f k)) ->
    (B -> forall f k, (k < length rs)%nat -> V f k + W f k < 2 ^ 64) ->
    may p B (merge_hands p rs bs) (fun rs' => length rs' = length rs /\
      (forall f k, (k < length rs)%nat -> agr p (hget f rs' k) (V f k + W f k)) /\ Forall2 static rs' rs).
  Proof.
    induction rs as [|r rs IH]; intros [|b bs] V W Hlen HV HW HB; try discriminate Hlen; cbn [merge_hands].
    - apply may_ret. split; [reflexivity|]. split; [cbn; intros; lia|constructor].
    - eapply may_bind.
      + apply (unit_add_ok r b (fun f => V f 0%nat) (fun f => W f 0%nat)).
        * intros f. apply (HV f 0%nat). cbn. lia.
        * intros f. apply (HW f 0%nat). cbn. lia.
        * intros b0 f. apply HB; [exact b0|cbn; lia].
      + intros u [Hu Hs]. cbv beta in Hu. eapply may_bind.
        * apply (IH bs (fun f k => V f (S k)) (fun f k => W f (S k))).
          -- cbn in Hlen. lia.
          -- intros f k Hk. apply (HV f (S k)). cbn. lia.
          -- intros f k Hk. apply (HW f (S k)). cbn. lia.
          -- intros b0 f k Hk. apply HB; [exact b0|cbn; lia].
        * intros xs (H1 & H2 & H3). apply may_ret. split; [cbn [length]; congruence|]. split; [|constructor; assumption].
          intros f [|k] Hk; [apply Hu|]. apply (H2 f k). cbn in Hk. lia.
  Qed.

  (* ----------------------------------------------------------------------- *)
  (** ** The masks *)

  Lemma single_bit i j : (i < 512)%nat -> (j < 9)%nat -> N.testbit (N.of_nat i) (N.of_nat j) = true ->
    (count_ones (N.of_nat i) =? 1) = (i =? 2 ^ j)%nat.
  Proof.
    intros Hi Hj Hb.
    assert (H : forallb (fun i => forallb (fun j => if N.testbit (N.of_nat i) (N.of_nat j)
      then Bool.eqb (count_ones (N.of_nat i) =? 1) (i =? 2 ^ j)%nat else true) (seq 0 9)) (seq 0 512) = true) by (vm_compute; reflexivity).
    pose proof (forallb_In _ _ H i) as H1. rewrite in_seq in H1. specialize (H1 ltac:(lia)). cbv beta in H1.
    pose proof (forallb_In _ _ H1 j) as H2. rewrite in_seq in H2. specialize (H2 ltac:(lia)). cbv beta in H2. rewrite Hb in H2.
    apply Bool.eqb_prop in H2. exact H2.
  Qed.
  Lemma pow2_bit j : (j < 9)%nat -> N.testbit (N.of_nat (2 ^ j)) (N.of_nat j) = true.
  Proof. intros H. do 9 (destruct j as [|j]; [reflexivity|]). lia. Qed.
  Lemma pow2_le9 n : (n <= 9)%nat -> (2 ^ n <= 512)%nat.
  Proof. intros H. change 512%nat with (2 ^ 9)%nat. apply Nat.pow_le_mono_r; lia. Qed.
  Lemma pow2_N n : N.of_nat (2 ^ n) = 2 ^ N.of_nat n.
  Proof. induction n as [|n IH]; [reflexivity|]. rewrite Nat.pow_succ_r', Nat2N.inj_mul, IH, (Nat2N.inj_succ n), N.pow_succ_r'. reflexivity. Qed.

  Variable n : nat.
  Variable b : batch.
  Hypothesis Hn : (n <= 9)%nat.
  Hypothesis Hids : forall j, (j < n)%nat -> get (b_player_ids b) j = Ret j.

  Lemma merge_player_ok wi Wi i wins ties equity V : (i < 2 ^ n)%nat -> agr p wi Wi -> length wins = n -> length ties = n ->
    (forall j, (j < n)%nat -> agr p (nth j wins 0) (V j)) -> (B -> forall j, (j < n)%nat -> i = (2 ^ j)%nat -> V j + Wi < 2 ^ 64) ->
    may p B (foldM (merge_player p b wi i (count_ones (N.of_nat i))) (seq 0 n) (wins, ties, equity, 0))
      (fun '(wins', ties', _, actual) => length wins' = n /\ length ties' = n /\ actual = N.of_nat i /\
        forall j, (j < n)%nat -> agr p (nth j wins' 0) (V j + if (i =? 2 ^ j)%nat then Wi else 0)).
  Proof.
    intros Hi Hwi Hlw Hlt HV HB. pose proof (pow2_le9 n Hn) as H512.
    set (I := fun (J : nat) (s : list N * list f64 * f64 * N) =>
      let '(wins', ties', _, actual) := s in length wins' = n /\ length ties' = n /\
      (forall c, N.testbit actual c = N.testbit (N.of_nat i) c && (c <? N.of_nat J)) /\
      forall j, (j < n)%nat -> agr p (nth j wins' 0) (V j + if (j <? J)%nat && (i =? 2 ^ j)%nat then Wi else 0)).
    assert (H : may p B (foldM (merge_player p b wi i (count_ones (N.of_nat i))) (seq 0 n) (wins, ties, equity, 0)) (I n)).
    { apply may_seq.
      - split; [exact Hlw|]. split; [exact Hlt|]. split.
        + intros c. rewrite N.bits_0. replace (c <? N.of_nat 0) with false by (symmetry; apply N.ltb_ge; cbn; lia). rewrite andb_false_r. reflexivity.
        + intros j Hj. cbn [Nat.ltb Nat.leb andb]. rewrite N.add_0_r. apply HV. exact Hj.
      - intros J [[[wins1 ties1] eq1] act1] HJ (Hw1 & Ht1 & Hact & HV1).
        assert (Hbit : forall c, N.testbit (N.of_nat i) c && (c <? N.of_nat (S J)) =
            (N.testbit (N.of_nat i) c && (c <? N.of_nat J)) || (N.testbit (N.of_nat i) (N.of_nat J) && (c =? N.of_nat J))).
        { intros c. destruct (N.ltb_spec c (N.of_nat (S J))), (N.ltb_spec c (N.of_nat J)), (N.eqb_spec c (N.of_nat J)); subst; try lia;
            rewrite ?andb_true_r, ?andb_false_r, ?orb_false_r; reflexivity. }
        unfold merge_player. destruct (N.testbit (N.of_nat i) (N.of_nat J)) eqn:EJ.
        + rewrite (Hids J HJ). cbn [bind]. rewrite (single_bit i J) by (try exact EJ; lia).
          assert (Hact' : forall c, N.testbit (N.lor act1 (N.shiftl 1 (N.of_nat J))) c = N.testbit (N.of_nat i) c && (c <? N.of_nat (S J))).
          { intros c. rewrite Hbit, N.lor_spec, Hact. f_equal. rewrite N.shiftl_1_l, N.pow2_bits_eqb, N.eqb_sym. reflexivity. }
          destruct (Nat.eqb_spec i (2 ^ J)) as [Ei|Hne].
          * destruct (nth_error wins1 J) as [x|] eqn:Ex; [|apply nth_error_None in Ex; lia].
            assert (Hx : agr p x (V J)).
            { specialize (HV1 J HJ). rewrite (nth_error_nth _ _ 0 Ex) in HV1. rewrite Nat.ltb_irrefl in HV1. cbn [andb] in HV1. rewrite N.add_0_r in HV1. exact HV1. }
            destruct (may_add p B x wi (V J) Wi Hx Hwi (fun b0 => HB b0 J HJ Ei)) as [(y & Ey & Hy)|(H1 & H2 & H3)].
            -- rewrite (updf_ok wins1 J _ x y Ex Ey). cbn [bind]. apply may_ret.
               split; [rewrite set_nth_length; exact Hw1|]. split; [exact Ht1|]. split; [exact Hact'|].
               intros j Hj. rewrite nth_set_nth by lia. destruct (Nat.eqb_spec j J) as [->|Hj'].
               ++ rewrite (proj2 (Nat.ltb_lt J (S J))), Ei, Nat.eqb_refl by lia. cbn [andb]. exact Hy.
               ++ specialize (HV1 j Hj). replace (j <? S J)%nat with (j <? J)%nat by (destruct (Nat.ltb_spec j J), (Nat.ltb_spec j (S J)); lia). exact HV1.
            -- unfold updf. rewrite (proj2 (get_ret _ _ _) Ex). cbn [bind]. rewrite H2. right. auto.
          * destruct (nth_error ties1 J) as [x|] eqn:Ex; [|apply nth_error_None in Ex; lia].
            erewrite (updf_ok ties1 J _ x); [|exact Ex|reflexivity]. cbn [bind]. apply may_ret.
            split; [exact Hw1|]. split; [rewrite set_nth_length; exact Ht1|]. split; [exact Hact'|].
            intros j Hj. specialize (HV1 j Hj). destruct (Nat.eqb_spec i (2 ^ j)) as [Ei|]; [|rewrite andb_false_r in *; exact HV1].
            replace (j <? S J)%nat with (j <? J)%nat; [exact HV1|].
            destruct (Nat.ltb_spec j J), (Nat.ltb_spec j (S J)); try lia. exfalso. apply Hne. replace J with j by lia. exact Ei.
        + apply may_ret. split; [exact Hw1|]. split; [exact Ht1|]. split.
          * intros c. rewrite Hbit, Hact. cbn [andb]. rewrite orb_false_r. reflexivity.
          * intros j Hj. specialize (HV1 j Hj). destruct (Nat.eqb_spec i (2 ^ j)) as [Ei|]; [|rewrite andb_false_r in *; exact HV1].
            replace (j <? S J)%nat with (j <? J)%nat; [exact HV1|].
            destruct (Nat.ltb_spec j J), (Nat.ltb_spec j (S J)); try lia. exfalso. assert (j = J) by lia. subst j.
            rewrite Ei, pow2_bit in EJ by lia. discriminate. }
    eapply may_weaken; [exact H|]. intros [[[wins' ties'] eq'] act'] (H1 & H2 & H3 & H4). split; [exact H1|]. split; [exact H2|]. split.
    - apply N.bits_inj. intros c. rewrite H3. destruct (N.ltb_spec c (N.of_nat n)) as [Hc|Hc]; [apply andb_true_r|]. rewrite andb_false_r. symmetry.
      destruct (N.eq_dec (N.of_nat i) 0) as [->|Hnz]; [apply N.bits_0|]. apply N.bits_above_log2.
      apply N.log2_lt_pow2; [lia|]. assert (N.of_nat i < 2 ^ N.of_nat n) by (rewrite <- pow2_N; lia).
      eapply N.lt_le_trans; [eassumption|]. apply N.pow_le_mono_r; lia.
    - intros j Hj. specialize (H4 j Hj). rewrite (proj2 (Nat.ltb_lt _ _) Hj) in H4. exact H4.
  Qed.

  (* what the merged masks hold after the masks below k *)
  Lemma merge_masks_ok V W wins ties wbm : length wins = n -> length ties = n -> length wbm = (2 ^ n)%nat ->
    (forall i, (i < 2 ^ n)%nat -> agr p (nth i wbm 0) (V i)) -> (forall j, (j < n)%nat -> agr p (nth j wins 0) (V (2 ^ j)%nat)) ->
    (2 ^ n <= length (b_wins_by_mask b))%nat -> (forall i, (i < 2 ^ n)%nat -> agr p (nth i (b_wins_by_mask b) 0) (W i)) ->
    (B -> forall i, (i < 2 ^ n)%nat -> V i + W i < 2 ^ 64) -> (B -> sumf W (seq 0 (2 ^ n)) < 2 ^ 64) ->
    may p B (foldM (merge_mask p n b) (seq 0 (2 ^ n))
               {| g_wins := wins; g_ties := ties; g_wins_by_mask := wbm; g_batch_hands := 0; g_batch_equity := f_zero |})
      (fun g => length (g_wins g) = n /\ length (g_ties g) = n /\ length (g_wins_by_mask g) = (2 ^ n)%nat /\
        (forall i, (i < 2 ^ n)%nat -> agr p (nth i (g_wins_by_mask g) 0) (V i + W i)) /\
        forall j, (j < n)%nat -> agr p (nth j (g_wins g) 0) (V (2 ^ j)%nat + W (2 ^ j)%nat)).
  Proof.
    intros Hlw Hlt Hlm HVm HVw Hlb HW HB HBs.
    set (I := fun (k : nat) (g : merge) => length (g_wins g) = n /\ length (g_ties g) = n /\ length (g_wins_by_mask g) = (2 ^ n)%nat /\
        agr p (g_batch_hands g) (sumf W (seq 0 k)) /\
        (forall i, (i < 2 ^ n)%nat -> agr p (nth i (g_wins_by_mask g) 0) (V i + if (i <? k)%nat then W i else 0)) /\
        forall j, (j < n)%nat -> agr p (nth j (g_wins g) 0) (V (2 ^ j)%nat + if (2 ^ j <? k)%nat then W (2 ^ j)%nat else 0)).
    eapply may_weaken; [apply (may_seq p B (merge_mask p n b) I (2 ^ n))|].
    - split; [exact Hlw|]. split; [exact Hlt|]. split; [exact Hlm|]. split; [apply agr_0|]. split.
      + intros i Hi. cbn [Nat.ltb Nat.leb]. rewrite N.add_0_r. apply HVm. exact Hi.
      + intros j Hj. rewrite (proj2 (Nat.ltb_ge _ 0)) by lia. rewrite N.add_0_r. apply HVw. exact Hj.
    - intros k g Hk (Gw & Gt & Gm & Gh & Gv & Gp). unfold merge_mask.
      rewrite (get_nth _ k 0) by lia. cbn [bind]. set (wi := nth k (b_wins_by_mask b) 0). pose proof (HW k Hk) as Hwi. fold wi in Hwi.
      eapply may_bind; [apply (may_add p B _ _ _ _ Gh Hwi)|].
      { intros b0. specialize (HBs b0). replace (2 ^ n)%nat with (k + S (2 ^ n - S k))%nat in HBs by lia.
        rewrite seq_app, sumf_app in HBs. cbn [seq Nat.add] in HBs. rewrite sumf_cons in HBs. lia. }
      intros bh Hbh. cbv beta in Hbh.
      eapply may_bind; [apply (merge_player_ok wi (W k) k (g_wins g) (g_ties g) (g_batch_equity g)
         (fun j => V (2 ^ j)%nat + if (2 ^ j <? k)%nat then W (2 ^ j)%nat else 0) Hk Hwi Gw Gt Gp)|].
      { intros b0 j Hj Ej. rewrite <- Ej, Nat.ltb_irrefl, N.add_0_r. apply HB; assumption. }
      intros [[[wins' ties'] eq'] act'] (M1 & M2 & M3 & M4). rewrite M3, Nat2N.id.
      destruct (nth_error (g_wins_by_mask g) k) as [x|] eqn:Ex; [|apply nth_error_None in Ex; lia].
      assert (Hx : agr p x (V k)).
      { specialize (Gv k Hk). rewrite (nth_error_nth _ _ 0 Ex), Nat.ltb_irrefl, N.add_0_r in Gv. exact Gv. }
      destruct (may_add p B x wi (V k) (W k) Hx Hwi (fun b0 => HB b0 k Hk)) as [(y & Ey & Hy)|(H1 & H2 & H3)].
      2:{ unfold updf. rewrite (proj2 (get_ret _ _ _) Ex). cbn [bind]. rewrite H2. right. auto. }
      rewrite (updf_ok _ k _ x y Ex Ey). cbn [bind]. apply may_ret.
      split; [exact M1|]. split; [exact M2|]. split; [cbn [g_wins_by_mask]; rewrite set_nth_length; exact Gm|].
      split; [cbn [g_batch_hands]; rewrite seq_S, sumf_app; cbn [Nat.add]; rewrite sumf_cons, sumf_nil, N.add_0_r; exact Hbh|]. split.
      + intros i Hi. cbn [g_wins_by_mask]. rewrite nth_set_nth by lia.
        destruct (Nat.eqb_spec i k) as [->|Hne]; [rewrite (proj2 (Nat.ltb_lt k (S k))) by lia; exact Hy|].
        replace (i <? S k)%nat with (i <? k)%nat by (destruct (Nat.ltb_spec i k), (Nat.ltb_spec i (S k)); lia).
        apply Gv. exact Hi.
      + intros j Hj. cbn [g_wins]. specialize (M4 j Hj). cbv beta in M4. rewrite <- N.add_assoc in M4.
        replace (if (2 ^ j <? S k)%nat then W (2 ^ j)%nat else 0) with
          ((if (2 ^ j <? k)%nat then W (2 ^ j)%nat else 0) + (if (k =? 2 ^ j)%nat then W k else 0)); [exact M4|].
        destruct (Nat.ltb_spec (2 ^ j) k), (Nat.ltb_spec (2 ^ j) (S k)), (Nat.eqb_spec k (2 ^ j)) as [->|]; try lia; reflexivity.
    - intros g (Gw & Gt & Gm & _ & Gv & Gp). split; [exact Gw|]. split; [exact Gt|]. split; [exact Gm|]. split.
      + intros i Hi. specialize (Gv i Hi). rewrite (proj2 (Nat.ltb_lt _ _) Hi) in Gv. exact Gv.
      + intros j Hj. specialize (Gp j Hj). rewrite (proj2 (Nat.ltb_lt (2 ^ j) (2 ^ n))) in Gp; [exact Gp|].
        apply Nat.pow_lt_mono_r; lia.
  Qed.
End Merge.

(* ------------------------------------------------------------------------- *)
(** * update_results *)

Section Update.
  Variable p : profile.
  Variable B : Prop.
  Variable n : nat.
  Hypothesis Hn : (n <= 9)%nat.
  Variable ids : list nat.
  Hypothesis Hids : forall j, (j < n)%nat -> get ids j = Ret j.

  (* the results hold the counts V, and have the unchanged fields of r0 *)
  Definition results_ok (r0 r : results) (V : obs -> N) : Prop :=
    length (r_wins r) = n /\ length (r_ties r) = n /\ length (r_wins_by_mask r) = (2 ^ n)%nat /\
    length (r_hand_results r) = (n * NUM_HANDS)%nat /\
    (forall o, inr n o -> agr p (rdr o r) (V o)) /\
    (forall j, (j < n)%nat -> agr p (nth j (r_wins r) 0) (V (OMask (2 ^ j)))) /\
    Forall2 static (r_hand_results r) (r_hand_results r0) /\
    r_combo_results r = r_combo_results r0 /\ r_board_results r = r_board_results r0 /\ r_board_draws r = r_board_draws r0.

  Lemma update_results_ok m enum_pos stopped r0 r st finished V W total :
    m_n_players m = n -> (m_calc_exact m = true -> get_preflop_combo_count p m = Ret total) ->
    shape (n * NUM_HANDS) ids st -> (forall o, agr p (rd o st) (W o)) -> results_ok r0 r V ->
    (B -> forall o, inr n o -> V o + W o < 2 ^ 64) -> (B -> sumf (fun i => W (OMask i)) (seq 0 (2 ^ n)) < 2 ^ 64) ->
    may p B (update_results p m enum_pos stopped r st finished)
      (fun '(r', stop, msg) => results_ok r0 r' (fun o => V o + W o) /\
        (m_calc_exact m = true -> stop = stopped /\ msg = exact_progress enum_pos total)).
  Proof.
    intros Hm Htot (S1 & S2 & S3) HW (R1 & R2 & R3 & R4 & R5 & R6 & R7 & R8 & R9 & R10) HB HBs. unfold update_results. rewrite Hm.
    eapply may_bind.
    { apply (merge_hands_ok p B _ _ (fun f k => V (OHand f k)) (fun f k => W (OHand f k))).
      - rewrite R4, S2. reflexivity.
      - intros f k Hk. rewrite R4 in Hk. apply (R5 (OHand f k)). exact Hk.
      - intros f k _. apply (HW (OHand f k)).
      - intros b f k Hk. rewrite R4 in Hk. apply (HB b (OHand f k)). exact Hk. }
    intros hs (H1 & H2 & H3). eapply may_bind.
    { apply (merge_masks_ok p B n (s_batch st) Hn) with (V := fun i => V (OMask i)) (W := fun i => W (OMask i)); try assumption.
      - intros j Hj. rewrite S3. apply Hids. exact Hj.
      - intros i Hi. apply (R5 (OMask i)). exact Hi.
      - rewrite S1. apply pow2_le9. exact Hn.
      - intros i _. apply (HW (OMask i)).
      - intros b i Hi. apply (HB b (OMask i)). exact Hi. }
    intros g (G1 & G2 & G3 & G4 & G5). cbv beta in G4, G5. eapply may_bind.
    { apply (may_add p B _ _ _ _ (R5 OCount I) (HW OCount)). intros b. apply (HB b OCount I). }
    intros ec Hec. cbv beta in Hec.
    assert (HR : forall eq bs bs2 bc sd, results_ok r0 {| r_wins := g_wins g; r_ties := g_ties g; r_wins_by_mask := g_wins_by_mask g;
            r_equities := eq; r_eval_count := ec; r_batch_sum := bs; r_batch_sum2 := bs2; r_batch_count := bc; r_stdev := sd;
            r_hand_results := hs; r_combo_results := r_combo_results r;
            r_board_results := r_board_results r; r_board_draws := r_board_draws r |} (fun o => V o + W o)).
    { intros eq bs bs2 bc sd. unfold results_ok. cbn [r_wins r_ties r_wins_by_mask r_hand_results r_combo_results r_board_results r_board_draws].
      split; [exact G1|]. split; [exact G2|]. split; [exact G3|]. split; [congruence|]. split.
      - intros [k|f k|] Ho; cbn [rdr r_wins_by_mask r_hand_results r_eval_count inr] in *.
        + apply G4. exact Ho.
        + apply H2. rewrite R4. exact Ho.
        + exact Hec.
      - split; [exact G5|]. split; [|auto]. eapply Forall2_trans; [apply static_trans|exact H3|exact R7]. }
    destruct (m_calc_exact m) eqn:Ex; cbn [negb].
    - rewrite (Htot eq_refl). cbn [bind]. apply may_ret. split; [apply HR|auto].
    - apply may_ret. split; [apply HR|discriminate].
  Qed.
End Update.

Lemma stats_init_ok n : (n <= 9)%nat -> exists ids st, stats_init n = Ret st /\ shape (n * NUM_HANDS) ids st /\
  (forall i, (i < n)%nat -> get ids i = Ret i) /\ forall o, rd o st = 0.
Proof.
  intros Hn.
  assert (H : exists ids, batch_init n = Ret {| b_wins_by_mask := repeat 0 (2 ^ MAX_PLAYERS); b_player_ids := ids; b_eval_count := 0 |} /\
    forallb (fun i => match get ids i with Ret k => (k =? i)%nat | Fail _ => false end) (seq 0 n) = true).
  { do 10 (destruct n as [|n]; [eexists; split; [reflexivity|reflexivity]|]). lia. }
  destruct H as (ids & Eb & Hids). exists ids. unfold stats_init. rewrite Eb. cbn [bind]. eexists. split; [reflexivity|].
  split; [|split].
  - split; [reflexivity|]. split; [apply repeat_length|reflexivity].
  - intros i Hi. pose proof (forallb_In _ _ Hids i) as H. rewrite in_seq in H. specialize (H ltac:(lia)). cbv beta in H.
    destruct (get ids i) as [k|f]; [|discriminate]. apply Nat.eqb_eq in H. subst. reflexivity.
  - intros [k|f k|]; cbn [rd s_batch b_wins_by_mask s_hands b_eval_count]; [| |reflexivity].
    + destruct (nth_in_or_default k (repeat 0 (2 ^ MAX_PLAYERS)) 0) as [H|H]; [apply repeat_spec in H|]; exact H.
    + unfold hget. destruct (nth_in_or_default k (repeat unit_default (n * NUM_HANDS)) unit_default) as [H|H]; [apply repeat_spec in H|]; rewrite H; destruct f; reflexivity.
Qed.
