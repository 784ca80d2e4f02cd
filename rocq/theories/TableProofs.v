(* Ranges given as texts are few enough and light enough. *)
From Verif Require Import Base BaseProofs SumFacts ListFacts Float64 Hand Range FastDivide Combined Sim SpecPoker SpecHand SpecEquity
  SpecResults SpecRun SpecNames SpecRange SpecTable RangeProofs EmptyProofs PropRange.
Local Open Scope N_scope.

(* all 1326 hands *)
Definition all_pairs : list (N * N) := flat_map (fun a => map (fun b => (a, b)) (nseq 0 (N.to_nat a))) (nseq 0 52).
Lemma all_pairs_length : length all_pairs = 1326%nat.
Proof. vm_compute. reflexivity. Qed.
Lemma all_pairs_in a b : is_card a -> b < a -> In (a, b) all_pairs.
Proof.
  intros Ha Hb. unfold is_card in Ha. unfold all_pairs. apply in_flat_map. exists a. split; [apply nseq_In; lia|]. apply in_map. apply nseq_In. lia.
Qed.

Lemma text_light lower p text hands : from_string lower p text = Ret hands ->
  range_ok hands /\ N.of_nat (length hands) <= 1326 /\ range_weight hands <= 132600.
Proof.
  intros H. destruct (C22_well_formed _ _ _ _ H) as (H1 & H2 & _).
  assert (HL : (length hands <= 1326)%nat).
  { pose proof (map_length (@fst (N * N) N) hands) as EL. pose proof all_pairs_length as EA. enough (length (map fst hands) <= length all_pairs)%nat by (etransitivity; [apply Nat.eq_le_incl; symmetry; exact EL|rewrite <- EA; assumption]).
    apply NoDup_incl_length; [exact H2|]. intros [a b] Hin. apply in_map_iff in Hin as ([[a' b'] w] & E & Hin). cbn in E. injection E as -> ->.
    destruct (H1 _ _ _ Hin) as (Ha & _ & Hb & _). apply all_pairs_in; assumption. }
  assert (HN : N.of_nat (length hands) <= 1326) by lia.
  split; [|split; [exact HN|]].
  - split; [|exact (N.le_lt_trans _ 1326 (2 ^ 63) HN eq_refl)]. apply Forall_forall. intros [[a b] w] Hin. destruct (H1 _ _ _ Hin) as (Ha & Hb & Hlt & Hw). unfold hole, is_card, first_card, second_card, weight in *. cbn [fst snd]. repeat split; try assumption; lia.
  - unfold range_weight. assert (G : forall l : list whand, (forall a b w, In (a, b, w) l -> w <= 100) -> sum_of (fun h => N.max 1 (weight h)) l <= 100 * N.of_nat (length l)).
    { induction l as [|[[a b] w] l IH]; intros Hl; [cbn; lia|]. cbn [sum_of length map fold_right]. specialize (IH (fun a b w Hin => Hl a b w (or_intror Hin))). pose proof (Hl a b w (or_introl eq_refl)).
      unfold sum_of in IH |- *. cbn [map fold_right]. change (weight (a, b, w)) with w. lia. }
    etransitivity; [exact (G hands (fun a b w Hin => proj2 (proj2 (proj2 (H1 a b w Hin)))))|]. exact (N.mul_le_mono_l _ _ 100 HN).
Qed.
Lemma prod_le {A} (f : A -> N) b l : Forall (fun x => f x <= b) l -> prod_of f l <= b ^ N.of_nat (length l).
Proof.
  intros H. induction H as [|x l Hx Hl IH]; [cbn; lia|]. cbn [prod_of fold_right length]. rewrite Nat2N.inj_succ, N.pow_succ_r'. apply N.mul_le_mono; assumption.
Qed.

Lemma read_light lower p texts (ranges : list (list whand)) : from_strings lower p texts = Ret ranges ->
  length ranges = length texts /\ Forall range_ok ranges /\ Forall (fun r => N.of_nat (length r) <= 1326) ranges /\ Forall (fun r => range_weight r <= 132600) ranges.
Proof.
  intros H. apply mapM_Forall2 in H. induction H as [|t r texts ranges Ht Hr IH]; [repeat split; constructor|]. destruct IH as (E & I1 & I2 & I3). destruct (text_light _ _ _ _ Ht) as (T1 & T2 & T3).
  split; [cbn [length]; congruence|]. repeat split; constructor; assumption.
Qed.
Lemma text_usable lower p texts (ranges : list (list whand)) : from_strings lower p texts = Ret ranges -> (length texts <= 6)%nat -> usable ranges.
Proof.
  intros H Hn. destruct (read_light _ _ _ _ H) as (E & H1 & H2 & _). split; [exact H1|]. apply N.le_lt_trans with (1326 ^ N.of_nat (length ranges)); [apply prod_le; exact H2|].
  apply N.le_lt_trans with (1326 ^ 6); [apply N.pow_le_mono_r; lia|reflexivity].
Qed.
Lemma max_boards_le board k : (5 - length (mask_cards board) <= k)%nat -> max_boards board <= 52 ^ N.of_nat k.
Proof.
  intros H. unfold max_boards, boards. rewrite map_length. etransitivity; [apply choose_le|].
  assert (HU : N.of_nat (length (unseen board 0 [])) <= 52).
  { unfold unseen. match goal with |- context [filter ?f ?l] => pose proof (filter_length_le f l) as HF end. rewrite nseq_length in HF. lia. }
  etransitivity; [apply N.pow_le_mono_l; exact HU|]. apply N.pow_le_mono_r; lia.
Qed.
Lemma text_fit lower p texts (ranges : list (list whand)) board : from_strings lower p texts = Ret ranges -> small_table (length texts) board -> weights_fit ranges board.
Proof.
  intros H Hs. destruct (read_light _ _ _ _ H) as (E & _ & _ & H3). apply prod_le in H3. rewrite E in H3. unfold weights_fit. revert H3. generalize (prod_of range_weight ranges). intros P HP.
  destruct Hs as [Hn|[Hn Hb]].
  - pose proof (max_boards_le board 5 ltac:(lia)) as HB. assert (HP2 : P <= 132600 ^ 2) by (etransitivity; [exact HP|]; apply N.pow_le_mono_r; lia).
    apply N.le_lt_trans with (52 ^ 5 * 132600 ^ 2); [|reflexivity]. apply N.mul_le_mono; [|exact HP2]. apply N.max_lub; [vm_compute; discriminate|exact HB].
  - pose proof (max_boards_le board 2 ltac:(lia)) as HB. rewrite Hn in HP.
    apply N.le_lt_trans with (7776 * 132600 ^ 3); [|reflexivity]. apply N.mul_le_mono; [|exact HP]. apply N.max_lub; [lia|]. etransitivity; [exact HB|]. vm_compute. discriminate.
Qed.
