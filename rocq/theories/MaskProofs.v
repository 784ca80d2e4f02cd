(* Lemmas for C101-C107: what the masks of a hand tell, and what repeated cards do. *)
From Verif Require Import Base BaseProofs Hand Range HandIndex SpecPoker SpecHand ListFacts PokerFacts EvalCheck HandProofs EvalProofs HandExprProofs RangeProofs.
Local Open Scope N_scope.

Lemma rank_bits_suited l s r : Forall is_card l -> s < 4 -> N.testbit (rank_bits (map rank_of (suited s l))) r = true <-> In (4 * r + s) l.
Proof.
  intros Hl Hs. rewrite testbit_rank_bits, existsb_exists. split.
  - intros (x & Hx & E). apply N.eqb_eq in E. subst x. apply in_map_iff in Hx as (c & <- & Hc). apply suited_spec in Hc as [Hc <-].
    unfold rank_of, suit_of. rewrite <- N.div_mod' . assumption.
  - intros H. exists r. split; [|apply N.eqb_refl]. apply in_map_iff. exists (4 * r + s).
    assert (E1 : rank_of (4 * r + s) = r) by (unfold rank_of; rewrite N.mul_comm, N.div_add_l, N.div_small by (discriminate || assumption); apply N.add_0_r).
    assert (E2 : suit_of (4 * r + s) = s) by (unfold suit_of; rewrite N.add_comm, N.mul_comm, N.mod_add by discriminate; apply N.mod_small; assumption).
    split; [assumption|]. apply suited_spec. auto.
Qed.
Lemma rank_bits_all l r : N.testbit (rank_bits (map rank_of l)) r = true <-> exists c, In c l /\ rank_of c = r.
Proof.
  rewrite testbit_rank_bits, existsb_exists. split.
  - intros (x & Hx & E). apply N.eqb_eq in E. subst x. apply in_map_iff in Hx as (c & E & Hc). exists c. auto.
  - intros (c & Hc & E). exists r. split; [|apply N.eqb_refl]. apply in_map_iff. exists c. auto.
Qed.

(* C101 *)
Lemma masks_exact p e : bases e = 1%nat -> cards (cards_in e) -> (forall s, s < 4 -> (of_suit s (cards_in e) <= 12)%nat) ->
  exists h, run p e = Ret h /\
    (forall s, s < 4 -> exists m, get_suit_mask p h s = Ret m /\ forall r, N.testbit m r = true <-> In (4 * r + s) (cards_in e)) /\
    (forall r, N.testbit (get_rank_mask h) r = true <-> exists c, In c (cards_in e) /\ rank_of c = r) /\
    (forall s, s < 4 -> (5 <= of_suit s (cards_in e))%nat -> (forall t, s < t < 4 -> (of_suit t (cards_in e) < 5)%nat) ->
       forall r, N.testbit (get_flush_key h) r = true <-> In (4 * r + s) (cards_in e)) /\
    ((forall s, s < 4 -> (of_suit s (cards_in e) < 5)%nat) -> get_flush_key h = 0).
Proof.
  intros Hb Hc Hf. apply fits_spec in Hf. destruct (run_complete p e Hb Hc Hf) as (h & Hr & Ho). exists h.
  pose proof (cards_length _ Hc) as Hl. pose proof (proj2 Hc) as Hcs.
  split; [assumption|]. split; [|split; [|split]].
  - intros s Hs. eexists. split; [apply (get_suit_mask_of p base (cards_in e)); assumption|]. intros r. apply rank_bits_suited; assumption.
  - intros r. rewrite (get_rank_mask_of base (cards_in e)) by assumption. apply rank_bits_all.
  - intros s Hs H5 Ht r. rewrite (get_flush_key_of (cards_in e) h Hl Hf Ho s Hcs); [apply rank_bits_suited; assumption|].
    change (of_suit s (cards_in e)) with (nsuit s (cards_in e)) in H5.
    assert (Ht' : forall t, s < t < 4 -> (nsuit t (cards_in e) < 5)%nat) by exact Ht. clear Ht.
    unfold flush_of, top_flush.
    assert (Hx : s = 0 \/ s = 1 \/ s = 2 \/ s = 3) by lia.
    destruct Hx as [->|[->|[->| ->]]];
      repeat match goal with |- context [?x <=? ?y] => destruct (N.leb_spec x y) end; try reflexivity; exfalso;
      try (pose proof (Ht' 1 ltac:(lia))); try (pose proof (Ht' 2 ltac:(lia))); try (pose proof (Ht' 3 ltac:(lia))); lia.
  - intros H. assert (E : flush_of (cards_in e) = None) by (apply flush_of_none; exact H).
    unfold get_flush_key. rewrite (has_flush_of _ h Hl Hf Ho), E. reflexivity.
Qed.

(* C103 *)
Lemma contains_beyond p e c : bases e = 1%nat -> cards (cards_in e) -> (forall s, s < 4 -> (of_suit s (cards_in e) <= 12)%nat) ->
  52 <= c < 64 -> exists h, run p e = Ret h /\ contains p h c = Ret false.
Proof.
  intros Hb Hc Hf Hx. apply fits_spec in Hf. destruct (run_complete p e Hb Hc Hf) as (h & Hr & Ho). exists h. split; [assumption|].
  unfold contains. change ((3 - c mod 4) * 16 + c / 4) with (card_bit c).
  pose proof (suit_lt c) as Hs. assert (Hq : 13 <= rank_of c < 16) by (unfold rank_of; split; [apply N.div_le_lower_bound|apply N.div_lt_upper_bound]; lia).
  assert (Hk : card_bit c < 64) by (unfold card_bit; lia).
  rewrite shl1_ok' by assumption. cbn [bind]. rewrite land_bit_zero, negb_involutive. destruct Ho as [_ Hm]. rewrite Hm, testbit_mask_of.
  f_equal. apply not_true_is_false. rewrite existsb_exists. intros (d & Hd & E). apply N.eqb_eq in E.
  pose proof (proj2 Hc) as Hcs. rewrite Forall_forall in Hcs. pose proof (rank_lt d (Hcs d Hd)). pose proof (suit_lt d). unfold card_bit in E. lia.
Qed.
Lemma contains_wraps p e c : bases e = 1%nat -> cards (cards_in e) -> (forall s, s < 4 -> (of_suit s (cards_in e) <= 12)%nat) ->
  64 <= c < 116 -> 0 < c mod 4 -> exists h b, run p e = Ret h /\ contains p h c = Ret b /\ (b = true <-> In (c - 65) (cards_in e)).
Proof.
  intros Hb Hc Hf Hx Hm. apply fits_spec in Hf. destruct (run_complete p e Hb Hc Hf) as (h & Hr & Ho). exists h.
  assert (Hd : is_card (c - 65)) by (unfold is_card; lia).
  destruct (contains_of p base (cards_in e) h (c - 65) (proj2 Hc) Ho Hd) as (b & Eb & Hbb). exists b. split; [assumption|]. split; [|assumption].
  rewrite <- Eb. unfold contains. do 2 f_equal.
  assert (E : c = 4 * (c / 4) + c mod 4) by (apply N.div_mod'). pose proof (suit_lt c) as Hs. unfold suit_of in Hs.
  assert (Hq : 16 <= c / 4) by (apply N.div_le_lower_bound; lia).
  assert (E1 : c - 65 = (c mod 4 - 1) + (c / 4 - 16) * 4) by lia.
  rewrite E1 at 1 2. rewrite N.mod_add, N.div_add by discriminate. rewrite (N.mod_small (c mod 4 - 1)), (N.div_small (c mod 4 - 1)) by lia. lia.
Qed.

(* C106, C107 *)
Lemma hwi_as_combo x y : hwi_cmp x y = combo_cmp (hw_1 x, hw_2 x, hw_w x) (hw_1 y, hw_2 y, hw_w y).
Proof. reflexivity. Qed.
Lemma contains_panics h c : 64 <= c < 256 -> c mod 4 = 0 -> contains Debug h c = Fail Overflow.
Proof.
  intros Hx Hm. unfold contains. rewrite Hm. assert (Hq : 16 <= c / 4) by (apply N.div_le_lower_bound; lia).
  assert (E : (3 - 0) * 16 + c / 4 <? 64 = false) by (apply N.ltb_ge; lia). unfold shl_. rewrite E. reflexivity.
Qed.
Lemma hwi_order x y z : hwi_cmp x x = Eq /\ hwi_cmp y x = CompOpp (hwi_cmp x y) /\ (hwi_cmp x y <> Gt -> hwi_cmp y z <> Gt -> hwi_cmp x z <> Gt).
Proof. rewrite !hwi_as_combo. apply order_total. Qed.
Lemma hwi_meaning x y : hwi_cmp x y = lex (combo_key (hw_1 x, hw_2 x, hw_w x)) (combo_key (hw_1 y, hw_2 y, hw_w y)).
Proof. rewrite hwi_as_combo. apply combo_cmp_lex. Qed.
