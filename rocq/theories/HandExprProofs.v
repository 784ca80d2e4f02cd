(* Hands built through the public interface hold exactly their cards. *)
From Verif Require Import Base BaseProofs Hand SpecPoker SpecHand ListFacts PokerFacts EvalCheck HandProofs EvalProofs.
From Coq Require Import Permutation.
Local Open Scope N_scope.

Lemma suited_app s l l' : suited s (l ++ l') = suited s l ++ suited s l'.
Proof. apply filter_app. Qed.

Lemma cards_app_l l l' : cards (l ++ l') -> cards l.
Proof.
  intros [Hn Hf]. apply Forall_app in Hf as [Hf _]. split; [|assumption].
  induction l as [|c l IH]; [constructor|]. inversion Hn; subst. inversion Hf; subst.
  constructor; [|auto]. intros H. match goal with H' : ~ In c _ |- _ => apply H' end. apply in_or_app; auto.
Qed.
Lemma cards_perm l l' : Permutation l l' -> cards l -> cards l'.
Proof.
  intros H [Hn Hf]. split; [eapply Permutation_NoDup; eassumption|].
  apply Forall_forall. intros c Hc. rewrite Forall_forall in Hf. apply Hf.
  eapply Permutation_in; [apply Permutation_sym; exact H|assumption].
Qed.
Lemma cards_app_r l l' : cards (l ++ l') -> cards l'.
Proof. intros H. eapply cards_app_l, cards_perm; [|exact H]. apply Permutation_app_comm. Qed.

Lemma fits_spec l : (forall s, s < 4 -> (of_suit s l <= 12)%nat) -> fits l.
Proof. intros H s Hs. exact (H s Hs). Qed.

(* from_bit_mask *)
Lemma fold_mask p m : forall cs acc h, cards (filter (N.testbit m) cs ++ acc) -> Forall is_card cs ->
  fits (filter (N.testbit m) cs ++ acc) -> hand_of base acc h ->
  exists h', foldM (fun board c =>
           if negb (N.land m (N.shiftl 1 c) =? 0)
           then x <- CARDS_get c ;; hand_add p board x
           else Ret board) cs h = Ret h' /\ hand_of base (rev (filter (N.testbit m) cs) ++ acc) h'.
Proof.
  induction cs as [|c cs IH]; intros acc h Hc Hcs Hf Hh.
  - exists h. split; [reflexivity|assumption].
  - cbn [foldM]. rewrite land_bit_zero, negb_involutive. inversion Hcs; subst.
    cbn [filter] in *. destruct (N.testbit m c) eqn:Eb.
    + destruct (CARDS_get_ok c) as (x & Hx & _); [assumption|]. rewrite Hx. cbn [bind].
      assert (Hp : Permutation ((c :: filter (N.testbit m) cs) ++ acc) (filter (N.testbit m) cs ++ c :: acc)).
      { cbn. apply Permutation_middle. }
      pose proof (cards_perm _ _ Hp Hc) as Hc'.
      assert (Hf' : fits (filter (N.testbit m) cs ++ c :: acc)).
      { eapply fits_sub; [exact Hf|]. intros s. rewrite (nsuit_perm s _ _ Hp). lia. }
      destruct (hand_add_card p base acc h c x) as (h' & Hadd & Hof); try assumption.
      * lia.
      * apply cards_length. apply cards_app_r in Hc'. assumption.
      * apply fits_app_r in Hf'. assumption.
      * rewrite Hadd. cbn [bind]. destruct (IH (c :: acc) h') as (h'' & Hr & Hof'); try assumption.
        exists h''. split; [assumption|]. cbn [rev]. rewrite <- app_assoc. exact Hof'.
    + cbn [bind]. apply IH; assumption.
Qed.

Lemma mask_cards_ok m : cards (mask_cards m).
Proof.
  split; [apply NoDup_filter, nseq_NoDup|]. apply Forall_forall. intros c Hc.
  apply filter_In in Hc as [Hc _]. apply nseq_In in Hc. unfold is_card. lia.
Qed.

Lemma from_bit_mask_of p m : fits (mask_cards m) ->
  exists h, from_bit_mask p m = Ret h /\ hand_of base (mask_cards m) h.
Proof.
  intros Hf. unfold from_bit_mask.
  destruct (fold_mask p m (nseq 0 52) [] hand_default) as (h & Hr & Hof).
  - rewrite app_nil_r. apply mask_cards_ok.
  - apply Forall_forall. intros c Hc. apply nseq_In in Hc. unfold is_card. lia.
  - rewrite app_nil_r. exact Hf.
  - apply hand_default_of.
  - exists h. split; [exact Hr|]. rewrite app_nil_r in Hof.
    eapply hand_of_perm; [|exact Hof]. apply Permutation_sym, Permutation_rev.
Qed.

Lemma from_hole_cards_of p c1 c2 : is_card c1 -> is_card c2 ->
  exists h, from_hole_cards p c1 c2 = Ret h /\ hand_of 0 [c1; c2] h.
Proof.
  intros H1 H2. unfold from_hole_cards.
  destruct (CARDS_get_ok c1 H1) as (x & Hx & Hox). destruct (CARDS_get_ok c2 H2) as (y & Hy & Hoy).
  rewrite Hx, Hy. cbn [bind].
  apply (hand_add_of p 0 0 [c1] [c2]); try assumption.
  - apply N.le_0_l.
  - cbn; lia.
  - apply fits_of_length. cbn. lia.
Qed.

Lemma run_of p e : (bases e <= 1)%nat -> cards (cards_in e) -> fits (cards_in e) ->
  exists h, run p e = Ret h /\ hand_of (base * N.of_nat (bases e)) (cards_in e) h.
Proof.
  induction e as [|c|c1 c2|m|a IHa b IHb]; cbn [bases cards_in run]; intros Hb Hc Hf.
  - exists hand_default. split; [reflexivity|apply hand_default_of].
  - apply CARDS_get_ok. destruct Hc as [_ Hc]. inversion Hc; assumption.
  - destruct Hc as [_ Hc]. inversion Hc as [|? ? ? Hc']; subst. inversion Hc'; subst.
    apply from_hole_cards_of; assumption.
  - apply from_bit_mask_of. exact Hf.
  - destruct IHa as (x & Hx & Hox); [lia|eapply cards_app_l; eassumption|eapply fits_app_l; eassumption|].
    destruct IHb as (y & Hy & Hoy); [lia|eapply cards_app_r; eassumption|eapply fits_app_r; eassumption|].
    rewrite Hx, Hy. cbn [bind].
    destruct (hand_add_of p (base * N.of_nat (bases a)) (base * N.of_nat (bases b)) (cards_in a) (cards_in b) x y)
      as (h & Hh & Hof); try assumption.
    + unfold base. lia.
    + apply cards_length; assumption.
    + exists h. split; [assumption|]. rewrite Nat2N.inj_add, N.mul_add_distr_l. assumption.
Qed.

Lemma run_complete p e : bases e = 1%nat -> cards (cards_in e) -> fits (cards_in e) ->
  exists h, run p e = Ret h /\ hand_of base (cards_in e) h.
Proof.
  intros Hb Hc Hf. destruct (run_of p e) as (h & Hh & Hof); try assumption; [lia|].
  exists h. split; [assumption|]. rewrite Hb in Hof. exact Hof.
Qed.

Lemma base_cases e : (bases e <= 1)%nat ->
  base * N.of_nat (bases e) = base \/ base * N.of_nat (bases e) = 0.
Proof. intros H. destruct (bases e) as [|[|k]]; [right|left|lia]; reflexivity. Qed.

Lemma small_fits l : (length l <= 7)%nat -> fits l.
Proof. intros H. apply fits_of_length. lia. Qed.

(* C01 *)
Lemma compare_hands p e1 e2 : bases e1 = 1%nat -> bases e2 = 1%nat ->
  cards (cards_in e1) -> cards (cards_in e2) ->
  (2 <= length (cards_in e1) <= 7)%nat -> (2 <= length (cards_in e2) <= 7)%nat ->
  exists h1 h2 v1 v2, run p e1 = Ret h1 /\ run p e2 = Ret h2 /\ evaluate h1 = Ret v1 /\ evaluate h2 = Ret v2 /\
    N.compare v1 v2 = lex (best (cards_in e1)) (best (cards_in e2)).
Proof.
  intros Hb1 Hb2 Hc1 Hc2 Hl1 Hl2.
  destruct (run_complete p e1 Hb1 Hc1 (small_fits _ (proj2 Hl1))) as (h1 & Hr1 & Ho1).
  destruct (run_complete p e2 Hb2 Hc2 (small_fits _ (proj2 Hl2))) as (h2 & Hr2 & Ho2).
  destruct (evaluate_of _ h1 Hc1 (proj2 Hl1) Ho1) as (v1 & Hv1 & Hx1).
  destruct (evaluate_of _ h2 Hc2 (proj2 Hl2) Ho2) as (v2 & Hv2 & Hx2).
  exists h1, h2, v1, v2. repeat split; try assumption.
  apply valued_compare; [apply Hx1, Hl1|apply Hx2, Hl2].
Qed.

(* C02 *)
Lemma hand_category p e : bases e = 1%nat -> cards (cards_in e) -> (2 <= length (cards_in e) <= 7)%nat ->
  exists h v, run p e = Ret h /\ evaluate h = Ret v /\ v < 2 ^ 16 /\ v / 4096 = category_of (cards_in e) + 1.
Proof.
  intros Hb Hc Hl.
  destruct (run_complete p e Hb Hc (small_fits _ (proj2 Hl))) as (h & Hr & Ho).
  destruct (evaluate_of _ h Hc (proj2 Hl) Ho) as (v & Hv & Hx). specialize (Hx (proj1 Hl)).
  exists h, v. repeat split; try assumption.
  - destruct Hx as [Hx _]. change (2 ^ 16) with 65536. lia.
  - apply valued_category; [assumption|apply best_nonempty].
Qed.

(* C03 *)
Lemma evaluate_safe p e : (bases e <= 1)%nat -> cards (cards_in e) -> (length (cards_in e) <= 7)%nat ->
  exists h v w, run p e = Ret h /\ evaluate h = Ret v /\ evaluate_without_flush h = Ret w.
Proof.
  intros Hb Hc Hl. pose proof (small_fits _ Hl) as Hf.
  destruct (run_of p e Hb Hc Hf) as (h & Hr & Ho).
  destruct (evaluate_without_flush_of _ _ h Hc (base_cases e Hb) Hl Ho) as (w & Hw & _).
  assert (Hv : exists v, evaluate h = Ret v).
  { destruct (bases e) as [|[|k]] eqn:E; [| |lia].
    - exists w. unfold evaluate. replace (has_flush h) with false; [exact Hw|].
      symmetry. unfold has_flush. apply negb_false_iff, N.eqb_eq.
      unfold FLUSH_CHECK_MASK64, SUITS_SHIFT. rewrite land_shifted.
      rewrite (shiftr_key (base * N.of_nat 0) (cards_in e) h); [|right; reflexivity| |assumption|assumption].
      2:{ apply cards_length; assumption. }
      apply N.shiftl_eq_0_iff. rewrite suits_val_nsuit.
      assert (Hn : forall s, (nsuit s (cards_in e) < 8)%nat).
      { intros s. pose proof (filter_length_le (fun c => suit_of c =? s) (cards_in e)). unfold nsuit, suited. lia. }
      assert (Hchk : forallb (fun a => forallb (fun b => forallb (fun c => forallb (fun d =>
                 N.land (base * 0 + (a + 16 * b + 256 * c + 4096 * d)) 0x8888 =? 0)
                 (nseq 0 8)) (nseq 0 8)) (nseq 0 8)) (nseq 0 8) = true) by (vm_compute; reflexivity).
      assert (Hin : forall s, In (N.of_nat (nsuit s (cards_in e))) (nseq 0 8)).
      { intros s. apply nseq_In. specialize (Hn s). lia. }
      apply forallb_In with (x := N.of_nat (nsuit 0 (cards_in e))) in Hchk; [|apply Hin].
      apply forallb_In with (x := N.of_nat (nsuit 1 (cards_in e))) in Hchk; [|apply Hin].
      apply forallb_In with (x := N.of_nat (nsuit 2 (cards_in e))) in Hchk; [|apply Hin].
      apply forallb_In with (x := N.of_nat (nsuit 3 (cards_in e))) in Hchk; [|apply Hin].
      apply N.eqb_eq in Hchk. exact Hchk.
    - destruct (evaluate_of _ h Hc Hl Ho) as (v & Hv & _). exists v; assumption. }
  destruct Hv as [v Hv]. exists h, v, w. auto.
Qed.

(* C04 *)
Lemma hand_eqb_eq a b : hand_eqb a b = true <-> a = b.
Proof.
  unfold hand_eqb. rewrite andb_true_iff, !N.eqb_eq. destruct a, b; cbn. split.
  - intros [-> ->]. reflexivity.
  - intros E. inversion E. auto.
Qed.

Lemma hand_determined p e1 e2 : bases e1 = bases e2 -> (bases e1 <= 1)%nat ->
  cards (cards_in e1) -> cards (cards_in e2) ->
  (forall s, s < 4 -> (of_suit s (cards_in e1) <= 12)%nat) ->
  (forall s, s < 4 -> (of_suit s (cards_in e2) <= 12)%nat) ->
  exists h1 h2, run p e1 = Ret h1 /\ run p e2 = Ret h2 /\
    (hand_eqb h1 h2 = true <-> forall c, In c (cards_in e1) <-> In c (cards_in e2)) /\
    (hand_eqb h1 h2 = true -> h1 = h2).
Proof.
  intros Hb Hb1 Hc1 Hc2 Hf1 Hf2. apply fits_spec in Hf1. apply fits_spec in Hf2.
  destruct (run_of p e1 Hb1 Hc1 Hf1) as (h1 & Hr1 & Ho1).
  destruct (run_of p e2) as (h2 & Hr2 & Ho2); [lia|assumption|assumption|].
  exists h1, h2. split; [assumption|]. split; [assumption|]. split; [|apply hand_eqb_eq].
  rewrite hand_eqb_eq. split.
  - intros E. apply mask_of_inj; [apply Hc1|apply Hc2|].
    destruct Ho1 as [_ <-], Ho2 as [_ <-]. congruence.
  - intros Hin. rewrite <- Hb in Ho2. eapply hand_of_unique; [exact Ho1|].
    eapply hand_of_perm; [|exact Ho2]. apply NoDup_Permutation; [apply Hc2|apply Hc1|].
    intros c. symmetry. apply Hin.
Qed.

(* C05 *)
Lemma flush_free p e : bases e = 1%nat -> cards (cards_in e) ->
  (forall s, s < 4 -> (of_suit s (cards_in e) < 5)%nat) ->
  exists h, run p e = Ret h /\ evaluate h = evaluate_without_flush h.
Proof.
  intros Hb Hc Hs. assert (Hf : fits (cards_in e)).
  { intros s Hs4. specialize (Hs s Hs4). unfold of_suit in Hs. unfold nsuit, suited. lia. }
  destruct (run_complete p e Hb Hc Hf) as (h & Hr & Ho). exists h. split; [assumption|].
  unfold evaluate. rewrite (has_flush_of _ h (cards_length _ Hc) Hf Ho).
  replace (flush_of (cards_in e)) with (@None N); [reflexivity|].
  symmetry. apply flush_of_none. exact Hs.
Qed.

(* C08 *)
Lemma counters_exact p e : bases e = 1%nat -> cards (cards_in e) ->
  (forall s, s < 4 -> (of_suit s (cards_in e) <= 12)%nat) ->
  exists h, run p e = Ret h /\
    ((length (cards_in e) <= 15)%nat -> count h = N.of_nat (length (cards_in e))) /\
    (forall s, s < 4 -> suit_count p h s = Ret (Z.of_nat (of_suit s (cards_in e)))) /\
    (forall c, is_card c -> exists b, contains p h c = Ret b /\ (b = true <-> In c (cards_in e))) /\
    (has_flush h = true <-> exists s, s < 4 /\ (5 <= of_suit s (cards_in e))%nat).
Proof.
  intros Hb Hc Hf. apply fits_spec in Hf. destruct (run_complete p e Hb Hc Hf) as (h & Hr & Ho). exists h.
  pose proof (cards_length _ Hc) as Hl.
  split; [assumption|]. split; [|split; [|split]].
  - intros H15. rewrite (count_of base (cards_in e) h) by auto. apply N.mod_small. lia.
  - intros s Hs. rewrite (suit_count_of base (cards_in e) h) by auto. f_equal.
    change (if base =? 0 then 0 else 3) with 3. unfold of_suit, nsuit, suited. lia.
  - intros c Hcc. apply (contains_of p base); [apply Hc|assumption|assumption].
  - rewrite (has_flush_of _ h Hl Hf Ho). destruct (flush_of (cards_in e)) as [i|] eqn:E.
    + split; [|reflexivity]. intros _. exists i. apply flush_of_some. assumption.
    + split; [discriminate|]. intros (s & Hs & H5). rewrite flush_of_none in E.
      specialize (E s Hs). unfold of_suit in H5. unfold nsuit, suited in E. lia.
Qed.

(* C09 *)
Lemma add_all_in l : forall e, cards_in (fold_left (fun e c => EAdd e (ECard c)) l e) = cards_in e ++ l.
Proof.
  induction l as [|c l IH]; intros e; cbn [fold_left]; [rewrite app_nil_r; reflexivity|].
  rewrite IH. cbn [cards_in]. rewrite <- app_assoc. reflexivity.
Qed.
Lemma add_all_bases l : forall e, bases (fold_left (fun e c => EAdd e (ECard c)) l e) = bases e.
Proof. induction l as [|c l IH]; intros e; cbn [fold_left]; [reflexivity|]. rewrite IH. cbn [bases]. lia. Qed.

Lemma add_all_cards l : cards_in (add_all l) = l.
Proof. apply (add_all_in l EDefault). Qed.
Lemma add_all_base l : bases (add_all l) = 1%nat.
Proof. apply (add_all_bases l EDefault). Qed.

Lemma bit_mask_hand p m : (forall s, s < 4 -> (of_suit s (mask_cards m) <= 12)%nat) ->
  exists h, from_bit_mask p m = Ret h /\ run p (add_all (mask_cards m)) = Ret h.
Proof.
  intros Hf. apply fits_spec in Hf. destruct (from_bit_mask_of p m Hf) as (h & Hr & Ho). exists h. split; [assumption|].
  pose proof (mask_cards_ok m) as Hc. revert Hf Ho Hc. generalize (mask_cards m). intros l Hf Ho Hc.
  destruct (run_complete p (add_all l)) as (h' & Hr' & Ho').
  - apply add_all_base.
  - rewrite add_all_cards. exact Hc.
  - rewrite add_all_cards. exact Hf.
  - rewrite Hr'. f_equal. rewrite add_all_cards in Ho'. eapply hand_of_unique; eassumption.
Qed.

(* ------------------------------------------------------------------------- *)
(** * C06: suits are interchangeable *)

Lemma rename_rank f c : f (suit_of c) < 4 -> rank_of (rename_suits f c) = rank_of c.
Proof.
  intros H. unfold rename_suits, rank_of at 1. rewrite N.mul_comm, N.div_add_l by discriminate.
  rewrite (N.div_small (f _)) by assumption. apply N.add_0_r.
Qed.
Lemma rename_suit f c : f (suit_of c) < 4 -> suit_of (rename_suits f c) = f (suit_of c).
Proof.
  intros H. unfold rename_suits, suit_of at 1. rewrite N.add_comm, N.mul_comm, N.mod_add by discriminate.
  apply N.mod_small. assumption.
Qed.

Lemma rename_ranks f l : suit_permutation f -> map rank_of (map (rename_suits f) l) = map rank_of l.
Proof.
  intros [Hf _]. rewrite map_map. apply map_ext. intros c. apply rename_rank, Hf, suit_lt.
Qed.

Lemma rename_nsuit f l s : suit_permutation f -> s < 4 ->
  nsuit (f s) (map (rename_suits f) l) = nsuit s l.
Proof.
  intros [Hf Hi] Hs. unfold nsuit, suited. rewrite filter_map_swap, map_length. f_equal.
  apply filter_ext. intros c. rewrite rename_suit by (apply Hf, suit_lt).
  destruct (N.eqb_spec (suit_of c) s) as [->|Hne]; [apply N.eqb_refl|].
  apply N.eqb_neq. intros E. apply Hne, Hi; [apply suit_lt|assumption|assumption].
Qed.

Lemma suit_perm_onto f : suit_permutation f -> forall t, t < 4 -> exists s, s < 4 /\ f s = t.
Proof.
  intros [Hf Hi] t Ht.
  assert (Hd : ~ (f 0 <> t /\ f 1 <> t /\ f 2 <> t /\ f 3 <> t)).
  { intros (H0 & H1 & H2 & H3).
    pose proof (Hf 0 eq_refl). pose proof (Hf 1 eq_refl). pose proof (Hf 2 eq_refl). pose proof (Hf 3 eq_refl).
    assert (E01 : f 0 <> f 1) by (intros E; discriminate (Hi 0 1 eq_refl eq_refl E)).
    assert (E02 : f 0 <> f 2) by (intros E; discriminate (Hi 0 2 eq_refl eq_refl E)).
    assert (E03 : f 0 <> f 3) by (intros E; discriminate (Hi 0 3 eq_refl eq_refl E)).
    assert (E12 : f 1 <> f 2) by (intros E; discriminate (Hi 1 2 eq_refl eq_refl E)).
    assert (E13 : f 1 <> f 3) by (intros E; discriminate (Hi 1 3 eq_refl eq_refl E)).
    assert (E23 : f 2 <> f 3) by (intros E; discriminate (Hi 2 3 eq_refl eq_refl E)).
    lia. }
  destruct (N.eq_dec (f 0) t); [exists 0; split; [reflexivity|assumption]|]. destruct (N.eq_dec (f 1) t); [exists 1; split; [reflexivity|assumption]|].
  destruct (N.eq_dec (f 2) t); [exists 2; split; [reflexivity|assumption]|]. destruct (N.eq_dec (f 3) t); [exists 3; split; [reflexivity|assumption]|].
  exfalso; apply Hd; auto.
Qed.

Lemma rename_flush f l : suit_permutation f -> is_flush (map (rename_suits f) l) = is_flush l.
Proof.
  intros Hf. apply eq_true_iff_eq. rewrite !is_flush_spec, map_length. split.
  - intros [Hl (t & Ht & H5)]. split; [assumption|].
    destruct (suit_perm_onto f Hf t Ht) as (s & Hs & <-). exists s. split; [assumption|].
    rewrite rename_nsuit in H5; assumption.
  - intros [Hl (s & Hs & H5)]. split; [assumption|]. exists (f s). split; [apply Hf; assumption|].
    rewrite rename_nsuit; assumption.
Qed.

Lemma rename_best f l : suit_permutation f -> best (map (rename_suits f) l) = best l.
Proof.
  intros Hf. unfold best. rewrite map_length, choose_map, map_map. f_equal.
  apply map_ext. intros h. unfold strength. rewrite rename_flush, rename_ranks by assumption. reflexivity.
Qed.

Lemma rename_cards f l : suit_permutation f -> cards l -> cards (map (rename_suits f) l).
Proof.
  intros [Hf Hi] [Hn Hc]. split.
  - clear Hc. induction l as [|c l IH]; [constructor|]. inversion Hn; subst. cbn. constructor; [|auto].
    rewrite in_map_iff. intros (d & E & Hd).
    assert (d = c); [|subst; contradiction].
    pose proof (f_equal rank_of E) as E1. pose proof (f_equal suit_of E) as E2.
    rewrite !rename_rank in E1 by (apply Hf, suit_lt). rewrite !rename_suit in E2 by (apply Hf, suit_lt).
    apply card_inj; [assumption|]. apply Hi; [apply suit_lt|apply suit_lt|assumption].
  - apply Forall_map. eapply Forall_impl; [|exact Hc]. intros c Hcc. unfold is_card in *.
    unfold rename_suits. apply rank_lt in Hcc. pose proof (Hf _ (suit_lt c)). lia.
Qed.

Lemma suits_interchangeable p f e1 e2 : suit_permutation f ->
  bases e1 = 1%nat -> bases e2 = 1%nat -> cards (cards_in e1) -> (2 <= length (cards_in e1) <= 7)%nat ->
  cards_in e2 = map (rename_suits f) (cards_in e1) ->
  exists h1 h2 v, run p e1 = Ret h1 /\ run p e2 = Ret h2 /\ evaluate h1 = Ret v /\ evaluate h2 = Ret v.
Proof.
  intros Hf Hb1 Hb2 Hc Hl E.
  destruct (compare_hands p e1 e2 Hb1 Hb2 Hc) as (h1 & h2 & v1 & v2 & H1 & H2 & H3 & H4 & H5).
  - rewrite E. apply rename_cards; assumption.
  - assumption.
  - rewrite E, map_length. assumption.
  - exists h1, h2, v1. repeat split; try assumption. rewrite E, rename_best, lex_refl in H5 by assumption.
    apply N.compare_eq_iff in H5. congruence.
Qed.

(* ------------------------------------------------------------------------- *)
(** * C07: more cards never hurt *)

Definition grow_ok (l : list N) : bool :=
  forallb (fun r => (4 <=? occurs r l)%nat ||
                    match lex (strength_ranks false l) (strength_ranks false (r :: l)) with Gt => false | _ => true end)
          all_ranks.
Lemma grow_check : forallb grow_ok (multis all_ranks 4) = true.
Proof. vm_cast_no_check (eq_refl true). Qed.

Lemma grow_ranks r l : Forall (fun r => r < 13) (r :: l) -> (forall x, (occurs x (r :: l) <= 4)%nat) ->
  (length l <= 4)%nat -> lle (strength_ranks false l) (strength_ranks false (r :: l)).
Proof.
  intros Hr Ho Hl. inversion Hr as [|? ? Hr1 Hr2]; subst.
  assert (Ho' : forall x, (occurs x l <= 4)%nat).
  { intros x. specialize (Ho x). unfold occurs in *. cbn in Ho. destruct (N.eq_dec r x); lia. }
  pose proof (canon_perm l Hr2) as Hp.
  rewrite (strength_ranks_perm false _ _ Hp), (strength_ranks_perm false (r :: l) (r :: canon l))
    by (constructor; assumption).
  pose proof (canon_in l 4 Hr2 Ho' Hl) as Hin.
  pose proof (forallb_In _ _ grow_check _ Hin) as H. unfold grow_ok in H.
  apply forallb_In with (x := r) in H; [|apply all_ranks_In; assumption].
  apply orb_prop in H as [H|H].
  - exfalso. apply Nat.leb_le in H. specialize (Ho r). unfold occurs in *. cbn in Ho.
    rewrite (proj1 (Permutation_count_occ N.eq_dec _ _) Hp r) in Ho.
    destruct (N.eq_dec r r); [lia|congruence].
  - unfold lle. destruct (lex _ _); [discriminate|discriminate|]. discriminate.
Qed.

Lemma flush_helps l : lle (strength_ranks false l) (strength_ranks true l).
Proof.
  unfold strength_ranks. destruct (straight_top l); [unfold lle; cbn; discriminate|].
  unfold lle. cbn [lex]. generalize (grouped l). intros g.
  destruct (held 4 l), (held 3 l), (held 2 l) as [|? [|? ?]]; cbn; rewrite ?lex_refl; discriminate.
Qed.

Lemma strength_small l : (length l < 5)%nat -> best l = strength_ranks false (map rank_of l).
Proof.
  intros H. unfold best. rewrite Nat.min_r by lia. rewrite choose_all. cbn [map fold_right].
  assert (E : lex_max (strength l) [] = strength l).
  { unfold lex_max. destruct (strength l); reflexivity. }
  rewrite E. unfold strength. replace (is_flush l) with false; [reflexivity|].
  symmetry. apply not_true_iff_false. intros Hf. apply is_flush_spec in Hf as [Hl _]. lia.
Qed.

Lemma best_grow c l : cards (c :: l) -> lle (best l) (best (c :: l)).
Proof.
  intros Hc. destruct (le_lt_dec 5 (length l)) as [Hl|Hl].
  - unfold best. fold (lmax (map strength (choose (Nat.min 5 (length l)) l))).
    fold (lmax (map strength (choose (Nat.min 5 (length (c :: l))) (c :: l)))).
    rewrite !Nat.min_l by (cbn; lia).
    apply lmax_ub. assert (Hin : In (lmax (map strength (choose 5 l))) (map strength (choose 5 l))).
    { apply lmax_in. intros E. apply map_eq_nil in E. revert E. apply choose_nonempty. assumption. }
    apply in_map_iff in Hin as (h & Hh & Hin). rewrite <- Hh. apply in_map.
    cbn. apply in_or_app; right. assumption.
  - rewrite (strength_small l Hl).
    destruct (ranks_ok (c :: l) Hc) as [Hr Ho]. cbn [map] in Hr, Ho.
    apply lle_trans with (strength_ranks false (map rank_of (c :: l))).
    { cbn [map]. apply grow_ranks; try assumption. rewrite map_length. lia. }
    unfold best. fold (lmax (map strength (choose (Nat.min 5 (length (c :: l))) (c :: l)))).
    rewrite Nat.min_r by (cbn; lia). rewrite choose_all.
    apply lle_trans with (strength (c :: l)); [|apply lmax_ub; left; reflexivity].
    unfold strength. destruct (is_flush (c :: l)); [apply flush_helps|apply lle_refl].
Qed.

Lemma best_more l l' : cards (l' ++ l) -> lle (best l) (best (l' ++ l)).
Proof.
  induction l' as [|c l' IH]; intros Hc; [apply lle_refl|]. cbn [app] in *.
  eapply lle_trans; [apply IH; eapply (cards_app_r [c]); exact Hc|apply best_grow; exact Hc].
Qed.

Lemma best_incl l l' : cards l -> cards l' -> incl l l' -> lle (best l) (best l').
Proof.
  intros Hc Hc' Hi.
  set (rest := filter (fun c => if in_dec N.eq_dec c l then false else true) l').
  assert (Hp : Permutation l' (rest ++ l)).
  { apply NoDup_Permutation.
    - apply Hc'.
    - apply NoDup_app_intro; [apply NoDup_filter, Hc'|apply Hc|].
      intros c. unfold rest. rewrite filter_In. destruct (in_dec N.eq_dec c l); [intros [_ E]; discriminate|auto].
    - intros c. rewrite in_app_iff. unfold rest. rewrite filter_In.
      destruct (in_dec N.eq_dec c l) as [Hin|Hin]; split; intuition. }
  rewrite (best_perm _ _ Hp). apply best_more. eapply cards_perm; eassumption.
Qed.

Lemma more_never_hurts p e1 e2 : bases e1 = 1%nat -> bases e2 = 1%nat ->
  cards (cards_in e1) -> cards (cards_in e2) -> incl (cards_in e1) (cards_in e2) ->
  (2 <= length (cards_in e1))%nat -> (length (cards_in e2) <= 7)%nat ->
  exists h1 h2 v1 v2, run p e1 = Ret h1 /\ run p e2 = Ret h2 /\ evaluate h1 = Ret v1 /\ evaluate h2 = Ret v2 /\
    v1 <= v2.
Proof.
  intros Hb1 Hb2 Hc1 Hc2 Hi Hl1 Hl2.
  assert (Hle : (length (cards_in e1) <= length (cards_in e2))%nat) by (apply NoDup_incl_length; [apply Hc1|assumption]).
  destruct (compare_hands p e1 e2 Hb1 Hb2 Hc1 Hc2) as (h1 & h2 & v1 & v2 & H1 & H2 & H3 & H4 & H5); [lia|lia|].
  exists h1, h2, v1, v2. repeat split; try assumption.
  pose proof (best_incl _ _ Hc1 Hc2 Hi) as H. unfold lle in H. rewrite <- H5 in H. exact H.
Qed.

(* C10 *)
Lemma small_hand_values : exists v0 v1 w,
  (h <- run Release EDefault ;; evaluate h) = Ret v0 /\
  (h <- run Release (EAdd EDefault (ECard 0)) ;; evaluate h) = Ret v1 /\
  (h <- run Release (add_all [0; 1; 2; 4; 5]) ;; evaluate h) = Ret w /\
  category_of [0; 1; 2; 4; 5] = 6 /\ w < v0 /\ w < v1.
Proof. exists 32773, 32773, 28673. vm_compute. repeat split; reflexivity. Qed.

(* deciding [cards] for the examples *)
Fixpoint nodupb (l : list N) : bool :=
  match l with [] => true | c :: l' => negb (existsb (N.eqb c) l') && nodupb l' end.
Definition cardsb (l : list N) : bool := nodupb l && forallb (fun c => c <? 52) l.
Lemma nodupb_ok l : nodupb l = true -> NoDup l.
Proof.
  induction l as [|c l IH]; cbn; intros H; [constructor|]. apply andb_prop in H as [H1 H2].
  constructor; [|auto]. intros Hin. apply negb_true_iff in H1. revert H1. apply not_false_iff_true.
  apply existsb_exists. exists c. split; [assumption|apply N.eqb_refl].
Qed.
Lemma cardsb_ok l : cardsb l = true -> cards l.
Proof.
  intros H. apply andb_prop in H as [H1 H2]. split; [apply nodupb_ok; assumption|].
  apply Forall_forall. intros c Hc. rewrite forallb_forall in H2. apply N.ltb_lt, H2, Hc.
Qed.
