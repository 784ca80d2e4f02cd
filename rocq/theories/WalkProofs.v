(* The random walk of approximate mode: whatever the random numbers, the walk always holds a
   possible deal, and a step leads to another one. *)
From Verif Require Import Base BaseProofs SumFacts Ghost Float64 Hand FastDivide Range Combined Sim Approx SpecPoker ListFacts
  HandProofs HandExprProofs SpecNames SpecHand SpecEquity SpecResults SpecRun SpecApprox EnumProofs ShowdownProofs BoardProofs CombinedProofs PositionProofs.
From Coq Require Import Permutation.
Local Open Scope N_scope.

#[local] Opaque NUM_HANDS.

(* ------------------------------------------------------------------------- *)
(** * Placing a combo *)

Definition sits (p : profile) (w : walk) (i : nat) (h : whand) : Prop :=
  (exists x, nth_error (w_hands w) i = Some x /\ hand_of 0 (two_cards h) x) /\
  nth_error (w_lookup w) i = Some (NUM_HANDS * i + idx p (first_card h) (second_card h))%nat /\
  nth_error (w_weights w) i = Some (weight h).
Definition same_seat (w w' : walk) (i : nat) : Prop :=
  nth_error (w_hands w') i = nth_error (w_hands w) i /\ nth_error (w_lookup w') i = nth_error (w_lookup w) i /\
  nth_error (w_weights w') i = nth_error (w_weights w) i.
Definition sized (w : walk) : Prop :=
  length (w_indexes w) = 9%nat /\ length (w_hands w) = 9%nat /\ length (w_weights w) = 9%nat /\ length (w_lookup w) = 9%nat.

Lemma same_trans a b c i : same_seat a b i -> same_seat b c i -> same_seat a c i.
Proof. unfold same_seat. intuition congruence. Qed.
Lemma same_refl w i : same_seat w w i. Proof. repeat split. Qed.
Lemma sits_same p w w' i h : sits p w i h -> same_seat w w' i -> sits p w' i h.
Proof. intros ((x & H1 & H2) & H3 & H4) (S1 & S2 & S3). split; [exists x; split; [congruence|exact H2]|]. split; congruence. Qed.

(* the combos of a combined range, in any order *)
Definition range_in (ranges : list (list whand)) (ps : list nat) (cr : crange) : Prop :=
  cr_player_count cr = length ps /\ firstn (length ps) (cr_players cr) = ps /\ length (cr_players cr) = 9%nat /\
  cr_size cr = N.of_nat (length (cr_combos cr)) /\
  Forall (fun c => exists hs, In hs (fairs ranges ps) /\ combo_is (length ps) hs c) (cr_combos cr).

Lemma firstn_snoc {A} (l : list A) k x : nth_error l k = Some x -> firstn (S k) l = firstn k l ++ [x].
Proof.
  revert k. induction l as [|y l IH]; intros [|k] H; cbn [nth_error] in H; try discriminate.
  - inversion H. reflexivity.
  - change (firstn (S (S k)) (y :: l)) with (y :: firstn (S k) l). rewrite (IH k H). reflexivity.
Qed.
Lemma nth_combine {A C} (l : list A) (l' : list C) k a b : nth_error l k = Some a -> nth_error l' k = Some b -> nth_error (combine l l') k = Some (a, b).
Proof. revert l' k. induction l as [|x l IH]; intros [|y l'] [|k] H1 H2; cbn [nth_error combine] in *; try discriminate; [congruence|]. apply IH; assumption. Qed.

Lemma Forall2_nth_intro {A C} (R : A -> C -> Prop) l l' : length l = length l' ->
  (forall i x y, nth_error l i = Some x -> nth_error l' i = Some y -> R x y) -> Forall2 R l l'.
Proof.
  revert l'. induction l as [|x l IH]; intros [|y l'] Hl H; cbn [length] in Hl; try discriminate; [constructor|]. constructor.
  - apply (H 0%nat); reflexivity.
  - apply IH; [lia|]. intros i a b Ha Hb. apply (H (S i)); assumption.
Qed.

Section Place.
  Variable p : profile.
  Variable ranges : list (list whand).

  Lemma place_combo_ok ps cr hs c w : range_in ranges ps cr -> combo_is (length ps) hs c -> Forall hole_hand hs ->
    Forall (fun i => (i < 9)%nat) ps -> NoDup ps -> (length ps <= 9)%nat -> sized w ->
    exists w', place_combo p cr c w = Ret w' /\ w_used w' = w_used w /\ w_indexes w' = w_indexes w /\ sized w' /\
      (forall i h, In (i, h) (combine ps hs) -> sits p w' i h) /\ (forall i, ~ In i ps -> same_seat w w' i).
  Proof.
    intros (Hc & Hp & Hl & _) (Hlh & Hh & Hlc & Hlch & _ & Hhands) Hhole H9 Hnd Hn9 Hsz. unfold place_combo. rewrite Hc.
    assert (H : forall k, (k <= length ps)%nat -> exists w', foldM (fun w j =>
        player_idx <- get (cr_players cr) j ;; h <- get (cc_hands c) j ;; hands <- upd (w_hands w) player_idx h ;;
        x <- get (cc_hole c) j ;; k <- get_card_index p (c_1 x) (c_2 x) ;;
        lookup <- upd (w_lookup w) player_idx (NUM_HANDS * player_idx + N.to_nat k)%nat ;;
        weights <- upd (w_weights w) player_idx (c_w x) ;;
        Ret {| w_used := w_used w; w_indexes := w_indexes w; w_hands := hands; w_weights := weights; w_lookup := lookup |}) (seq 0 k) w = Ret w' /\
      w_used w' = w_used w /\ w_indexes w' = w_indexes w /\ sized w' /\
      (forall i h, In (i, h) (firstn k (combine ps hs)) -> sits p w' i h) /\ (forall i, ~ In i (firstn k ps) -> same_seat w w' i)).
    { induction k as [|k IH]; intros Hk.
      - exists w. split; [reflexivity|]. split; [reflexivity|]. split; [reflexivity|]. split; [exact Hsz|]. split; [intros i h []|]. intros i _. apply same_refl.
      - destruct (IH ltac:(lia)) as (w1 & E & U & X & (Z1 & Z2 & Z3 & Z4) & Hs & Ho). clear IH.
        rewrite seq_S, foldM_app, E. cbn [bind foldM Nat.add]. clear E.
        destruct (nth_error ps k) as [i|] eqn:Ei; [|apply nth_error_None in Ei; lia].
        destruct (nth_error hs k) as [h|] eqn:Eh; [|apply nth_error_None in Eh; lia].
        assert (E1 : get (cr_players cr) k = Ret i).
        { apply get_ret. rewrite <- (nth_error_firstn (cr_players cr) (length ps)), Hp by lia. exact Ei. }
        assert (E2 : get (cc_hole c) k = Ret h).
        { apply get_ret. rewrite <- (nth_error_firstn (cc_hole c) (length ps)) by lia. transitivity (nth_error hs k); [|exact Eh].
          rewrite <- Hh. reflexivity. }
        destruct (Hhands k ltac:(lia)) as (x & Ex & Hx).
        assert (Ehold : holding hs k = h) by (unfold holding; apply nth_error_nth; exact Eh). rewrite Ehold in Hx.
        assert (Hi : (i < 9)%nat) by (rewrite Forall_forall in H9; apply H9; eapply nth_error_In; exact Ei).
        assert (Hhh : hole_hand h) by (rewrite Forall_forall in Hhole; apply Hhole; eapply nth_error_In; exact Eh).
        rewrite E1. cbn [bind]. rewrite Ex. cbn [bind]. rewrite upd_ok by lia. cbn [bind]. rewrite E2. cbn [bind].
        destruct (idx_spec p _ _ Hhh) as [Eidx _]. change (c_1 h) with (first_card h). change (c_2 h) with (second_card h). rewrite Eidx. cbn [bind].
        rewrite Nat2N.id. rewrite upd_ok by lia. cbn [bind]. rewrite upd_ok by lia. cbn [bind]. eexists. split; [reflexivity|].
        cbn [w_used w_indexes]. split; [exact U|]. split; [exact X|]. split.
        { unfold sized. cbn [w_indexes w_hands w_weights w_lookup]. rewrite !set_nth_length. auto. }
        assert (Hni : ~ In i (firstn k ps)).
        { intros Hin. rewrite <- (firstn_skipn (S k) ps), (firstn_snoc _ _ _ Ei), <- app_assoc in Hnd. cbn [app] in Hnd.
          apply NoDup_remove_2 in Hnd. apply Hnd. apply in_or_app. left. exact Hin. }
        split.
        + intros j g Hin. rewrite (firstn_snoc _ _ _ (nth_combine _ _ _ _ _ Ei Eh)) in Hin. apply in_app_or in Hin as [Hin|[Hin|[]]].
          * assert (Hne : i <> j).
            { intros ->. apply Hni. rewrite firstn_combine in Hin. apply in_combine_l in Hin. exact Hin. }
            eapply sits_same; [apply Hs; exact Hin|]. unfold same_seat. cbn [w_hands w_lookup w_weights]. rewrite !set_nth_other by exact Hne. auto.
          * inversion Hin; subst j g. unfold sits. cbn [w_hands w_lookup w_weights]. rewrite !set_nth_same by lia.
            split; [exists x; auto|]. split; reflexivity.
        + intros j Hj. rewrite (firstn_snoc _ _ _ Ei) in Hj. eapply same_trans; [apply Ho; intros Hin; apply Hj, in_or_app; left; exact Hin|].
          assert (Hne : i <> j) by (intros ->; apply Hj, in_or_app; right; left; reflexivity).
          unfold same_seat. cbn [w_hands w_lookup w_weights]. rewrite !set_nth_other by exact Hne. auto. }
    destruct (H (length ps) (le_n _)) as (w' & E & U & X & Z & Hs & Ho). exists w'. split; [exact E|]. split; [exact U|]. split; [exact X|]. split; [exact Z|].
    rewrite firstn_all in Ho. rewrite firstn_all2 in Hs by (rewrite combine_length; lia). split; [exact Hs|exact Ho].
  Qed.
End Place.

(* ------------------------------------------------------------------------- *)
(** * The deal a walk holds *)

Definition chosen (crs : list crange) (w : walk) (i : nat) (parts : list (list whand)) : Prop :=
  forall k cr hs, nth_error crs k = Some cr -> nth_error parts k = Some hs -> exists j c,
    nth_error (w_indexes w) (i + k) = Some j /\ nth_error (cr_combos cr) j = Some c /\ combo_is (length hs) hs c.

Section Walk.
  Variable p : profile.
  Variable ranges : list (list whand).
  Hypothesis Hok : Forall (Forall hole_hand) ranges.

  Lemma fairs_hole ps hs : In hs (fairs ranges ps) -> Forall hole_hand hs /\ length hs = length ps /\ distinct (dealt hs) = true.
  Proof.
    intros H. destruct (fair_ok ranges Hok ps hs H) as [H1 H2]. apply fair_In in H as [_ H3]. auto.
  Qed.

  Lemma deal_attempt_ok : forall pss crs i r w, Forall2 (range_in ranges) pss crs -> Forall (fun cr => 0 < cr_size cr) crs ->
    NoDup (concat pss) -> Forall (fun i => (i < 9)%nat) (concat pss) -> (length (concat pss) <= 9)%nat -> (i + length crs <= 9)%nat -> sized w ->
    exists ok r' w', deal_attempt p crs i r w = Ret (ok, r', w') /\ sized w' /\
      (forall j, ~ In j (concat pss) -> same_seat w w' j) /\
      (forall j, (j < i)%nat -> nth_error (w_indexes w') j = nth_error (w_indexes w) j) /\
      (ok = true -> exists parts, Forall2 (fun ps hs => In hs (fairs ranges ps)) pss parts /\ chosen crs w' i parts /\
        (forall k h, In (k, h) (combine (concat pss) (concat parts)) -> sits p w' k h) /\
        distinct (dealt (concat parts)) = true /\ clash (w_used w) (dealt (concat parts)) = false /\
        forall c, N.testbit (w_used w') c = N.testbit (w_used w) c || existsb (N.eqb c) (dealt (concat parts))).
  Proof.
    induction pss as [|ps pss IH]; intros crs i r w HF Hpos Hnd H9 Hl9 Hi Hsz; inversion HF as [|? cr ? crs' Hcr HF']; subst.
    - exists true, r, w. cbn [deal_attempt]. split; [reflexivity|]. split; [exact Hsz|]. split; [intros; apply same_refl|]. split; [reflexivity|].
      intros _. exists []. split; [constructor|]. split; [intros k cr hs Hk; destruct k; discriminate|]. cbn [concat combine dealt flat_map].
      split; [intros k h []|]. split; [reflexivity|]. split; [reflexivity|]. intros c. cbn [existsb]. rewrite orb_false_r. reflexivity.
    - inversion Hpos as [|? ? Hp0 Hpos']; subst. cbn [concat] in Hnd, H9, Hl9. apply Forall_app in H9 as [H9 H9'].
      pose proof (NoDup_app_l _ _ Hnd) as Hndp. pose proof (NoDup_app_r _ _ Hnd) as Hnd'. rewrite app_length in Hl9. cbn [length] in Hi.
      pose proof Hcr as (_ & _ & _ & Hsize & Hcombos).
      cbn [deal_attempt sample]. destruct Hsz as (Z1 & Z2 & Z3 & Z4). rewrite upd_ok by lia. cbn [bind].
      set (x := N.to_nat (draws r (drawn r) mod cr_size cr)).
      assert (Hx : (x < length (cr_combos cr))%nat).
      { unfold x. assert (draws r (drawn r) mod cr_size cr < cr_size cr) by (apply N.mod_lt; lia). lia. }
      destruct (nth_error (cr_combos cr) x) as [c|] eqn:Ec; [|apply nth_error_None in Ec; lia].
      rewrite (proj2 (get_ret _ _ _) Ec). cbn [bind].
      assert (Hex : exists hs, In hs (fairs ranges ps) /\ combo_is (length ps) hs c).
      { rewrite Forall_forall in Hcombos. apply Hcombos. eapply nth_error_In. exact Ec. }
      destruct Hex as (hs & Hhs & Hc). pose proof Hc as (Hlh & _ & _ & _ & Hmask & _). destruct (fairs_hole ps hs Hhs) as (Hhole & _ & Hdist).
      set (w1 := with_indexes w (set_nth (w_indexes w) i x)).
      assert (Hsz1 : sized w1) by (unfold w1, sized; cbn [with_indexes w_indexes w_hands w_weights w_lookup]; rewrite set_nth_length; auto).
      change (w_used w1) with (w_used w). rewrite (clash_land _ _ _ Hmask), negb_involutive.
      destruct (clash (w_used w) (dealt hs)) eqn:Ecl.
      { eexists false, _, w1. split; [reflexivity|]. split; [exact Hsz1|]. split; [intros j _; repeat split|]. split; [|discriminate].
        intros j Hj. unfold w1. cbn [with_indexes w_indexes]. apply set_nth_other. lia. }
      destruct (place_combo_ok p ranges ps cr hs c w1 Hcr Hc Hhole H9 Hndp ltac:(lia) Hsz1) as (w2 & Ep & U2 & X2 & Z2' & Hs2 & Ho2).
      rewrite Ep. cbn [bind]. set (w3 := with_used w2 (N.lor (w_used w2) (cc_mask c))).
      assert (Hsz3 : sized w3) by exact Z2'.
      destruct (IH crs' (S i) {| draws := draws r; drawn := N.succ (drawn r) |} w3 HF' Hpos' Hnd' H9' ltac:(lia) ltac:(lia) Hsz3)
        as (ok & r' & w' & E & Z & Ho & Hidx & Hres). clear IH.
      exists ok, r', w'. split; [exact E|]. split; [exact Z|]. split; [|split].
      + intros j Hj. cbn [concat] in Hj. eapply same_trans; [|apply Ho; intros Hin; apply Hj, in_or_app; right; exact Hin].
        apply (same_trans w w1 w3 j); [repeat split|]. apply (Ho2 j). intros Hin. apply Hj, in_or_app. left. exact Hin.
      + intros j Hj. rewrite Hidx by lia. unfold w3. cbn [with_used w_indexes]. rewrite X2. unfold w1. cbn [with_indexes w_indexes]. apply set_nth_other. lia.
      + intros Hokk. destruct (Hres Hokk) as (parts & P1 & P2 & P3 & P4 & P5 & P6). clear Hres.
        assert (Hu3 : w_used w3 = N.lor (w_used w) (cc_mask c)) by (unfold w3; cbn [with_used w_used]; rewrite U2; reflexivity).
        rewrite Hu3 in P5, P6. rewrite (clash_lor _ _ _ _ Hmask) in P5. apply orb_false_iff in P5 as [P5 Psh].
        exists (hs :: parts). split; [constructor; assumption|]. split; [|split; [|split; [|split]]].
        * intros [|k] cr1 hs1 E1 E2; cbn [nth_error] in E1, E2.
          -- inversion E1; inversion E2; subst cr1 hs1. exists x, c. split; [|split; [exact Ec|rewrite Hlh; exact Hc]].
             rewrite Nat.add_0_r, Hidx by lia. unfold w3. cbn [with_used w_indexes]. rewrite X2. unfold w1. cbn [with_indexes w_indexes]. apply set_nth_same. lia.
          -- destruct (P2 k cr1 hs1 E1 E2) as (j & c1 & Hj & Hr). exists j, c1. rewrite Nat.add_succ_r. split; [exact Hj|exact Hr].
        * intros k h Hin. cbn [concat] in Hin. rewrite combine_app in Hin by (symmetry; exact Hlh). apply in_app_or in Hin as [Hin|Hin]; [|apply P3; exact Hin].
          eapply sits_same; [apply Hs2; exact Hin|]. apply (same_trans w2 w3 w'); [repeat split|]. apply Ho. intros Hin'.
          apply in_combine_l in Hin. exact (NoDup_app_disj _ _ _ Hnd Hin Hin').
        * cbn [concat]. rewrite dealt_app, distinct_app, Hdist, P4, Psh. reflexivity.
        * cbn [concat]. rewrite dealt_app, clash_app, Ecl, P5. reflexivity.
        * intros c0. rewrite P6, N.lor_spec, Hmask. cbn [concat]. rewrite dealt_app, existsb_app, orb_assoc. reflexivity.
  Qed.
End Walk.

(* ------------------------------------------------------------------------- *)
(** * Stepping through the combos of one combined range *)

(* k steps down from index j, wrapping *)
Definition down (size j k : nat) : nat := if (k <=? j)%nat then (j - k)%nat else (j + size - k)%nat.

Lemma next_combo_ok cr used : cr_size cr = N.of_nat (length (cr_combos cr)) -> forall k fuel j,
  (1 <= k <= length (cr_combos cr))%nat -> (k <= fuel)%nat -> (j < length (cr_combos cr))%nat ->
  (exists c, nth_error (cr_combos cr) (down (length (cr_combos cr)) j k) = Some c /\ N.land (cc_mask c) used = 0) ->
  exists k' c, (1 <= k' <= k)%nat /\ next_combo fuel cr used j = Ret (down (length (cr_combos cr)) j k') /\
    nth_error (cr_combos cr) (down (length (cr_combos cr)) j k') = Some c /\ N.land (cc_mask c) used = 0 /\
    forall i c', (1 <= i < k')%nat -> nth_error (cr_combos cr) (down (length (cr_combos cr)) j i) = Some c' -> N.land (cc_mask c') used <> 0.
Proof.
  intros Hs. induction k as [|k IH]; intros fuel j Hk Hf Hj (c & Hc & Hl); [lia|]. destruct fuel as [|fuel]; [lia|]. cbn [next_combo].
  set (sz := length (cr_combos cr)) in *. rewrite Hs, Nat2N.id.
  assert (Hj1 : ((if (j =? 0)%nat then sz else j) - 1 = down sz j 1)%nat).
  { unfold down. destruct (Nat.eqb_spec j 0), (Nat.leb_spec 1 j); lia. }
  rewrite Hj1. assert (Hlt : (down sz j 1 < sz)%nat) by (unfold down; destruct (Nat.leb_spec 1 j); lia).
  destruct (nth_error (cr_combos cr) (down sz j 1)) as [c1|] eqn:E1; [|apply nth_error_None in E1; fold sz in E1; lia].
  rewrite (proj2 (get_ret _ _ _) E1). cbn [bind].
  destruct (N.eqb_spec (N.land (cc_mask c1) used) 0) as [E|E].
  - exists 1%nat, c1. split; [lia|]. split; [reflexivity|]. split; [exact E1|]. split; [exact E|]. intros i c' Hi. lia.
  - assert (Hk0 : k <> 0%nat).
    { intros ->. rewrite E1 in Hc. inversion Hc; subst. contradiction. }
    assert (Hd : forall i, (1 <= i)%nat -> (S i <= sz)%nat -> down sz (down sz j 1) i = down sz j (S i)).
    { intros i Hi1 Hi2. unfold down. destruct (Nat.leb_spec 1 j), (Nat.leb_spec (S i) j); repeat match goal with |- context [(?a <=? ?b)%nat] => destruct (Nat.leb_spec a b) end; lia. }
    destruct (IH fuel (down sz j 1)) as (k' & c2 & K1 & K2 & K3 & K4 & K5); [lia|lia|exact Hlt|exists c; rewrite Hd by lia; auto|].
    exists (S k'), c2. rewrite <- (Hd k') by lia. split; [lia|]. split; [exact K2|]. split; [exact K3|]. split; [exact K4|].
    intros i c' Hi Hc'. destruct (Nat.eq_dec i 1) as [->|Hne]; [rewrite E1 in Hc'; inversion Hc'; subst; exact E|].
    apply (K5 (i - 1)%nat); [lia|]. rewrite Hd by lia. replace (S (i - 1)) with i by lia. exact Hc'.
Qed.

Section PartFacts.
  Variable ranges : list (list whand).
  Hypothesis Hok : Forall (Forall hole_hand) ranges.
  Lemma parts_len pss parts : Forall2 (fun ps hs => In hs (fairs ranges ps)) pss parts -> length (concat pss) = length (concat parts).
  Proof.
    induction 1 as [|ps hs pss' parts' H _ IH]; [reflexivity|]. cbn [concat]. rewrite !app_length, IH. f_equal.
    destruct (fairs_hole ranges Hok ps hs H) as (_ & H1 & _). congruence.
  Qed.
  Lemma parts_hole pss parts : Forall2 (fun ps hs => In hs (fairs ranges ps)) pss parts -> Forall hole_hand (concat parts).
  Proof.
    induction 1 as [|ps hs pss' parts' H _ IH]; [constructor|]. cbn [concat]. apply Forall_app. split; [|exact IH].
    apply (fairs_hole ranges Hok ps hs H).
  Qed.
  Lemma parts_pair pss parts i h : Forall2 (fun ps hs => In hs (fairs ranges ps)) pss parts -> In (i, h) (combine (concat pss) (concat parts)) -> In h (range_of ranges i).
  Proof.
    induction 1 as [|ps hs pss' parts' H _ IH]; [intros []|]. cbn [concat].
    destruct (fairs_hole ranges Hok ps hs H) as (_ & H1 & _). rewrite combine_app by congruence. intros Hin.
    apply in_app_or in Hin as [Hin|Hin]; [|apply IH; exact Hin]. apply fair_In in H as [H _]. clear - H Hin. revert hs H Hin.
    induction ps as [|j ps IH]; intros hs H Hin; [destruct hs; contradiction|]. cbn [map] in H. inversion H; subst. cbn [combine] in Hin.
    destruct Hin as [E|Hin]; [inversion E; subst; assumption|]. eapply IH; eassumption.
  Qed.
End PartFacts.

Section Deal.
  Variable p : profile.
  Variable ranges : list (list whand).
  Variable pss : list (list nat).
  Variable crs : list crange.
  Variable board dead : N.
  Variable m : simulator.
  Hypothesis Hok : Forall (Forall hole_hand) ranges.
  Hypothesis Hn9 : (length ranges <= 9)%nat.
  Hypothesis HP : Permutation (concat pss) (seq 0 (length ranges)).
  Hypothesis HF : Forall2 (range_in ranges) pss crs.
  Hypothesis Hpos : Forall (fun cr => 0 < cr_size cr) crs.
  Hypothesis Hl9 : (length crs <= 9)%nat.
  Hypothesis Hm1 : m_combined m = crs.
  Hypothesis Hm2 : m_board_mask m = board.
  Hypothesis Hm3 : m_dead_mask m = dead.

  (* the seats without a player keep weight 1 *)
  Definition idle (w : walk) : Prop := sized w /\ forall i, (length ranges <= i < 9)%nat -> nth_error (w_weights w) i = Some 1.

  Record holds_deal (w : walk) (parts : list (list whand)) : Prop := mkHolds {
    hd_idle : idle w;
    hd_parts : Forall2 (fun ps hs => In hs (fairs ranges ps)) pss parts;
    hd_chosen : chosen crs w 0 parts;
    hd_sits : forall i h, In (i, h) (combine (concat pss) (concat parts)) -> sits p w i h;
    hd_distinct : distinct (dealt (concat parts)) = true;
    hd_free : clash (N.lor board dead) (dealt (concat parts)) = false;
    hd_used : forall c, N.testbit (w_used w) c = N.testbit (N.lor board dead) c || existsb (N.eqb c) (dealt (concat parts)) }.

  Lemma wk_nodup : NoDup (concat pss).
  Proof. eapply Permutation_NoDup; [symmetry; exact HP|apply seq_NoDup]. Qed.
  Lemma wk_keys : Forall (fun i => (i < 9)%nat) (concat pss).
  Proof. rewrite Forall_forall. intros i Hi. apply (Permutation_in _ HP) in Hi. apply in_seq in Hi. lia. Qed.
  Lemma wk_length : (length (concat pss) <= 9)%nat.
  Proof. rewrite (Permutation_length HP), seq_length. exact Hn9. Qed.

  Lemma idle_same w w' : idle w -> sized w' -> (forall j, ~ In j (concat pss) -> same_seat w w' j) -> idle w'.
  Proof.
    intros [_ H] Hs Ho. split; [exact Hs|]. intros i Hi. destruct (Ho i) as (_ & _ & E).
    - intros Hin. apply (Permutation_in _ HP) in Hin. apply in_seq in Hin. lia.
    - rewrite E. apply H. exact Hi.
  Qed.
  Lemma idle_init : idle walk_init.
  Proof. split; [repeat split|]. intros i Hi. cbn [walk_init w_weights]. do 9 (destruct i as [|i]; [reflexivity|]). lia. Qed.

  Lemma deal_attempts_ok tries : forall r w, idle w -> exists ok r' w', deal_attempts p m tries r w = Ret (ok, r', w') /\ idle w' /\
    (ok = true -> exists parts, holds_deal w' parts).
  Proof.
    induction tries as [|tries IH]; intros r w Hw; cbn [deal_attempts].
    - exists false, r, w. split; [reflexivity|]. split; [exact Hw|discriminate].
    - rewrite Hm1, Hm2, Hm3.
      assert (Hw1 : idle (with_used w (N.lor board dead))) by exact Hw.
      destruct (deal_attempt_ok p ranges Hok pss crs 0 r (with_used w (N.lor board dead)) HF Hpos wk_nodup wk_keys wk_length ltac:(lia) (proj1 Hw1))
        as (ok & r' & w' & E & Z & Ho & _ & Hres). rewrite E. cbn [bind].
      assert (Hi' : idle w') by (eapply idle_same; [exact Hw1|exact Z|exact Ho]).
      destruct ok.
      + exists true, r', w'. split; [reflexivity|]. split; [exact Hi'|]. intros _. destruct (Hres eq_refl) as (parts & P1 & P2 & P3 & P4 & P5 & P6).
        exists parts. constructor; assumption.
      + apply IH. exact Hi'.
  Qed.

  (* the deal given by a choice of combos *)
  Definition deal_of (parts : list (list whand)) : list whand := assemble (length ranges) (combine (concat pss) (concat parts)).
  Section Parts.
    Variable parts : list (list whand).
    Hypothesis Hparts : Forall2 (fun ps hs => In hs (fairs ranges ps)) pss parts.

    Lemma parts_length : length (concat pss) = length (concat parts).
    Proof. exact (parts_len ranges Hok pss parts Hparts). Qed.
    Lemma keys_of : map fst (combine (concat pss) (concat parts)) = concat pss.
    Proof. apply combine_fst, parts_length. Qed.
    Lemma deal_of_length : length (deal_of parts) = length ranges.
    Proof. unfold deal_of, assemble. rewrite map_length, seq_length. reflexivity. Qed.
    Lemma seat_pair i : (i < length ranges)%nat -> In (i, holding (deal_of parts) i) (combine (concat pss) (concat parts)).
    Proof.
      intros Hi. destruct (combine_key (concat pss) (concat parts) i parts_length) as (h & Hh).
      { eapply Permutation_in; [symmetry; exact HP|]. apply in_seq. lia. }
      assert (E : holding (deal_of parts) i = h).
      { unfold holding, deal_of, assemble. rewrite (nth_indep _ _ (seat (combine (concat pss) (concat parts)) 0)).
        - rewrite map_nth, seq_nth by exact Hi. apply seat_in; [rewrite keys_of; exact wk_nodup|exact Hh].
        - rewrite map_length, seq_length. exact Hi. }
      rewrite E. exact Hh.
    Qed.
    Lemma deal_of_perm : Permutation (deal_of parts) (concat parts).
    Proof.
      set (l := combine (concat pss) (concat parts)).
      assert (Hs : map snd l = concat parts) by (apply combine_snd, parts_length).
      unfold deal_of, assemble. fold l. rewrite <- Hs.
      transitivity (map (seat l) (map fst l)); [apply Permutation_map; unfold l; rewrite keys_of; symmetry; exact HP|].
      rewrite map_map. assert (E : map (fun z => seat l (fst z)) l = map snd l); [|rewrite E; reflexivity].
      apply map_ext_in. intros [k h] Hz. cbn [fst snd]. apply seat_in; [|exact Hz]. unfold l. rewrite keys_of. exact wk_nodup.
    Qed.
    Lemma pair_in_range i h : In (i, h) (combine (concat pss) (concat parts)) -> In h (range_of ranges i).
    Proof. exact (parts_pair ranges Hok pss parts i h Hparts). Qed.
    Lemma deal_of_hole : Forall hole_hand (deal_of parts).
    Proof.
      rewrite Forall_forall. intros h Hh. apply (Permutation_in _ deal_of_perm) in Hh. revert h Hh. rewrite <- Forall_forall.
      exact (parts_hole ranges Hok pss parts Hparts).
    Qed.
    Lemma deal_of_in : distinct (dealt (concat parts)) = true -> clash (N.lor board dead) (dealt (concat parts)) = false ->
      In (deal_of parts) (deals ranges board dead).
    Proof.
      intros Hd Hc. unfold deals. apply filter_In. split.
      - apply picks_in. apply Forall2_nth_intro.
        + apply deal_of_length.
        + intros i h r Hh Hr. rewrite <- (nth_error_nth _ _ (0, 0, 0) Hh). change (nth i (deal_of parts) (0, 0, 0)) with (holding (deal_of parts) i).
          assert (Hi : (i < length ranges)%nat) by (apply nth_error_Some; congruence).
          pose proof (pair_in_range _ _ (seat_pair i Hi)) as Hin. unfold range_of in Hin. rewrite (nth_error_nth _ _ [] Hr) in Hin. exact Hin.
      - rewrite (possible_perm board dead _ _ deal_of_perm). unfold possible. rewrite Hd. cbn [andb].
        revert Hc. generalize (dealt (concat parts)). clear. induction l as [|c l IH]; [reflexivity|]. unfold clash in *. cbn [existsb forallb].
        rewrite N.lor_spec. intros H. apply orb_false_iff in H as [H1 H2]. rewrite IH by exact H2. unfold on_table. rewrite H1. reflexivity.
    Qed.
  End Parts.

  (* ----------------------------------------------------------------------- *)
  (** ** One step *)

  Lemma down_mod sz j k : (j < sz)%nat -> (1 <= k <= sz)%nat -> ((j + sz - k) mod sz = down sz j k)%nat.
  Proof.
    intros Hj Hk. unfold down. destruct (Nat.leb_spec k j) as [H|H]; [|apply Nat.mod_small; lia].
    replace (j + sz - k)%nat with (j - k + 1 * sz)%nat by lia. rewrite Nat.mod_add by lia. apply Nat.mod_small. lia.
  Qed.
  Lemma walk_step_ok r w parts : holds_deal w parts -> (0 < length crs)%nat -> exists r' w' i parts',
    walk_step p m r w = Ret (r', w') /\ holds_deal w' parts' /\ steps_down m w w' i /\
    (forall i', i' <> i -> nth_error parts' i' = nth_error parts i') /\
    i = N.to_nat (draws r (drawn r) mod N.of_nat (length crs)) /\ r' = {| draws := draws r; drawn := N.succ (drawn r) |}.
  Proof.
    intros [Hi H1 H2 H3 H4 H5 H6] Hlen. unfold walk_step, sample. rewrite Hm1.
    set (i := N.to_nat (draws r (drawn r) mod N.of_nat (length crs))).
    assert (Hil : (i < length crs)%nat).
    { unfold i. assert (draws r (drawn r) mod N.of_nat (length crs) < N.of_nat (length crs)) by (apply N.mod_lt; lia). lia. }
    clearbody i. destruct (nth_error crs i) as [cr|] eqn:Ecr; [|apply nth_error_None in Ecr; lia].
    rewrite (proj2 (get_ret _ _ _) Ecr). cbn [bind].
    destruct (nth_error_split crs i Ecr) as (C1 & C2 & EC & LC).
    assert (HFs := HF). rewrite EC in HFs. apply Forall2_app_inv_r in HFs as (Q1 & Q2' & HQ1 & HQ2 & EQ). inversion HQ2 as [|ps ? Q2 ? Hcr HQ2']; subst Q2'. subst i.
    rewrite EQ in H1, H3. apply Forall2_app_inv_l in H1 as (P1 & P2' & HP1 & HP2 & EP). inversion HP2 as [|? hs ? P2 Hhs HP2']; subst P2'. subst parts. clear HQ2 HP2.
    assert (LP : length P1 = length C1) by (rewrite <- (CombinedProofs.Forall2_length _ _ _ HP1); apply (CombinedProofs.Forall2_length _ _ _ HQ1)).
    assert (Ehs : nth_error (P1 ++ hs :: P2) (length C1) = Some hs) by (rewrite <- LP, nth_error_app2, Nat.sub_diag by lia; reflexivity).
    destruct (H2 _ cr hs Ecr Ehs) as (j & c & Hj & Hc & Hci). cbn [Nat.add] in Hj.
    rewrite (proj2 (get_ret _ _ _) Hj). cbn [bind]. rewrite (proj2 (get_ret _ _ _) Hc). cbn [bind].
    pose proof Hci as (_ & _ & _ & _ & Hmask & _).
    (* the mask without the hands of this range *)
    assert (Hsub : N.ldiff (cc_mask c) (w_used w) = 0).
    { apply N.bits_inj. intros b. rewrite N.ldiff_spec, H6, Hmask, N.bits_0. rewrite concat_app, dealt_app, existsb_app. cbn [concat].
      rewrite dealt_app, existsb_app. destruct (existsb (N.eqb b) (dealt hs)), (N.testbit (N.lor board dead) b), (existsb (N.eqb b) (dealt (concat P1))); reflexivity. }
    rewrite sub_ok by (apply N.ldiff_le; exact Hsub). cbn [bind]. rewrite (N.sub_nocarry_ldiff _ _ Hsub).
    set (used := N.ldiff (w_used w) (cc_mask c)).
    rewrite concat_app, dealt_app, distinct_app in H4. cbn [concat] in H4. rewrite dealt_app, distinct_app in H4.
    rewrite concat_app, dealt_app, clash_app in H5. cbn [concat] in H5. rewrite dealt_app, clash_app in H5.
    apply orb_false_iff in H5 as [H5a H5b]. apply orb_false_iff in H5b as [H5b H5c].
    apply andb_true_iff in H4 as [H4 H4s]. apply andb_true_iff in H4 as [H4a H4]. apply andb_true_iff in H4 as [H4 H4t]. apply andb_true_iff in H4 as [H4b H4c].
    assert (Hshare : forall l l', shares l l' = false <-> forall b, In b l -> ~ In b l').
    { clear. intros l l'. unfold shares. rewrite <- not_true_iff_false, existsb_exists. split.
      - intros H b Hb Hb'. apply H. exists b. split; [exact Hb|]. apply existsb_eqb_In. exact Hb'.
      - intros H (b & Hb & Hb'). apply existsb_eqb_In in Hb'. exact (H b Hb Hb'). }
    apply negb_true_iff in H4s, H4t. assert (H4u : shares (dealt (concat P1)) (dealt hs) = false).
    { apply Hshare. intros b Hb Hb'. rewrite Hshare in H4s. apply (H4s b Hb). apply in_or_app. left. exact Hb'. }
    assert (H4v : shares (dealt (concat P1)) (dealt (concat P2)) = false).
    { apply Hshare. intros b Hb Hb'. rewrite Hshare in H4s. apply (H4s b Hb). apply in_or_app. right. exact Hb'. }
    assert (Hclash : forall u l, clash u l = false <-> forall b, In b l -> N.testbit u b = false).
    { clear. intros u l. unfold clash. rewrite <- not_true_iff_false, existsb_exists. split.
      - intros H b Hb. apply not_true_is_false. intros Ht. apply H. eauto.
      - intros H (b & Hb & Ht). rewrite (H b Hb) in Ht. discriminate. }
    assert (Hused : forall b, N.testbit used b = N.testbit (N.lor board dead) b || existsb (N.eqb b) (dealt (concat (P1 ++ P2)))).
    { intros b. unfold used. rewrite N.ldiff_spec, H6, Hmask. rewrite !concat_app. cbn [concat]. rewrite !dealt_app, !existsb_app.
      destruct (existsb (N.eqb b) (dealt hs)) eqn:Eb; cbn [negb orb]; [|rewrite andb_true_r; reflexivity]. rewrite andb_false_r.
      apply existsb_eqb_In in Eb. rewrite (proj1 (Hclash _ _) H5b b Eb). cbn [orb].
      destruct (existsb (N.eqb b) (dealt (concat P1))) eqn:E1.
      { exfalso. apply existsb_eqb_In in E1. rewrite Hshare in H4u. exact (H4u b E1 Eb). }
      destruct (existsb (N.eqb b) (dealt (concat P2))) eqn:E2; [|reflexivity].
      exfalso. apply existsb_eqb_In in E2. rewrite Hshare in H4t. exact (H4t b Eb E2). }
    assert (Hfree : forall l mk, mask_is mk l -> (N.land mk used = 0 <-> clash used l = false)).
    { intros lc mk Hmk. rewrite N.land_comm, <- N.eqb_eq, (clash_land _ _ _ Hmk). destruct (clash used lc); split; cbn [negb]; congruence. }
    assert (Hself : N.land (cc_mask c) used = 0).
    { apply (Hfree _ _ Hmask). apply Hclash. intros b Hb. unfold used. rewrite N.ldiff_spec, Hmask. rewrite (proj2 (existsb_eqb_In b (dealt hs)) Hb). apply andb_false_r. }
    pose proof Hcr as (_ & _ & _ & Hsize & Hcombos). set (sz := length (cr_combos cr)) in *.
    assert (Hjs : (j < sz)%nat) by (unfold sz; apply nth_error_Some; congruence).
    destruct (next_combo_ok cr used Hsize sz (S sz) j) as (k & c' & K1 & K2 & K3 & K4 & K5); [fold sz; lia|lia|exact Hjs| |].
    { exists c. fold sz. split; [|exact Hself]. rewrite <- Hc. f_equal. unfold down. destruct (Nat.leb_spec sz j); lia. }
    fold sz in K1, K2, K3, K5.
    set (j' := down sz j k) in *. rewrite K2. cbn [bind]. rewrite (proj2 (get_ret _ _ _) K3). cbn [bind].
    assert (Hex : exists hs', In hs' (fairs ranges ps) /\ combo_is (length ps) hs' c').
    { rewrite Forall_forall in Hcombos. apply Hcombos. eapply nth_error_In. exact K3. }
    destruct Hex as (hs' & Hhs' & Hc'). pose proof Hc' as (Hlh' & _ & _ & _ & Hmask' & _). destruct (fairs_hole ranges Hok ps hs' Hhs') as (Hhole' & _ & Hdist').
    pose proof wk_nodup as Hnd. pose proof wk_keys as Hkeys. pose proof wk_length as Hkl.
    rewrite EQ, concat_app in Hnd, Hkeys, Hkl. cbn [concat] in Hnd, Hkeys, Hkl. rewrite !app_length in Hkl. apply Forall_app in Hkeys as [_ Hkeys]. apply Forall_app in Hkeys as [Hkeys _].
    pose proof (NoDup_app_l _ _ (NoDup_app_r _ _ Hnd)) as Hndp.
    set (w1 := with_used w (N.lor used (cc_mask c'))).
    assert (Hsz1 : sized w1) by exact (proj1 Hi).
    destruct (place_combo_ok p ranges ps cr hs' c' w1 Hcr Hc' Hhole' Hkeys Hndp ltac:(lia) Hsz1) as (w2 & Ep & U2 & X2 & Z2 & Hs2 & Ho2).
    rewrite Ep. cbn [bind]. assert (Hil9 : (length C1 < length (w_indexes w2))%nat) by (rewrite (proj1 Z2); lia).
    rewrite upd_ok by exact Hil9. cbn [bind].
    assert (Hnc : clash used (dealt hs') = false) by (apply (Hfree _ _ Hmask'); exact K4).
    assert (Hnc2 : forall b, In b (dealt hs') -> N.testbit (N.lor board dead) b = false /\ ~ In b (dealt (concat P1)) /\ ~ In b (dealt (concat P2))).
    { intros b Hb. pose proof (proj1 (Hclash _ _) Hnc b Hb) as Hf. rewrite Hused, concat_app, dealt_app, existsb_app in Hf.
      apply orb_false_iff in Hf as [Hf1 Hf]. apply orb_false_iff in Hf as [Hf2 Hf3]. split; [exact Hf1|].
      split; intros Hin; apply existsb_eqb_In in Hin; congruence. }
    assert (Hlp : length ps = length hs) by (symmetry; apply (fairs_hole ranges Hok ps hs Hhs)).
    assert (LQ : length (concat Q1) = length (concat P1)).
    { exact (parts_len ranges Hok _ _ HP1). }
    eexists _, (with_indexes w2 (set_nth (w_indexes w2) (length C1) j')), (length C1), (P1 ++ hs' :: P2).
    split; [reflexivity|]. split; [|split; [|split; [|split; reflexivity]]].
    - constructor.
      + split.
        * unfold sized. cbn [with_indexes w_indexes w_hands w_weights w_lookup]. rewrite set_nth_length. exact Z2.
        * intros b Hb. cbn [with_indexes w_weights]. destruct (Ho2 b) as (_ & _ & E).
          { intros Hin. assert (Hin2 : In b (concat (Q1 ++ ps :: Q2))) by (rewrite concat_app; apply in_or_app; right; cbn [concat]; apply in_or_app; left; exact Hin).
            rewrite <- EQ in Hin2. apply (Permutation_in _ HP) in Hin2. apply in_seq in Hin2. lia. }
          rewrite E. apply (proj2 Hi). exact Hb.
      + rewrite EQ. apply Forall2_app; [exact HP1|]. constructor; assumption.
      + intros b cr1 hs1 E1 E2. cbn [Nat.add with_indexes w_indexes]. destruct (Nat.eq_dec (length C1) b) as [<-|Hne].
        * rewrite set_nth_same by exact Hil9. rewrite Ecr in E1. inversion E1; subst cr1.
          rewrite <- LP, nth_error_app2, Nat.sub_diag in E2 by lia. cbn [nth_error] in E2. inversion E2; subst hs1.
          exists j', c'. split; [reflexivity|]. split; [exact K3|]. rewrite Hlh'. exact Hc'.
        * rewrite set_nth_other by exact Hne. rewrite X2. unfold w1. cbn [with_used w_indexes]. apply (H2 b cr1 hs1 E1).
          rewrite <- E2. clear - LP Hne. destruct (Nat.ltb_spec b (length P1)) as [Hb|Hb]; [rewrite !nth_error_app1 by exact Hb; reflexivity|].
          rewrite !nth_error_app2 by exact Hb. destruct (b - length P1)%nat eqn:E; [lia|reflexivity].
      + assert (Hseat : forall b h, In (b, h) (combine (concat Q1) (concat P1)) \/ In (b, h) (combine (concat Q2) (concat P2)) -> ~ In b ps -> sits p w2 b h).
        { intros b h Hin Hnb. eapply sits_same; [|apply (same_trans w w1 w2 b); [repeat split|apply Ho2; exact Hnb]]. apply H3.
          rewrite !concat_app. cbn [concat]. rewrite combine_app by exact LQ. rewrite combine_app by exact Hlp. apply in_or_app. destruct Hin as [Hin|Hin]; [left; exact Hin|].
          right. apply in_or_app. right. exact Hin. }
        intros b h Hin. change (sits p w2 b h). rewrite EQ, !concat_app in Hin. cbn [concat] in Hin. rewrite combine_app in Hin by exact LQ.
        rewrite combine_app in Hin by (symmetry; exact Hlh').
        apply in_app_or in Hin as [Hin|Hin]; [|apply in_app_or in Hin as [Hin|Hin]; [apply Hs2; exact Hin|]].
        * apply Hseat; [left; exact Hin|]. apply in_combine_l in Hin. intros Hb. apply (NoDup_app_disj _ _ b Hnd Hin). apply in_or_app. left. exact Hb.
        * apply Hseat; [right; exact Hin|]. apply in_combine_l in Hin. intros Hb. exact (NoDup_app_disj _ _ b (NoDup_app_r _ _ Hnd) Hb Hin).
      + rewrite concat_app, dealt_app, distinct_app. cbn [concat]. rewrite dealt_app, distinct_app, H4a, Hdist', H4c. cbn [andb].
        replace (shares (dealt hs') (dealt (concat P2))) with false by (symmetry; apply Hshare; intros b Hb; apply Hnc2; exact Hb). cbn [negb andb].
        apply negb_true_iff, Hshare. intros b Hb Hb'. apply in_app_or in Hb' as [Hb'|Hb'].
        * destruct (Hnc2 b Hb') as (_ & Hq & _). contradiction.
        * rewrite Hshare in H4v. exact (H4v b Hb Hb').
      + rewrite concat_app, dealt_app, clash_app. cbn [concat]. rewrite dealt_app, clash_app, H5a, H5c, orb_false_r. cbn [orb].
        apply Hclash. intros b Hb. apply Hnc2. exact Hb.
      + intros b. cbn [with_indexes w_used]. rewrite U2. unfold w1. cbn [with_used w_used]. rewrite N.lor_spec, Hused, Hmask'. rewrite !concat_app. cbn [concat].
        rewrite !dealt_app, !existsb_app.
        destruct (N.testbit (N.lor board dead) b), (existsb (N.eqb b) (dealt hs')), (existsb (N.eqb b) (dealt (concat P1))), (existsb (N.eqb b) (dealt (concat P2))); reflexivity.
    - exists cr, j, c, k, c'. rewrite Hm1. split; [exact Ecr|]. split; [exact Hj|]. split; [exact Hc|]. split; [exact Hsub|]. cbv zeta. fold sz. fold used.
      split; [exact K1|]. rewrite (down_mod sz j k Hjs K1). fold j'.
      split; [|split; [exact K3|split; [exact K4|split; [|split]]]].
      + intros k' Hk'. rewrite (down_mod sz j k' Hjs) by lia. assert (Hlt : (down sz j k' < sz)%nat) by (unfold down; destruct (Nat.leb_spec k' j); lia).
        destruct (nth_error (cr_combos cr) (down sz j k')) as [c1|] eqn:E1; [|apply nth_error_None in E1; fold sz in E1; lia].
        exists c1. split; [reflexivity|]. exact (K5 k' c1 Hk' E1).
      + cbn [with_indexes w_indexes]. apply set_nth_same. exact Hil9.
      + cbn [with_indexes w_used]. rewrite U2. reflexivity.
      + intros b Hb. cbn [with_indexes w_indexes]. rewrite set_nth_other by (intros E; apply Hb; symmetry; exact E). rewrite X2. reflexivity.
    - intros b Hb. clear - LP Hb. destruct (Nat.ltb_spec b (length P1)) as [Hlt|Hlt]; [rewrite !nth_error_app1 by exact Hlt; reflexivity|].
      rewrite !nth_error_app2 by exact Hlt. destruct (b - length P1)%nat eqn:E; [lia|reflexivity].
  Qed.

  (* the used cards are exactly those of the table and of the chosen combos *)
  Lemma dealt_concat_in b parts : existsb (N.eqb b) (dealt (concat parts)) = true <-> exists i hs, nth_error parts i = Some hs /\ existsb (N.eqb b) (dealt hs) = true.
  Proof.
    split.
    - induction parts as [|hs parts IH]; [discriminate|]. cbn [concat]. rewrite dealt_app, existsb_app, orb_true_iff. intros [H|H]; [exists 0%nat, hs; auto|].
      destruct (IH H) as (i & hs' & H1 & H2). exists (S i), hs'. auto.
    - intros (i & hs & H & Hb). apply nth_error_In in H. apply in_split in H as (l1 & l2 & ->). rewrite concat_app, dealt_app, existsb_app. cbn [concat].
      rewrite dealt_app, existsb_app, Hb, orb_true_r. reflexivity.
  Qed.
  Lemma parts_apart parts : distinct (dealt (concat parts)) = true -> forall i i' hs hs' b, i <> i' -> nth_error parts i = Some hs -> nth_error parts i' = Some hs' ->
    In b (dealt hs) -> In b (dealt hs') -> False.
  Proof.
    intros H0. apply distinct_NoDup in H0. revert H0. induction parts as [|x parts IH]; intros Hnd i i' hs hs' b Hne H1 H2 B1 B2; [destruct i; discriminate|].
    cbn [concat] in Hnd. rewrite dealt_app in Hnd.
    assert (Hin : forall k h, nth_error parts k = Some h -> In b (dealt h) -> In b (dealt (concat parts))).
    { intros k h Hk Hb. apply existsb_eqb_In. apply dealt_concat_in. exists k, h. split; [exact Hk|]. apply existsb_eqb_In. exact Hb. }
    destruct i as [|i], i' as [|i']; cbn [nth_error] in *; [congruence| | |].
    - inversion H1; subst x. exact (NoDup_app_disj _ _ b Hnd B1 (Hin _ _ H2 B2)).
    - inversion H2; subst x. exact (NoDup_app_disj _ _ b Hnd B2 (Hin _ _ H1 B1)).
    - apply (IH (NoDup_app_r _ _ Hnd) i i' hs hs' b); auto.
  Qed.
  Lemma holds_exact w parts : holds_deal w parts -> mask_exact m board dead w.
  Proof.
    intros [Hi H1 H2 H3 H4 H5 H6].
    assert (Hlen : length parts = length crs) by (rewrite <- (CombinedProofs.Forall2_length _ _ _ H1); apply (CombinedProofs.Forall2_length _ _ _ HF)).
    assert (Hch : forall i c, chosen_combo m w i c -> exists hs, nth_error parts i = Some hs /\ mask_is (cc_mask c) (dealt hs)).
    { intros i c (cr & j & E1 & E2 & E3). rewrite Hm1 in E1. assert (Hlt : (i < length crs)%nat) by (apply nth_error_Some; congruence).
      destruct (nth_error parts i) as [hs|] eqn:Ep; [|apply nth_error_None in Ep; lia]. exists hs. split; [reflexivity|].
      destruct (H2 i cr hs E1 Ep) as (j' & c' & F1 & F2 & F3). cbn [Nat.add] in F1. rewrite E2 in F1. inversion F1; subst j'. rewrite E3 in F2. inversion F2; subst c'. apply F3. }
    assert (Hhave : forall i hs, nth_error parts i = Some hs -> exists c, chosen_combo m w i c /\ mask_is (cc_mask c) (dealt hs)).
    { intros i hs Ep. assert (Hlt : (i < length parts)%nat) by (apply nth_error_Some; congruence).
      destruct (nth_error crs i) as [cr|] eqn:Ec; [|apply nth_error_None in Ec; lia]. destruct (H2 i cr hs Ec Ep) as (j & c & F1 & F2 & F3).
      exists c. split; [|apply F3]. exists cr, j. rewrite Hm1. auto. }
    assert (Hclash : forall b hs i, nth_error parts i = Some hs -> In b (dealt hs) -> N.testbit (N.lor board dead) b = false).
    { intros b hs i Ep Hb. apply not_true_is_false. intros Ht. unfold clash in H5. rewrite <- not_true_iff_false in H5. apply H5. apply existsb_exists. exists b. split; [|exact Ht].
      apply existsb_eqb_In. apply dealt_concat_in. exists i, hs. split; [exact Ep|]. apply existsb_eqb_In. exact Hb. }
    split; [|split].
    - intros i Hi'. rewrite Hm1 in Hi'. destruct (nth_error parts i) as [hs|] eqn:Ep; [|apply nth_error_None in Ep; lia]. destruct (Hhave i hs Ep) as (c & Hc & Hmk).
      exists c. split; [exact Hc|]. apply N.bits_inj. intros b. rewrite N.land_spec, Hmk, N.bits_0.
      destruct (existsb (N.eqb b) (dealt hs)) eqn:Eb; [|reflexivity]. apply existsb_eqb_In in Eb. rewrite (Hclash b hs i Ep Eb). reflexivity.
    - intros x. rewrite H6, orb_true_iff, dealt_concat_in. split.
      + intros [H|(i & hs & Ep & Hb)]; [left; exact H|right]. destruct (Hhave i hs Ep) as (c & Hc & Hmk). exists i, c. split; [exact Hc|]. rewrite Hmk. exact Hb.
      + intros [H|(i & c & Hc & Hb)]; [left; exact H|right]. destruct (Hch i c Hc) as (hs & Ep & Hmk). exists i, hs. split; [exact Ep|]. rewrite <- Hmk. exact Hb.
    - intros i i' c c' Hne Hc Hc'. destruct (Hch i c Hc) as (hs & Ep & Hmk). destruct (Hch i' c' Hc') as (hs' & Ep' & Hmk').
      apply N.bits_inj. intros b. rewrite N.land_spec, Hmk, Hmk', N.bits_0. apply andb_false_iff.
      destruct (existsb (N.eqb b) (dealt hs)) eqn:Eb; [right|left; reflexivity]. apply not_true_is_false. intros Eb'. apply existsb_eqb_In in Eb, Eb'.
      exact (parts_apart parts H4 i i' hs hs' b Hne Ep Ep' Eb Eb').
  Qed.
End Deal.
