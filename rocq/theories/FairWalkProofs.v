(* Fresh deals and steps of the random walk, as functions of the choice. *)
From Verif Require Import Base BaseProofs SumFacts Ghost Float64 Hand FastDivide Range Combined Sim Approx SpecPoker ListFacts PokerFacts
  HandProofs HandExprProofs SpecNames SpecHand SpecRange SpecEquity SpecResults SpecRun SpecApprox SpecFair EnumProofs ShowdownProofs BoardProofs CombinedProofs PositionProofs WalkProofs
  MachineProofs FairProofs.
From Coq Require Import Permutation.
Local Open Scope N_scope.

#[local] Opaque NUM_HANDS.

(* ------------------------------------------------------------------------- *)
(** * One attempt to deal *)

Section Attempt.
  Variable p : profile.
  Variable ranges : list (list whand).
  Hypothesis Hok : Forall (Forall hole_hand) ranges.

  Lemma attempt_choice : forall pss crs i r w, Forall2 (range_in ranges) pss crs -> Forall (fun cr => 0 < cr_size cr) crs ->
    NoDup (concat pss) -> Forall (fun i => (i < 9)%nat) (concat pss) -> (length (concat pss) <= 9)%nat -> (i + length crs <= 9)%nat -> sized w ->
    let cs := dealt (concat (parts_of crs (sampled_choice crs r))) in
    exists ok r' w', deal_attempt p crs i r w = Ret (ok, r', w') /\ ok = distinct cs && negb (clash (w_used w) cs) /\
      (forall j, (j < i)%nat -> nth_error (w_indexes w') j = nth_error (w_indexes w) j) /\
      draws r' = draws r /\ (drawn r < drawn r' <= drawn r + N.of_nat (length crs) \/ crs = [] /\ drawn r' = drawn r) /\
      (ok = true -> drawn r' = drawn r + N.of_nat (length crs) /\
        forall k, (k < length crs)%nat -> nth_error (w_indexes w') (i + k) = nth_error (sampled_choice crs r) k).
  Proof.
    induction pss as [|ps pss IH]; intros crs i r w HF Hpos Hnd H9 Hl9 Hi Hsz; inversion HF as [|? cr ? crs' Hcr HF']; subst; cbv zeta.
    - exists true, r, w. cbn [deal_attempt sampled_choice parts_of concat dealt flat_map length]. split; [reflexivity|]. split; [reflexivity|]. split; [reflexivity|]. split; [reflexivity|].
      split; [right; auto|]. intros _. split; [lia|]. intros k Hk. lia.
    - inversion Hpos as [|? ? Hp0 Hpos']; subst. cbn [concat] in Hnd, H9, Hl9. apply Forall_app in H9 as [H9 H9'].
      pose proof (NoDup_app_l _ _ Hnd) as Hndp. pose proof (NoDup_app_r _ _ Hnd) as Hnd'. rewrite app_length in Hl9. cbn [length] in Hi.
      pose proof Hcr as (_ & _ & _ & Hsize & _).
      cbn [deal_attempt sample sampled_choice parts_of]. destruct Hsz as (Z1 & Z2 & Z3 & Z4). rewrite upd_ok by lia. cbn [bind].
      set (x := N.to_nat (draws r (drawn r) mod cr_size cr)).
      assert (Hx : (x < length (cr_combos cr))%nat).
      { unfold x. assert (draws r (drawn r) mod cr_size cr < cr_size cr) by (apply N.mod_lt; lia). lia. }
      destruct (part_in ranges ps cr x Hcr Hx) as (c & Ec & Hhs & Hc). set (hs := part cr x) in *.
      rewrite (proj2 (get_ret _ _ _) Ec). cbn [bind].
      pose proof Hc as (Hlh & _ & _ & _ & Hmask & _). destruct (fairs_hole ranges Hok ps hs Hhs) as (Hhole & _ & Hdist).
      set (w1 := with_indexes w (set_nth (w_indexes w) i x)).
      assert (Hsz1 : sized w1) by (unfold w1, sized; cbn [with_indexes w_indexes w_hands w_weights w_lookup]; rewrite set_nth_length; auto).
      change (w_used w1) with (w_used w). rewrite (clash_land _ _ _ Hmask), negb_involutive.
      rewrite <- N.add_1_r. set (r1 := {| draws := draws r; drawn := drawn r + 1 |}).
      cbn [concat]. rewrite dealt_app, distinct_app, clash_app, Hdist. cbn [andb].
      destruct (clash (w_used w) (dealt hs)) eqn:Ecl.
      { eexists false, r1, w1. split; [reflexivity|]. cbn [orb negb]. rewrite andb_false_r. split; [reflexivity|]. split; [|split; [reflexivity|split; [|discriminate]]].
        - intros j Hj. unfold w1. cbn [with_indexes w_indexes]. apply set_nth_other. lia.
        - left. unfold r1. cbn [drawn length]. lia. }
      destruct (place_combo_ok p ranges ps cr hs c w1 Hcr Hc Hhole H9 Hndp ltac:(lia) Hsz1) as (w2 & Ep & U2 & X2 & Z2' & Hs2 & Ho2).
      rewrite Ep. cbn [bind]. set (w3 := with_used w2 (N.lor (w_used w2) (cc_mask c))).
      assert (Hsz3 : sized w3) by exact Z2'.
      destruct (IH crs' (S i) r1 w3 HF' Hpos' Hnd' H9' ltac:(lia) ltac:(lia) Hsz3) as (ok & r' & w' & E & Hokk & Hidx & Hd & Hn & Hres). clear IH.
      assert (Hu3 : w_used w3 = N.lor (w_used w) (cc_mask c)) by (unfold w3; cbn [with_used w_used]; rewrite U2; reflexivity).
      exists ok, r', w'. split; [exact E|]. split; [|split; [|split; [|split]]].
      + rewrite Hokk, Hu3, (clash_lor _ _ _ _ Hmask). cbn [orb]. set (cs := dealt (concat (parts_of crs' (sampled_choice crs' r1)))).
        destruct (distinct cs), (clash (w_used w) cs), (shares (dealt hs) cs); reflexivity.
      + intros j Hj. rewrite Hidx by lia. unfold w3. cbn [with_used w_indexes]. rewrite X2. unfold w1. cbn [with_indexes w_indexes]. apply set_nth_other. lia.
      + rewrite Hd. reflexivity.
      + left. unfold r1 in Hn. cbn [drawn] in Hn. cbn [length]. lia.
      + intros Ht. destruct (Hres Ht) as [R1 R2]. split; [unfold r1 in R1; cbn [drawn] in R1; cbn [length]; lia|]. intros [|k] Hk; cbn [length nth_error] in *.
        * rewrite Nat.add_0_r, Hidx by lia. unfold w3. cbn [with_used w_indexes]. rewrite X2. unfold w1. cbn [with_indexes w_indexes]. apply set_nth_same. lia.
        * rewrite Nat.add_succ_r. apply R2. lia.
  Qed.
End Attempt.

(* ------------------------------------------------------------------------- *)
(** * The choice of a walk *)

Lemma find_first {A} (f : A -> bool) (g : nat -> A) size k : (1 <= k <= size)%nat -> (forall k', (1 <= k' < k)%nat -> f (g k') = false) -> f (g k) = true ->
  find f (map g (seq 1 size)) = Some (g k).
Proof.
  intros Hk Hlt Ht. assert (H : forall a n, (a <= k < a + n)%nat -> (1 <= a)%nat -> find f (map g (seq a n)) = Some (g k)).
  { intros a n. revert a. induction n as [|n IH]; intros a Ha H1; [lia|]. cbn [seq map find]. destruct (Nat.eq_dec a k) as [->|Hne]; [rewrite Ht; reflexivity|].
    rewrite Hlt by lia. apply IH; lia. }
  apply H; lia.
Qed.
Lemma existsb_orb {A} (f g : A -> bool) l : existsb (fun x => f x || g x) l = existsb f l || existsb g l.
Proof. induction l as [|x l IH]; [reflexivity|]. cbn [existsb]. rewrite IH. destruct (f x), (g x), (existsb f l); reflexivity. Qed.
Lemma existsb_same {A} (f g : A -> bool) l : (forall x, f x = g x) -> existsb f l = existsb g l.
Proof. intros H. induction l as [|x l IH]; [reflexivity|]. cbn [existsb]. rewrite H, IH. reflexivity. Qed.
Lemma parts_split : forall crs v i cr j, nth_error crs i = Some cr -> nth_error v i = Some j -> length v = length crs ->
  exists P1 P2, length P1 = i /\ forall j', parts_of crs (set_nth v i j') = P1 ++ part cr j' :: P2.
Proof.
  induction crs as [|cr0 crs IH]; intros [|j0 v] [|i] cr j H1 H2 Hl; try discriminate; cbn [nth_error length] in *.
  - inversion H1; subst. exists [], (parts_of crs v). split; [reflexivity|]. intros j'. reflexivity.
  - destruct (IH v i cr j H1 H2 ltac:(lia)) as (P1 & P2 & L & H). exists (part cr0 j0 :: P1), P2. split; [cbn; lia|]. intros j'. cbn [set_nth parts_of app]. rewrite H. reflexivity.
Qed.

Section Walks.
  Variable p : profile.
  Variable ranges : list (list whand).
  Variable pss : list (list nat).
  Variable crs : list crange.
  Variable board dead : N.
  Variable m : simulator.
  Hypothesis Hok : Forall (Forall hole_hand) ranges.
  Hypothesis Hn9 : (length ranges <= 9)%nat.
  Hypothesis HP : Permutation (concat pss) (seq 0 (length ranges)).
  Hypothesis HF : Forall2 (range_in ranges) pss crs.
  Hypothesis Hpos : Forall (fun cr => 0 < cr_size cr) crs.
  Hypothesis Hl9 : (length crs <= 9)%nat.
  Hypothesis Hm1 : m_combined m = crs.
  Hypothesis Hm2 : m_board_mask m = board.
  Hypothesis Hm3 : m_dead_mask m = dead.
  Hypothesis Hm5 : m_n_players m = length ranges.

  Notation legal := (legal_choice m board dead).
  Notation held := (holds_deal p ranges pss crs board dead).
  Notation choice_of w := (firstn (length crs) (w_indexes w)).

  Lemma held_length w parts : held w parts -> length parts = length crs.
  Proof. intros H. rewrite <- (CombinedProofs.Forall2_length _ _ _ (hd_parts _ _ _ _ _ _ _ _ H)). apply (CombinedProofs.Forall2_length _ _ _ HF). Qed.
  Lemma held_nth w parts i : held w parts -> (i < length crs)%nat -> nth_error (choice_of w) i = nth_error (w_indexes w) i.
  Proof. intros _ Hi. apply nth_error_firstn. exact Hi. Qed.
  Lemma held_choice w parts : held w parts -> In (choice_of w) (choices m) /\ parts_of crs (choice_of w) = parts.
  Proof.
    intros H. pose proof (held_length w parts H) as Hlen. destruct H as [Hi H1 H2 _ _ _ _].
    assert (Hl : length (choice_of w) = length crs) by (rewrite firstn_length, (proj1 (proj1 Hi)); lia).
    assert (Hn : forall i cr, nth_error crs i = Some cr -> exists hs j c, nth_error parts i = Some hs /\ nth_error (choice_of w) i = Some j /\
      nth_error (cr_combos cr) j = Some c /\ combo_is (length hs) hs c /\ cr_player_count cr = length hs).
    { intros i cr Ei. assert (Hlt : (i < length crs)%nat) by (apply nth_error_Some; congruence).
      destruct (nth_error parts i) as [hs|] eqn:Ep; [|apply nth_error_None in Ep; lia]. destruct (H2 i cr hs Ei Ep) as (j & c & E1 & E2 & E3). cbn [Nat.add] in E1.
      exists hs, j, c. split; [reflexivity|]. split; [rewrite nth_error_firstn by exact Hlt; exact E1|]. split; [exact E2|]. split; [exact E3|].
      assert (Hps : exists ps, nth_error pss i = Some ps) by (destruct (nth_error pss i) as [ps|] eqn:E; [eauto|apply nth_error_None in E; rewrite (CombinedProofs.Forall2_length _ _ _ HF) in E; lia]).
      destruct Hps as (ps & Eps). clear - HF H1 Ei Ep Eps Hok. revert i parts H1 Ei Ep Eps. revert HF. intros HF0. induction HF0 as [|ps0 cr0 pss0 crs0 Hcr _ IH]; intros i parts H1 Ei Ep Eps; [destruct i; discriminate|].
      inversion H1 as [|? hs0 ? parts0 Hh0 H1']; subst. destruct i as [|i]; cbn [nth_error] in *; [|exact (IH i parts0 H1' Ei Ep Eps)].
      inversion Ei; inversion Ep; inversion Eps; subst. destruct (fairs_hole ranges Hok _ _ Hh0) as (_ & -> & _). apply Hcr. }
    split.
    - apply choices_in. rewrite Hm1. split; [exact Hl|]. intros i cr j Ei Ej. destruct (Hn i cr Ei) as (hs & j' & c & _ & E2 & E3 & _). rewrite Ej in E2. inversion E2; subst j'.
      apply nth_error_Some. congruence.
    - apply nth_error_ext. intros i. destruct (nth_error crs i) as [cr|] eqn:Ei.
      + destruct (Hn i cr Ei) as (hs & j & c & E1 & E2 & E3 & E4 & E5). rewrite (parts_nth crs _ i cr j Ei E2), E1. f_equal. unfold part. rewrite E3, E5. apply E4.
      + apply nth_error_None in Ei. rewrite (proj2 (nth_error_None parts i)) by lia. apply nth_error_None. rewrite parts_of_length by exact Hl. exact Ei.
  Qed.
  Lemma held_legal w parts : held w parts -> legal (choice_of w) = true.
  Proof.
    intros H. destruct (held_choice w parts H) as [Hc E]. rewrite (choice_legal ranges pss crs board dead m Hok HP HF Hm1 Hm5 _ Hc), E, possible_clash.
    rewrite (hd_distinct _ _ _ _ _ _ _ _ H), (hd_free _ _ _ _ _ _ _ _ H). reflexivity.
  Qed.
  Lemma held_at w parts : held w parts -> walk_at p m board dead w (choice_of w).
  Proof.
    intros H. destruct (held_choice w parts H) as [Hc E]. split; [|split].
    - apply filter_In. split; [exact Hc|]. eapply held_legal. exact H.
    - rewrite Hm1. reflexivity.
    - rewrite (choice_deal_of ranges pss crs m Hok HF Hm1 Hm5 _ Hc), E. intros i h Hh.
      assert (Hparts := hd_parts _ _ _ _ _ _ _ _ H).
      assert (Hi : (i < length ranges)%nat) by (rewrite <- (deal_of_length ranges pss parts); apply nth_error_Some; congruence).
      pose proof (seat_pair ranges pss crs board dead m Hok Hn9 HP Hl9 Hm2 Hm3 parts Hparts i Hi) as Hin. unfold holding in Hin. rewrite (nth_error_nth _ _ _ Hh) in Hin.
      destruct (hd_sits _ _ _ _ _ _ _ _ H i h Hin) as ((x & Ex & Hx) & El & Ew).
      assert (Hhole : hole_hand h).
      { pose proof (deal_of_hole ranges pss Hok HP parts Hparts) as HD. rewrite Forall_forall in HD. apply HD. eapply nth_error_In. exact Hh. }
      split; [|split].
      + exists x. split; [|exact Ex]. destruct Hhole as (Ha & Hb & _). destruct (from_hole_cards_of p _ _ Ha Hb) as (y & Ey & Hy). rewrite Ey. f_equal. eapply hand_of_unique; [exact Hy|exact Hx].
      + destruct (idx_spec p _ _ Hhole) as [Eidx _]. exists (N.of_nat (idx p (first_card h) (second_card h))). split; [exact Eidx|]. rewrite Nat2N.id. exact El.
      + exact Ew.
  Qed.

  (* ----------------------------------------------------------------------- *)
  (** ** Fresh deals *)

  Lemma attempt_at r w : idle ranges w -> exists ok r' w', deal_attempt p crs 0 r (with_used w (N.lor board dead)) = Ret (ok, r', w') /\ idle ranges w' /\
    ok = legal (sampled_choice crs r) /\ In (sampled_choice crs r) (choices m) /\ draws r' = draws r /\ drawn r <= drawn r' <= drawn r + N.of_nat (length crs) /\ (crs <> [] -> drawn r < drawn r') /\
    (ok = true -> drawn r' = drawn r + N.of_nat (length crs) /\ walk_at p m board dead w' (sampled_choice crs r) /\ exists parts, held w' parts).
  Proof.
    intros Hi. pose proof (wk_nodup ranges pss HP) as Hnd. pose proof (wk_keys ranges pss crs board dead m Hn9 HP Hl9 Hm2 Hm3) as Hk9. pose proof (wk_length ranges pss Hn9 HP) as Hkl.
    assert (Hc : In (sampled_choice crs r) (choices m)).
    { apply choices_in. rewrite Hm1. clear - HF Hpos. revert HF. intros HF0. revert r Hpos. induction HF0 as [|ps cr pss0 crs0 Hcr _ IH]; intros r Hpos; cbn [sampled_choice length].
      - split; [reflexivity|]. intros [|i] cr j E; discriminate.
      - inversion Hpos as [|? ? Hp0 Hpos']; subst. destruct (IH {| draws := draws r; drawn := drawn r + 1 |} Hpos') as [I1 I2]. split; [rewrite I1; reflexivity|].
        intros [|i] cr1 j E1 E2; cbn [nth_error] in E1, E2; [|exact (I2 i cr1 j E1 E2)]. inversion E1; inversion E2; subst. destruct Hcr as (_ & _ & _ & Es & _).
        assert (draws r (drawn r) mod cr_size cr1 < cr_size cr1) by (apply N.mod_lt; lia). lia. }
    assert (Hw1 : idle ranges (with_used w (N.lor board dead))) by exact Hi.
    destruct (attempt_choice p ranges Hok pss crs 0 r (with_used w (N.lor board dead)) HF Hpos Hnd Hk9 Hkl ltac:(lia) (proj1 Hi)) as (ok & r' & w' & E & Eok & _ & Ed & En & Hres).
    destruct (deal_attempt_ok p ranges Hok pss crs 0 r (with_used w (N.lor board dead)) HF Hpos Hnd Hk9 Hkl ltac:(lia) (proj1 Hw1)) as (ok1 & r1 & w1 & E1 & Z & Ho & _ & Hres1).
    rewrite E in E1. inversion E1; subst ok1 r1 w1. clear E1. cbn [with_used w_used] in Eok, Hres1.
    assert (Hi' : idle ranges w') by (exact (idle_same ranges pss crs board dead m Hn9 HP Hl9 Hm2 Hm3 _ _ Hw1 Z Ho)).
    exists ok, r', w'. split; [exact E|]. split; [exact Hi'|]. split; [|split; [exact Hc|split; [exact Ed|split; [lia|split; [intros Hne; destruct En as [En|[En _]]; [lia|contradiction]|]]]]].
    - rewrite Eok, (choice_legal ranges pss crs board dead m Hok HP HF Hm1 Hm5 _ Hc), possible_clash. reflexivity.
    - intros Ht. destruct (Hres Ht) as [R1 R2]. split; [exact R1|]. destruct (Hres1 Ht) as (parts & P1 & P2 & P3 & P4 & P5 & P6).
      assert (Hh : held w' parts) by (constructor; assumption). split; [|exists parts; exact Hh]. pose proof (held_at w' parts Hh) as Hat.
      replace (choice_of w') with (sampled_choice crs r) in Hat; [exact Hat|]. destruct (choice_bound crs m Hm1 _ Hc) as [Hl _].
      apply nth_error_ext. intros k. destruct (Nat.ltb_spec k (length crs)) as [Hk|Hk].
      + rewrite nth_error_firstn by exact Hk. symmetry. exact (R2 k Hk).
      + rewrite (proj2 (nth_error_None (sampled_choice crs r) k)) by lia. symmetry. apply nth_error_None. rewrite firstn_length. lia.
  Qed.

  (* ----------------------------------------------------------------------- *)
  (** ** Steps *)

  Lemma replaced_legal P1 hs hs1 P2 : distinct (dealt hs1) = true -> possible board dead (concat (P1 ++ hs :: P2)) = true ->
    possible board dead (concat (P1 ++ hs1 :: P2)) = negb (existsb (fun b => N.testbit (N.lor board dead) b || existsb (N.eqb b) (dealt (concat (P1 ++ P2)))) (dealt hs1)).
  Proof.
    assert (HPm : forall h, Permutation (concat (P1 ++ h :: P2)) (h ++ concat (P1 ++ P2))).
    { intros h. rewrite !concat_app. cbn [concat]. rewrite !app_assoc. apply Permutation_app_tail. apply Permutation_app_comm. }
    intros Hd H. rewrite (possible_perm _ _ _ _ (HPm hs)), possible_clash, dealt_app, distinct_app, clash_app in H.
    rewrite (possible_perm _ _ _ _ (HPm hs1)), possible_clash, dealt_app, distinct_app, clash_app, Hd, existsb_orb.
    change (existsb (N.testbit (N.lor board dead)) (dealt hs1)) with (clash (N.lor board dead) (dealt hs1)).
    change (existsb (fun b => existsb (N.eqb b) (dealt (concat (P1 ++ P2)))) (dealt hs1)) with (shares (dealt hs1) (dealt (concat (P1 ++ P2)))).
    destruct (distinct (dealt (concat (P1 ++ P2)))); [|rewrite andb_false_r in H; discriminate].
    destruct (clash (N.lor board dead) (dealt (concat (P1 ++ P2)))); [rewrite orb_true_r, andb_false_r in H; discriminate|].
    destruct (clash (N.lor board dead) (dealt hs1)), (shares (dealt hs1) (dealt (concat (P1 ++ P2)))); reflexivity.
  Qed.

  Lemma step_at w w' i parts parts' : held w parts -> held w' parts' -> steps_down m w w' i -> (i < length crs)%nat ->
    choice_of w' = step_choice m board dead (choice_of w) i.
  Proof.
    intros H H' (cr & j & c & k & c' & E1 & E2 & E3 & _ & Hk & Hlt & E4 & E5 & E6 & _ & Hoth) Hi. rewrite Hm1 in E1.
    destruct (held_choice w parts H) as [Hc Ep]. pose proof (held_legal w parts H) as Hleg. rewrite (choice_legal ranges pss crs board dead m Hok HP HF Hm1 Hm5 _ Hc), Ep in Hleg.
    set (v := choice_of w) in *. destruct (choice_bound crs m Hm1 v Hc) as [Hlv Hbound].
    assert (Ev : nth_error v i = Some j) by (unfold v; rewrite nth_error_firstn by exact Hi; exact E2).
    destruct (parts_split crs v i cr j E1 Ev Hlv) as (P1 & P2 & LP & Hsplit).
    assert (Epp : parts = P1 ++ part cr j :: P2) by (rewrite <- Hsplit, set_nth_id by exact Ev; symmetry; exact Ep).
    assert (Hps : exists ps, range_in ranges ps cr).
    { clear - HF E1. revert i E1. revert HF. intros HF0. induction HF0 as [|ps0 cr0 pss0 crs0 Hcr _ IH]; intros [|i] E1; try discriminate; cbn [nth_error] in E1; [|exact (IH i E1)].
      inversion E1; subst. exists ps0. exact Hcr. }
    destruct Hps as (ps & Hcr). set (sz := length (cr_combos cr)) in *.
    assert (Hj : (j < sz)%nat) by (exact (Hbound i cr j E1 Ev)). assert (Hsz0 : sz <> 0%nat) by lia.
    destruct (part_in ranges ps cr j Hcr Hj) as (c0 & E0 & Hin0 & Hc0). rewrite E3 in E0. inversion E0; subst c0. clear E0. pose proof Hc0 as (_ & _ & _ & _ & Hmask & _).
    set (rest := N.ldiff (w_used w) (cc_mask c)) in *. rewrite Epp in Hleg.
    assert (Hrest : forall b, N.testbit rest b = N.testbit (N.lor board dead) b || existsb (N.eqb b) (dealt (concat (P1 ++ P2)))).
    { intros b. unfold rest. rewrite N.ldiff_spec, Hmask, (hd_used _ _ _ _ _ _ _ _ H), Epp.
      assert (HPm : Permutation (dealt (concat (P1 ++ part cr j :: P2))) (dealt (part cr j) ++ dealt (concat (P1 ++ P2)))).
      { rewrite <- dealt_app. apply dealt_perm. rewrite !concat_app. cbn [concat]. rewrite !app_assoc. apply Permutation_app_tail. apply Permutation_app_comm. }
      assert (Eex : existsb (N.eqb b) (dealt (concat (P1 ++ part cr j :: P2))) = existsb (N.eqb b) (dealt (part cr j)) || existsb (N.eqb b) (dealt (concat (P1 ++ P2)))).
      { rewrite <- existsb_app. apply eq_iff_eq_true. rewrite !existsb_eqb_In. split; intros Hin; [eapply Permutation_in; [exact HPm|exact Hin]|eapply Permutation_in; [symmetry; exact HPm|exact Hin]]. }
      rewrite Eex. destruct (existsb (N.eqb b) (dealt (part cr j))) eqn:Eb; [|rewrite andb_true_r; reflexivity]. cbn [negb]. rewrite andb_false_r.
      apply existsb_eqb_In in Eb. rewrite (replaced_legal P1 (part cr j) (part cr j) P2) in Hleg; [|apply (fairs_hole ranges Hok ps _ Hin0)|exact Hleg].
      apply negb_true_iff in Hleg. symmetry. apply not_true_is_false. intros Ht. rewrite <- not_true_iff_false in Hleg. apply Hleg. apply existsb_exists. exists b. auto. }
    assert (Hcand : forall j1 c1, (j1 < sz)%nat -> nth_error (cr_combos cr) j1 = Some c1 -> legal (set_nth v i j1) = (N.land (cc_mask c1) rest =? 0)).
    { intros j1 c1 Hj1 Ec1. assert (Hc1 : In (set_nth v i j1) (choices m)).
      { apply choices_in. rewrite Hm1, set_nth_length. split; [exact Hlv|]. intros i1 cr1 j2 F1 F2. destruct (Nat.eq_dec i i1) as [<-|Hne].
        - rewrite set_nth_same in F2 by (rewrite Hlv; exact Hi). inversion F2; subst j2. rewrite E1 in F1. inversion F1; subst cr1. exact Hj1.
        - rewrite set_nth_other in F2 by exact Hne. exact (Hbound i1 cr1 j2 F1 F2). }
      rewrite (choice_legal ranges pss crs board dead m Hok HP HF Hm1 Hm5 _ Hc1), Hsplit. destruct (part_in ranges ps cr j1 Hcr Hj1) as (c2 & F1 & F2 & F3). rewrite Ec1 in F1. inversion F1; subst c2.
      rewrite (replaced_legal P1 (part cr j) (part cr j1) P2); [|apply (fairs_hole ranges Hok ps _ F2)|exact Hleg].
      destruct F3 as (_ & _ & _ & _ & Hmask1 & _). rewrite N.land_comm, (clash_land _ _ _ Hmask1). f_equal. unfold clash. apply existsb_same. intros b. symmetry. apply Hrest. }
    unfold step_choice. rewrite Hm1, E1, Ev. fold sz. cbv zeta.
    rewrite (find_first legal (fun k => set_nth v i ((j + sz - k) mod sz)%nat) sz k Hk).
    - apply nth_error_ext. intros i1. destruct (Nat.ltb_spec i1 (length crs)) as [Hi1|Hi1].
      + rewrite nth_error_firstn by exact Hi1. destruct (Nat.eq_dec i i1) as [<-|Hne].
        * rewrite E6. symmetry. apply set_nth_same. rewrite Hlv. exact Hi.
        * rewrite set_nth_other by exact Hne. rewrite Hoth by (intros E; apply Hne; symmetry; exact E). unfold v. rewrite nth_error_firstn by exact Hi1. reflexivity.
      + rewrite (proj2 (nth_error_None (set_nth v i ((j + sz - k) mod sz)%nat) i1)) by (rewrite set_nth_length; lia). apply nth_error_None. rewrite firstn_length. lia.
    - intros k' Hk'. destruct (Hlt k' Hk') as (c1 & F1 & F2). rewrite (Hcand _ c1 (Nat.mod_upper_bound _ sz Hsz0) F1). apply N.eqb_neq. exact F2.
    - rewrite (Hcand _ c' (Nat.mod_upper_bound _ sz Hsz0) E4), E5. reflexivity.
  Qed.

  Lemma walk_step_at r w parts : held w parts -> (0 < length crs)%nat -> exists r' w',
    walk_step p m r w = Ret (r', w') /\ r' = {| draws := draws r; drawn := drawn r + 1 |} /\ (exists parts', held w' parts') /\
    walk_at p m board dead w' (step_choice m board dead (choice_of w) (N.to_nat (draws r (drawn r) mod N.of_nat (length crs)))).
  Proof.
    intros H Hpos0. destruct (walk_step_ok p ranges pss crs board dead m Hok Hn9 HP HF Hl9 Hm1 Hm2 Hm3 r w parts H Hpos0) as (r' & w' & i & parts' & E & H' & Hs & _ & Ei & Er).
    exists r', w'. split; [exact E|]. split; [rewrite Er, <- N.add_1_r; reflexivity|]. split; [exists parts'; exact H'|]. rewrite <- Ei. rewrite <- (step_at w w' i parts parts' H H' Hs).
    - eapply held_at. exact H'.
    - rewrite Ei. assert (draws r (drawn r) mod N.of_nat (length crs) < N.of_nat (length crs)) by (apply N.mod_lt; lia). lia.
  Qed.
End Walks.
