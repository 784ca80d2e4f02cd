(* One deal: enumerate_board adds the weight of every completion of the board to the right
   counters. *)
From Verif Require Import Base BaseProofs SumFacts Ghost Hand Range Combined Sim SpecPoker ListFacts PokerFacts HandProofs
  EvalProofs HandExprProofs SpecNames SpecHand IndexProofs SpecEquity EnumProofs ShowdownProofs.
From Coq Require Import Permutation Sorted.
Local Open Scope N_scope.

Lemma distinct_NoDup l : distinct l = true <-> NoDup l.
Proof.
  induction l as [|c l IH]; [split; [constructor|reflexivity]|]. cbn [distinct].
  rewrite andb_true_iff, negb_true_iff, IH. split.
  - intros [H1 H2]. constructor; [|exact H2]. intros Hin.
    assert (existsb (N.eqb c) l = true) by (apply existsb_exists; exists c; split; [exact Hin|apply N.eqb_refl]). congruence.
  - intros H. inversion H; subst. split; [|assumption]. apply not_true_is_false. intros He.
    apply existsb_exists in He as (x & Hx & E). apply N.eqb_eq in E. subst. contradiction.
Qed.

Lemma existsb_eqb_In c l : existsb (N.eqb c) l = true <-> In c l.
Proof.
  rewrite existsb_exists. split; [intros (x & Hx & E); apply N.eqb_eq in E; subst; exact Hx|].
  intros H. exists c. split; [exact H|apply N.eqb_refl].
Qed.

Lemma possible_spec board dead d : possible board dead d = true <->
  NoDup (dealt d) /\ forall c, In c (dealt d) -> on_table board dead c = false.
Proof.
  unfold possible. rewrite andb_true_iff, distinct_NoDup, forallb_forall. split; intros [H1 H2]; (split; [exact H1|]);
    intros c Hc; [apply negb_true_iff; apply H2; exact Hc|rewrite H2 by exact Hc; reflexivity].
Qed.

Lemma dealt_in d h c : In h d -> In c (two_cards h) -> In c (dealt d).
Proof. intros H1 H2. unfold dealt. apply in_flat_map. exists h. auto. Qed.

Lemma NoDup_two d h : NoDup (dealt d) -> In h d -> NoDup (two_cards h).
Proof.
  induction d as [|x d IH]; [contradiction|]. intros Hn [->|Hh].
  - apply (NoDup_app_l (two_cards h) (dealt d)). exact Hn.
  - apply IH; [|exact Hh]. apply (NoDup_app_r (two_cards x) (dealt d)). exact Hn.
Qed.

(* the 1326 slots of player i *)
Definition idx (p : profile) (a b : N) : nat := match get_card_index p a b with Ret k => N.to_nat k | Fail _ => 0%nat end.
Lemma idx_spec p a b : hole a b -> get_card_index p a b = Ret (N.of_nat (idx p a b)) /\ (idx p a b < 1326)%nat.
Proof.
  intros H. unfold idx. destruct (index_total p a b H) as (i & Hi & E & _). rewrite E. rewrite N2Nat.id. split; [reflexivity|lia].
Qed.

Lemma rsorted_filter {A} (R : A -> A -> Prop) f (l : list A) : (forall x y z, R x y -> R y z -> R x z) ->
  Sorted R l -> Sorted R (filter f l).
Proof.
  intros HT H. apply Sorted_StronglySorted in H; [|exact HT]. apply StronglySorted_Sorted.
  induction H as [|x l Hs IH Hf]; [constructor|]. cbn [filter]. destruct (f x); [|exact IH]. constructor; [exact IH|].
  rewrite Forall_forall in *. intros y Hy. apply filter_In in Hy as [Hy _]. apply Hf. exact Hy.
Qed.

Fixpoint adjacent (f : N -> N -> bool) (l : list N) : bool :=
  match l with
  | x :: (y :: _) as l' => f x y && adjacent f l'
  | _ => true
  end.
Lemma adjacent_Sorted (f : N -> N -> bool) l : adjacent f l = true -> Sorted (fun a b => f a b = true) l.
Proof.
  induction l as [|x [|y l] IH]; intros H; [constructor|repeat constructor|]. cbn [adjacent] in H.
  apply andb_true_iff in H as [H1 H2]. constructor; [apply IH; exact H2|constructor; exact H1].
Qed.

Lemma all_cards_sorted : Sorted (fun a b => rank_of b <= rank_of a) (rev (nseq 0 52)).
Proof.
  assert (H : Sorted (fun a b => (rank_of b <=? rank_of a) = true) (rev (nseq 0 52))).
  { apply adjacent_Sorted. vm_compute. reflexivity. }
  revert H. generalize (rev (nseq 0 52)). induction 1 as [|x l Hs IH Hh]; constructor; [exact IH|].
  destruct Hh; constructor. apply N.leb_le. assumption.
Qed.

Lemma filter_rev {A} (f : A -> bool) l : filter f (rev l) = rev (filter f l).
Proof.
  induction l as [|x l IH]; [reflexivity|]. cbn [rev filter]. rewrite filter_app, IH. cbn [filter].
  destruct (f x); [reflexivity|apply app_nil_r].
Qed.

Section Deal.
  Variable p : profile.
  Variable board dead : N.
  Variable d : list whand.
  Hypothesis Hhole : Forall (fun h => hole (first_card h) (second_card h)) d.
  Hypothesis Hposs : possible board dead d = true.
  Hypothesis Hn : (length d <= 9)%nat.
  Hypothesis Hb5 : (length (mask_cards board) <= 5)%nat.

  Definition seen_cards : list N := dealt d ++ filter (fun c => negb (N.testbit board c)) (mask_cards dead).
  Definition hs (s : N) : nat := fold_right (fun h m => Nat.max (nsuit s (two_cards h)) m) 0%nat d.

  Lemma hs_ge s h : In h d -> (nsuit s (two_cards h) <= hs s)%nat.
  Proof.
    unfold hs. clear. induction d as [|x l IH]; [contradiction|]. cbn [fold_right]. intros [->|H]; [lia|]. specialize (IH H). lia.
  Qed.

  Lemma in_deal_hole h : In h d -> hole (first_card h) (second_card h).
  Proof. intros H. rewrite Forall_forall in Hhole. apply Hhole. exact H. Qed.

  Lemma two_board_cards h L : In h d -> board5 seen_cards L -> cards (two_cards h ++ L) /\ length (two_cards h ++ L) = 7%nat.
  Proof.
    intros Hh (H1 & H2 & H3 & H4). destruct (in_deal_hole h Hh) as (Ha & Hb & Hab).
    apply possible_spec in Hposs as [Hnd _]. split; [split|].
    - apply NoDup_app_intro; [eapply NoDup_two; eassumption|exact H1|]. intros c Hc HL. apply (H3 c HL). unfold seen_cards.
      apply in_or_app. left. eapply dealt_in; eassumption.
    - apply Forall_app. split; [|exact H2]. repeat constructor; assumption.
    - rewrite app_length, H4. reflexivity.
  Qed.

  Lemma alike_sym L L' : alike hs L L' -> alike hs L' L.
  Proof.
    intros [H1 H2]. split; [symmetry; exact H1|]. intros s Hs. destruct (H2 s Hs) as [H|[H H']].
    - left. intros c Hc. symmetry. apply H. exact Hc.
    - right. auto.
  Qed.

  Lemma best_flush_alike h L L' s : In h d -> board5 seen_cards L -> board5 seen_cards L' -> alike hs L L' -> s < 4 ->
    (5 <= nsuit s (two_cards h ++ L))%nat -> best (two_cards h ++ L) = best (two_cards h ++ L').
  Proof.
    intros Hh HL HL' [Hr Ha] Hs H5.
    destruct (two_board_cards h L Hh HL) as [Hc1 Hl1]. destruct (two_board_cards h L' Hh HL') as [Hc2 Hl2].
    destruct (Ha s Hs) as [Hin|[Ht _]].
    - assert (HP : Permutation (suited s (two_cards h ++ L)) (suited s (two_cards h ++ L'))).
      { apply NoDup_Permutation; [apply NoDup_filter, Hc1|apply NoDup_filter, Hc2|]. intros c. rewrite !suited_spec, !in_app_iff.
        split; intros [[H|H] Hsc]; split; auto; right; apply (Hin c Hsc); exact H. }
      rewrite (best_flush _ s Hc1) by (lia || exact H5).
      rewrite (best_flush _ s Hc2); [|lia|].
      + apply best_ranks_perm, Permutation_map. exact HP.
      + unfold nsuit in *. rewrite <- (Permutation_length HP). exact H5.
    - exfalso. rewrite nsuit_app in H5. unfold tc in Ht. pose proof (hs_ge s h Hh). lia.
  Qed.

  Lemma suit_cases (P : N -> bool) : (exists s, s < 4 /\ P s = true) \/ forall s, s < 4 -> P s = false.
  Proof.
    destruct (existsb P [0; 1; 2; 3]) eqn:E.
    - left. apply existsb_exists in E as (s & Hs & E). exists s. split; [|exact E]. cbn in Hs. intuition subst; reflexivity.
    - right. intros s Hs. apply not_true_is_false. intros Hp. assert (existsb P [0; 1; 2; 3] = true); [|congruence].
      apply existsb_exists. exists s. split; [|exact Hp]. cbn. lia.
  Qed.

  Lemma best_alike h L L' : In h d -> board5 seen_cards L -> board5 seen_cards L' -> alike hs L L' ->
    best (two_cards h ++ L) = best (two_cards h ++ L').
  Proof.
    intros Hh HL HL' Ha.
    destruct (suit_cases (fun s => 5 <=? nsuit s (two_cards h ++ L))%nat) as [(s & Hs & H5)|H1].
    { apply Nat.leb_le in H5. eapply best_flush_alike; eassumption. }
    destruct (suit_cases (fun s => 5 <=? nsuit s (two_cards h ++ L'))%nat) as [(s & Hs & H5)|H2].
    { apply Nat.leb_le in H5. symmetry. eapply best_flush_alike; try eassumption. apply alike_sym. exact Ha. }
    rewrite !best_no_flush.
    - apply best_ranks_perm. rewrite !map_app. apply Permutation_app_head, Ha.
    - intros s Hs. apply Nat.leb_gt, H2, Hs.
    - intros s Hs. apply Nat.leb_gt, H1, Hs.
  Qed.

  Lemma holding_in i : (i < length d)%nat -> In (holding d i) d.
  Proof. intros H. apply nth_In. exact H. Qed.

  Lemma winners_alike L L' : board5 seen_cards L -> board5 seen_cards L' -> alike hs L L' -> winners d L = winners d L'.
  Proof.
    intros HL HL' Ha. unfold winners. apply filter_ext_in. intros i Hi. apply in_seq in Hi.
    rewrite (best_alike (holding d i) L L') by (try assumption; apply holding_in; lia).
    assert (He : forall l, incl l d -> forallb (fun h => not_better (best (two_cards h ++ L)) (best (two_cards (holding d i) ++ L'))) l =
       forallb (fun h => not_better (best (two_cards h ++ L')) (best (two_cards (holding d i) ++ L'))) l).
    { induction l as [|h l IH]; intros Hl; [reflexivity|]. cbn [forallb]. rewrite (best_alike h L L'), IH; try assumption; [reflexivity| |apply Hl; left; reflexivity].
      intros x Hx. apply Hl. right. exact Hx. }
    apply He, incl_refl.
  Qed.

  Lemma eff_invariant slot o : invariant seen_cards hs (eff d slot o).
  Proof.
    intros L L' HL HL' Ha. pose proof (winners_alike L L' HL HL' Ha) as E.
    destruct o as [m|[]|]; cbn [eff]; rewrite ?E; reflexivity.
  Qed.

  Definition seats (hands : list hand) : Prop := forall i, (i < length d)%nat -> exists x,
    get hands i = Ret x /\ hand_of 0 (two_cards (holding d i)) x.

  Lemma scored_ok hands L bd fl : seats hands -> board5 seen_cards L -> hand_of base L bd ->
    (fl = false -> forall s, s < 4 -> (tc hs s L < 5)%nat) -> scored p d hands L bd fl.
  Proof.
    intros Hse HL Hof Hfl i Hi. destruct (Hse i Hi) as (x & Hx & Hox). pose proof (holding_in i Hi) as Hin.
    destruct (two_board_cards _ L Hin HL) as [Hc Hl].
    assert (HP : Permutation (L ++ two_cards (holding d i)) (two_cards (holding d i) ++ L)) by apply Permutation_app_comm.
    destruct (hand_add_of p base 0 L (two_cards (holding d i)) bd x) as (h & Hh & Hoh).
    - unfold base. lia.
    - rewrite (Permutation_length HP). lia.
    - apply fits_of_length. rewrite (Permutation_length HP). lia.
    - exact Hof.
    - exact Hox.
    - rewrite N.add_0_r in Hoh. apply (hand_of_perm _ _ _ _ HP) in Hoh.
      exists x, h. assert (Hv : exists v, (if fl then evaluate h else evaluate_without_flush h) = Ret v /\ valued v (best (two_cards (holding d i) ++ L))).
      { destruct fl.
        - destruct (evaluate_of _ h Hc ltac:(lia) Hoh) as (v & Hv & Hval). exists v. split; [exact Hv|]. apply Hval. lia.
        - destruct (evaluate_without_flush_of base _ h Hc (or_introl eq_refl) ltac:(lia) Hoh) as (v & Hv & Hval). exists v. split; [exact Hv|].
          rewrite best_no_flush; [apply Hval; lia|]. intros s Hs. rewrite nsuit_app. specialize (Hfl eq_refl s Hs). unfold tc in Hfl.
          pose proof (hs_ge s _ Hin). lia. }
      destruct Hv as (v & Hv & Hval). exists v. split; [exact Hx|]. split; [exact Hh|]. split; [exact Hv|]. split; [exact Hval|].
      pose proof (valued_category v _ Hval (best_nonempty _)) as Hcat. destruct (N.eq_dec v 0) as [->|]; [|lia]. change (0 / 4096) with 0 in Hcat. lia.
  Qed.

  (* ----------------------------------------------------------------------- *)
  (** ** Folding over the emitted entries *)

  Variable hands : list hand.
  Variable lookup : list nat.
  Variable ids : list nat.
  Variable nh : nat.
  Variable slot : nat -> nat.
  Variable wt : N.
  Hypothesis Hseats : seats hands.
  Hypothesis Hslot : forall i, (i < length d)%nat -> get lookup i = Ret (slot i) /\ (slot i < nh)%nat.
  Hypothesis Hinj : forall i j, (i < length d)%nat -> (j < length d)%nat -> slot i = slot j -> i = j.

  Let emit := evaluate_hands p (length d) hands lookup.
  Let step1 := step emit.

  Definition amount (gs : list (N * list N)) (o : obs) : N :=
    match o with
    | OCount => N.of_nat (length gs)
    | _ => wt * sumf (fun g => fst g * eff d slot o (snd g)) gs
    end.
  Lemma amount_cons g gs o : amount (g :: gs) o = wt * fst g * eff d slot o (snd g) + one o + amount gs o.
  Proof. destruct o; cbn [amount one eff length]; rewrite ?sumf_cons; lia. Qed.

  Lemma fold_entries (B : Prop) es : forall gs st v, Forall2 (entry_ok p seen_cards hs wt) es gs -> shape nh ids st ->
    (forall o, agr p (rd o st) (v o)) -> (B -> forall o, v o + amount gs o < 2 ^ 64) ->
    may p B (foldM step1 es st) (fun st' => shape nh ids st' /\ forall o, agr p (rd o st') (v o + amount gs o)).
  Proof.
    induction es as [|[[w bd] fl] es IH]; intros gs st v H2 Hst Hv HB; inversion H2 as [|e g es' gs' Hok Hrest]; subst; clear H2.
    - apply may_ret. split; [exact Hst|]. intros o. replace (v o + amount [] o) with (v o); [apply Hv|].
      destruct o; cbn [amount length]; rewrite ?sumf_nil; lia.
    - destruct g as [mu L]. destruct Hok as (Hmu & Hw & Hof & Hb & Hfl). cbn [fst snd] in *.
      cbn [foldM]. eapply may_bind.
      { apply (evaluate_hands_ok p d slot lookup hands nh ids Hn Hslot Hinj B w (wt * mu) L bd fl st v Hw); try assumption.
        - apply scored_ok; assumption.
        - intros b o. specialize (HB b o). rewrite amount_cons in HB. cbn [fst snd] in HB. lia. }
      intros st' [Hst' Hv']. eapply may_weaken.
      { apply (IH gs' st' (fun o => v o + wt * mu * eff d slot o L + one o) Hrest Hst' Hv').
        intros b o. specialize (HB b o). rewrite amount_cons in HB. cbn [fst snd] in HB. lia. }
      intros st2 [Hst2 Hv2]. split; [exact Hst2|]. intros o. specialize (Hv2 o). cbv beta in Hv2. rewrite amount_cons. cbn [fst snd].
      replace (v o + (wt * mu * eff d slot o L + one o + amount gs' o)) with (v o + wt * mu * eff d slot o L + one o + amount gs' o) by lia.
      exact Hv2.
  Qed.

  Lemma fine_list es : Forall (fine p seen_cards hs wt) es -> exists gs, Forall2 (entry_ok p seen_cards hs wt) es gs.
  Proof.
    induction 1 as [|e es [g Hg] _ [gs IH]]; [exists []; constructor|]. exists (g :: gs). constructor; assumption.
  Qed.

  (* ----------------------------------------------------------------------- *)
  (** ** The deck *)

  Variable used : N.
  Hypothesis Hused : forall c, c < 52 -> N.testbit used c = on_table board dead c || existsb (N.eqb c) (dealt d).

  Lemma build_deck_unseen : build_deck used = rev (unseen board dead d).
  Proof.
    unfold build_deck, unseen. rewrite filter_rev. f_equal. apply filter_ext_in. intros c Hc. apply nseq_In in Hc.
    rewrite <- negb_orb, <- Hused by lia. rewrite land_bit_zero. reflexivity.
  Qed.

  Lemma in_seen c : In c seen_cards <-> In c (dealt d) \/ (c < 52 /\ N.testbit dead c = true /\ N.testbit board c = false).
  Proof.
    unfold seen_cards. rewrite in_app_iff, filter_In, negb_true_iff. unfold mask_cards. rewrite filter_In, nseq_In.
    split; [intros [H|[[H1 H2] H3]]|intros [H|(H1 & H2 & H3)]]; auto; right; [split; [lia|auto]|split; [split; [lia|auto]|auto]].
  Qed.
  Lemma in_board c : In c (mask_cards board) <-> c < 52 /\ N.testbit board c = true.
  Proof. unfold mask_cards. rewrite filter_In, nseq_In. split; intros [H1 H2]; (split; [lia|exact H2]). Qed.
  Lemma in_unseen c : In c (unseen board dead d) <-> c < 52 /\ on_table board dead c = false /\ ~ In c (dealt d).
  Proof.
    unfold unseen. rewrite filter_In, nseq_In, andb_true_iff, !negb_true_iff.
    assert (H : existsb (N.eqb c) (dealt d) = false <-> ~ In c (dealt d)).
    { rewrite <- existsb_eqb_In. destruct (existsb (N.eqb c) (dealt d)); split; congruence. }
    rewrite H. split; [intros (H1 & H2 & H3)|intros (H1 & H2 & H3)]; (split; [lia|auto]).
  Qed.

  Lemma legal_deck : legal seen_cards (mask_cards board) (build_deck used).
  Proof.
    apply possible_spec in Hposs as [Hnd Hot]. rewrite build_deck_unseen. split; [|split].
    - apply NoDup_app_intro; [apply mask_cards_ok|apply NoDup_rev, NoDup_filter, nseq_NoDup|].
      intros c H1 H2. apply in_board in H1 as [_ H1]. apply in_rev, in_unseen in H2 as (_ & H2 & _). unfold on_table in H2. rewrite H1 in H2. discriminate.
    - apply Forall_app. split; [apply mask_cards_ok|]. apply Forall_forall. intros c Hc. apply in_rev, in_unseen in Hc. apply Hc.
    - intros c Hc Hs. apply in_seen in Hs. apply in_app_or in Hc as [Hc|Hc].
      + apply in_board in Hc as [_ Hc]. destruct Hs as [Hs|(_ & _ & Hs)]; [|congruence]. apply Hot in Hs. unfold on_table in Hs. rewrite Hc in Hs. discriminate.
      + apply in_rev, in_unseen in Hc as (_ & Ht & Hd). destruct Hs as [Hs|(_ & Hs & _)]; [contradiction|]. unfold on_table in Ht. rewrite Hs, orb_true_r in Ht. discriminate.
  Qed.

  Lemma deck_sorted : Sorted (fun a b => rank_of b <= rank_of a) (build_deck used).
  Proof. unfold build_deck. apply rsorted_filter; [intros x y z; lia|apply all_cards_sorted]. Qed.

  (* ----------------------------------------------------------------------- *)
  (** ** Suit counts *)

  Variable phs : list hwi.
  Hypothesis Hphs : forall i, (i < length d)%nat -> exists h, get phs i = Ret h /\ h_cards h = holding d i.

  Lemma hole_suits_prefix k : (k <= length d)%nat -> exists sc,
    foldM (hole_suits_step phs) (seq 0 k) (repeat 0%nat 4) = Ret sc /\ length sc = 4%nat /\
    forall s, s < 4 -> nth (N.to_nat s) sc 0%nat = fold_right (fun h m => Nat.max (nsuit s (two_cards h)) m) 0%nat (firstn k d).
  Proof.
    induction k as [|k IH]; intros Hk.
    - exists (repeat 0%nat 4). split; [reflexivity|]. split; [reflexivity|]. intros s Hs. cbn [firstn fold_right].
      destruct (N.to_nat s) as [|[|[|[|[|]]]]]; reflexivity.
    - destruct (IH ltac:(lia)) as (sc & E & Hl & Hsc). rewrite seq_S, foldM_app, E. cbn [bind foldM Nat.add].
      unfold hole_suits_step. destruct (Hphs k ltac:(lia)) as (h & Eh & Hh). rewrite Eh. cbn [bind]. rewrite Hh, !csuit_suit.
      rewrite (firstn_S_nth d k ltac:(lia)). set (w := holding d k).
      change (c_1 w) with (first_card w). change (c_2 w) with (second_card w).
      pose proof (suit_lt (first_card w)) as Hs0. pose proof (suit_lt (second_card w)) as Hs1.
      assert (Hr : forall s, fold_right (fun h m => Nat.max (nsuit s (two_cards h)) m) 0%nat (firstn k d ++ [w]) =
        Nat.max (nsuit s (two_cards w)) (fold_right (fun h m => Nat.max (nsuit s (two_cards h)) m) 0%nat (firstn k d))).
      { intros s. generalize (firstn k d). induction l as [|y l IHl]; cbn [app fold_right]; [reflexivity|]. rewrite IHl. lia. }
      assert (Hns : forall s, nsuit s (two_cards w) = ((if (suit_of (first_card w) =? s)%N then 1 else 0) + (if (suit_of (second_card w) =? s)%N then 1 else 0))%nat).
      { intros s. unfold two_cards. rewrite !nsuit_cons. change (nsuit s []) with 0%nat. lia. }
      destruct (Nat.eqb_spec (N.to_nat (suit_of (first_card w))) (N.to_nat (suit_of (second_card w)))) as [Es|Es].
      + apply N2Nat.inj in Es. unfold updf. rewrite (get_nth sc _ 0%nat) by lia. cbn [bind]. rewrite upd_ok by lia. cbn [bind].
        eexists. split; [reflexivity|]. split; [rewrite set_nth_length; exact Hl|]. intros s Hs.
        rewrite Hr, Hns, <- Es, nth_set_nth by lia.
        destruct (N.eqb_spec (suit_of (first_card w)) s) as [Eq|Ne].
        * rewrite Eq, Nat.eqb_refl. rewrite Hsc by exact Hs. reflexivity.
        * destruct (Nat.eqb_spec (N.to_nat s) (N.to_nat (suit_of (first_card w)))) as [E2|_]; [exfalso; apply Ne; lia|].
          rewrite Hsc by exact Hs. reflexivity.
      + unfold updf. rewrite (get_nth sc _ 0%nat) by lia. cbn [bind]. rewrite upd_ok by lia. cbn [bind].
        rewrite (get_nth _ _ 0%nat) by (rewrite set_nth_length; lia). cbn [bind]. rewrite upd_ok by (rewrite set_nth_length; lia). cbn [bind].
        eexists. split; [reflexivity|]. split; [rewrite !set_nth_length; exact Hl|]. intros s Hs.
        rewrite Hr, Hns, !nth_set_nth by (rewrite ?set_nth_length; lia).
        destruct (Nat.eqb_spec (N.to_nat (suit_of (second_card w))) (N.to_nat (suit_of (first_card w)))) as [E2|_]; [congruence|].
        rewrite <- (Hsc s Hs).
        destruct (N.eqb_spec (suit_of (first_card w)) s) as [E1|N1], (N.eqb_spec (suit_of (second_card w)) s) as [E3|N3].
        * exfalso. apply Es. congruence.
        * destruct (Nat.eqb_spec (N.to_nat s) (N.to_nat (suit_of (second_card w)))) as [E4|_]; [exfalso; apply N3; lia|].
          rewrite E1, Nat.eqb_refl. lia.
        * rewrite E3, Nat.eqb_refl. lia.
        * destruct (Nat.eqb_spec (N.to_nat s) (N.to_nat (suit_of (second_card w)))) as [E4|_]; [exfalso; apply N3; lia|].
          destruct (Nat.eqb_spec (N.to_nat s) (N.to_nat (suit_of (first_card w)))) as [E5|_]; [exfalso; apply N1; lia|]. lia.
  Qed.

  Lemma hole_suits_ok : exists sc, hole_suits phs (length d) = Ret sc /\ length sc = 4%nat /\
    forall s, s < 4 -> nth (N.to_nat s) sc 0%nat = hs s.
  Proof.
    destruct (hole_suits_prefix (length d) (le_n _)) as (sc & E & Hl & Hsc). exists sc. split; [exact E|]. split; [exact Hl|].
    intros s Hs. rewrite Hsc by exact Hs. rewrite firstn_all. reflexivity.
  Qed.

  Variable bd : hand.
  Hypothesis Hbd : hand_of base (mask_cards board) bd.

  Lemma board_suits_ok sc : length sc = 4%nat -> (forall s, s < 4 -> nth (N.to_nat s) sc 0%nat = hs s) ->
    exists sc', add_board_suits p bd sc = Ret sc' /\ length sc' = 4%nat /\
    forall s, s < 4 -> nth (N.to_nat s) sc' 0%nat = tc hs s (mask_cards board).
  Proof.
    intros Hl Hsc. unfold add_board_suits.
    assert (Hc : forall s, s < 4 -> suit_count p bd s = Ret (Z.of_nat (nsuit s (mask_cards board)))).
    { intros s Hs. rewrite (suit_count_of base (mask_cards board) bd) by (try assumption; try (left; reflexivity); try (apply fits_of_length; lia); lia).
      f_equal. change (base =? 0) with false. cbv iota. lia. }
    assert (Hm : forall s, Z.to_nat (Z.of_nat (nsuit s (mask_cards board)) mod 256) = nsuit s (mask_cards board)).
    { intros s. rewrite Z.mod_small; [apply Nat2Z.id|]. pose proof (nsuit_le s (mask_cards board)). lia. }
    assert (Hstep : forall l s, s < 4 -> length l = 4%nat ->
      (z <- suit_count p bd s ;; updf l (N.to_nat s) (fun x => Ret (x + Z.to_nat (z mod 256))%nat)) =
      Ret (set_nth l (N.to_nat s) (nth (N.to_nat s) l 0 + nsuit s (mask_cards board))%nat)).
    { intros l s Hs Hll. rewrite Hc by exact Hs. cbn [bind]. unfold updf. rewrite (get_nth l _ 0%nat) by lia. cbn [bind].
      rewrite Hm. apply upd_ok. lia. }
    cbn [foldM]. rewrite Hstep by (try lia; reflexivity). cbn [bind]. rewrite Hstep by (rewrite ?set_nth_length; try lia; reflexivity). cbn [bind].
    rewrite Hstep by (rewrite ?set_nth_length; try lia; reflexivity). cbn [bind].
    rewrite Hstep by (rewrite ?set_nth_length; try lia; reflexivity). cbn [bind].
    eexists. split; [reflexivity|]. split; [rewrite !set_nth_length; exact Hl|]. intros s Hs.
    specialize (Hsc s Hs). unfold tc. rewrite <- Hsc. clear - Hl Hs.
    assert (Hs4 : s = 0 \/ s = 1 \/ s = 2 \/ s = 3) by lia.
    destruct Hs4 as [->|[->|[->| ->]]]; rewrite !nth_set_nth by (rewrite ?set_nth_length, Hl; lia); reflexivity.
  Qed.

  Lemma rem_ok : exists r, sub_ 32 p BOARD_CARDS (count bd) = Ret r /\ N.to_nat (trunc 8 r) = (5 - length (mask_cards board))%nat.
  Proof.
    rewrite (count_of base (mask_cards board) bd) by (try assumption; try (left; reflexivity); try (apply fits_of_length; lia); lia).
    rewrite N.mod_small by lia. unfold sub_, BOARD_CARDS.
    exists (5 - N.of_nat (length (mask_cards board))). replace (N.of_nat (length (mask_cards board)) <=? 5) with true by (symmetry; apply N.leb_le; lia).
    split; [reflexivity|]. unfold trunc. rewrite N.mod_small by (change (2 ^ 8) with 256; lia). lia.
  Qed.
End Deal.

Definition slot_of (p : profile) (d : list whand) (i : nat) : nat :=
  (NUM_HANDS * i + idx p (first_card (holding d i)) (second_card (holding d i)))%nat.

Definition seated (d : list whand) (phs : list hwi) : Prop :=
  forall i, (i < length d)%nat -> exists h, get phs i = Ret h /\ h_cards h = holding d i.

Lemma setup_hands_ok p d phs ids : Forall (fun h => hole (first_card h) (second_card h)) d -> (length d <= 9)%nat ->
  seated d phs -> (forall i, (i < length d)%nat -> get ids i = Ret i) ->
  exists hands lookup, setup_hands p phs ids (length d) = Ret (hands, lookup) /\ seats d hands /\
    forall i, (i < length d)%nat -> get lookup i = Ret (slot_of p d i) /\ (slot_of p d i < length d * NUM_HANDS)%nat.
Proof.
  intros Hh Hn Hse Hids.
  assert (HI : forall k, (k <= length d)%nat -> exists hands lookup, setup_hands p phs ids k = Ret (hands, lookup) /\
    length hands = 9%nat /\ length lookup = 9%nat /\
    (forall i, (i < k)%nat -> exists x, get hands i = Ret x /\ hand_of 0 (two_cards (holding d i)) x) /\
    (forall i, (i < k)%nat -> get lookup i = Ret (slot_of p d i))).
  { induction k as [|k IH]; intros Hk.
    - exists (repeat hand_default MAX_PLAYERS), (repeat 0%nat MAX_PLAYERS). split; [reflexivity|]. repeat split; intros i Hi; lia.
    - destruct (IH ltac:(lia)) as (hands & lookup & E & Hl1 & Hl2 & H1 & H2).
      unfold setup_hands in *. rewrite seq_S, foldM_app, E. cbn [bind foldM Nat.add].
      destruct (Hse k ltac:(lia)) as (h & Eh & Hc). rewrite Eh. cbn [bind]. rewrite Hc.
      assert (Hin : hole (first_card (holding d k)) (second_card (holding d k))).
      { rewrite Forall_forall in Hh. apply Hh, nth_In. lia. }
      destruct (from_hole_cards_of p (first_card (holding d k)) (second_card (holding d k))) as (x & Ex & Hx); try apply Hin.
      change (c_1 (holding d k)) with (first_card (holding d k)). change (c_2 (holding d k)) with (second_card (holding d k)).
      rewrite Ex. cbn [bind]. rewrite upd_ok by lia. cbn [bind]. rewrite Hids by lia. cbn [bind].
      destruct (idx_spec p _ _ Hin) as [Ei Hi]. rewrite Ei. cbn [bind]. rewrite upd_ok by lia. cbn [bind]. rewrite Nat2N.id.
      eexists _, _. split; [reflexivity|]. split; [rewrite set_nth_length; exact Hl1|]. split; [rewrite set_nth_length; exact Hl2|]. split.
      + intros i Hik. destruct (Nat.eq_dec i k) as [->|Hne].
        * exists x. split; [|exact Hx]. apply get_ret, set_nth_same. lia.
        * destruct (H1 i ltac:(lia)) as (y & Ey & Hy). exists y. split; [|exact Hy]. apply get_ret. rewrite set_nth_other by congruence.
          apply get_ret. exact Ey.
      + intros i Hik. destruct (Nat.eq_dec i k) as [->|Hne].
        * apply get_ret. rewrite set_nth_same by lia. reflexivity.
        * apply get_ret. rewrite set_nth_other by congruence. apply get_ret, H2. lia. }
  destruct (HI (length d) (le_n _)) as (hands & lookup & E & _ & _ & H1 & H2). exists hands, lookup. split; [exact E|]. split; [exact H1|].
  intros i Hi. split; [apply H2; exact Hi|]. unfold slot_of.
  assert (Hin : hole (first_card (holding d i)) (second_card (holding d i))).
  { rewrite Forall_forall in Hh. apply Hh, nth_In. exact Hi. }
  destruct (idx_spec p _ _ Hin) as [_ Hlt]. unfold NUM_HANDS in *. nia.
Qed.

Lemma slot_inj p d i j : Forall (fun h => hole (first_card h) (second_card h)) d -> (i < length d)%nat -> (j < length d)%nat ->
  slot_of p d i = slot_of p d j -> i = j.
Proof.
  intros Hh Hi Hj E. unfold slot_of in E.
  assert (H : forall k, (k < length d)%nat -> (idx p (first_card (holding d k)) (second_card (holding d k)) < 1326)%nat).
  { intros k Hk. apply idx_spec. rewrite Forall_forall in Hh. apply Hh, nth_In. exact Hk. }
  pose proof (H i Hi). pose proof (H j Hj). unfold NUM_HANDS in *.
  destruct (Nat.lt_trichotomy i j) as [?|[?|?]]; [|assumption|]; exfalso; nia.
Qed.

(* what a deal of weight wt adds to a counter: e evaluations and, for the others, the sum over
   all boards *)
Definition gain (p : profile) (board dead : N) (d : list whand) (wt e : N) (o : obs) : N :=
  match o with
  | OCount => e
  | _ => wt * sumf (eff d (slot_of p d) o) (boards board dead d)
  end.

(* a number of evaluations that may stand for this many boards *)
Definition stands_for (e k : N) : Prop := e <= k /\ (0 < k -> 1 <= e).

Lemma length_le_sum (gs : list (N * list N)) : Forall (fun g => 1 <= fst g) gs -> N.of_nat (length gs) <= sumf fst gs.
Proof. induction 1 as [|g gs Hg _ IH]; [cbn; lia|]. rewrite sumf_cons. cbn [length]. lia. Qed.

Lemma entry_counts {p U hs wt} es gs : Forall2 (entry_ok p U hs wt) es gs -> Forall (fun g => 1 <= fst g) gs.
Proof. induction 1 as [|e g es gs H _ IH]; constructor; [apply H|exact IH]. Qed.

Theorem enumerate_board_ok p (B : Prop) board dead d phs w wt bd used ids :
  Forall (fun h => hole (first_card h) (second_card h)) d -> possible board dead d = true -> (length d <= 9)%nat ->
  (length (mask_cards board) <= 5)%nat -> seated d phs -> (forall i, (i < length d)%nat -> get ids i = Ret i) ->
  agr p w wt -> (B -> wt * 6 ^ 5 < 2 ^ 64) -> hand_of base (mask_cards board) bd ->
  (forall c, c < 52 -> N.testbit used c = on_table board dead c || existsb (N.eqb c) (dealt d)) ->
  exists e, stands_for e (N.of_nat (length (boards board dead d))) /\
    forall st v, shape (length d * NUM_HANDS) ids st -> (forall o, agr p (rd o st) (v o)) ->
    (B -> forall o, v o + gain p board dead d wt e o < 2 ^ 64) ->
    may p B (enumerate_board p (length d) phs w bd used st)
      (fun st' => shape (length d * NUM_HANDS) ids st' /\ forall o, agr p (rd o st') (v o + gain p board dead d wt e o)).
Proof.
  intros Hh Hposs Hn Hb5 Hse Hids Hw HB6 Hbd Hused.
  destruct (setup_hands_ok p d phs ids Hh Hn Hse Hids) as (hands & lookup & Esetup & Hseats & Hslot).
  pose proof (fun i j => slot_inj p d i j Hh) as Hinj.
  destruct (rem_ok p board d Hn Hb5 bd Hbd) as (r & Er & Hrem).
  set (rem := (5 - length (mask_cards board))%nat) in *.
  pose proof (legal_deck board dead d Hposs Hn Hb5 used Hused) as Hlegal.
  assert (Hlen : length (boards board dead d) = length (choose rem (unseen board dead d))) by (unfold boards; apply map_length).
  (* the boards, as the enumeration sees them *)
  assert (Hsum : forall G, invariant (seen_cards board dead d) (hs d) G ->
    sumf (fun T => G (mask_cards board ++ T)) (choose rem (build_deck used)) = sumf G (boards board dead d)).
  { intros G HG. unfold boards. rewrite sumf_map. apply (choose_sum_perm (seen_cards board dead d) (hs d)); try assumption.
    - unfold rem. lia.
    - rewrite (build_deck_unseen board dead d Hn Hb5 used Hused). symmetry. apply Permutation_rev. }
  destruct (Nat.eqb_spec rem 0) as [E0|Hne].
  - (* the board is complete *)
    exists 1. rewrite Hlen, E0, choose_0. split; [split; cbn; lia|]. intros st v Hst Hv HB.
    assert (Hboards : boards board dead d = [mask_cards board]).
    { unfold boards. fold rem. rewrite E0, choose_0. cbn [map]. rewrite app_nil_r. reflexivity. }
    assert (Hb : board5 (seen_cards board dead d) (mask_cards board)).
    { destruct Hlegal as (H1 & H2 & H3). split; [eapply NoDup_app_l; exact H1|]. apply Forall_app in H2 as [H2 _]. split; [exact H2|].
      split; [|unfold rem in E0; lia]. intros c Hc. apply H3. apply in_or_app. left. exact Hc. }
    assert (Hgain : forall o, gain p board dead d wt 1 o = wt * eff d (slot_of p d) o (mask_cards board) + one o).
    { intros o. unfold gain. rewrite Hboards, sumf_cons, sumf_nil. destruct o; cbn [eff one]; lia. }
    destruct Hst as (Hs1 & Hs2 & Hs3). unfold enumerate_board. rewrite Hs3, Esetup. cbn [bind]. rewrite Er. cbn [bind]. rewrite Hrem. fold rem. rewrite E0. cbn [Nat.eqb].
    eapply may_weaken.
    { apply (evaluate_hands_ok p d (slot_of p d) lookup hands (length d * NUM_HANDS) ids Hn Hslot Hinj B w wt (mask_cards board) bd true st v Hw).
      - apply (scored_ok p board dead d Hh Hposs Hn Hb5 hands); try assumption. discriminate.
      - split; [exact Hs1|]. split; assumption.
      - exact Hv.
      - intros b o. specialize (HB b o). rewrite Hgain in HB. lia. }
    intros st' [H1 H2]. split; [exact H1|]. intros o. rewrite Hgain, N.add_assoc. apply H2.
  - destruct (hole_suits_ok board d Hn Hb5 phs Hse) as (sc0 & Esc0 & Hl0 & Hsc0).
    destruct (board_suits_ok p board d Hn Hb5 bd Hbd sc0 Hl0 Hsc0) as (sc & Esc & Hl & Hsc).
    pose proof (enumerate_covers p B (evaluate_hands p (length d) hands lookup) (seen_cards board dead d) (hs d) wt (S rem)
      rem (mask_cards board) bd (build_deck used) sc 0%nat w 1) as Hcov.
    assert (Hunfold : forall st, b_player_ids (s_batch st) = ids -> enumerate_board p (length d) phs w bd used st =
      ('(_, st') <- enumerate_board_rec p (evaluate_hands p (length d) hands lookup) (S rem) bd (build_deck used) sc rem 0%nat w st ;; Ret st')).
    { intros st Hid. unfold enumerate_board. rewrite Hid, Esetup. cbn [bind]. rewrite Er. cbn [bind]. rewrite Hrem. fold rem.
      destruct (Nat.eqb_spec rem 0) as [|_]; [contradiction|]. rewrite Esc0. cbn [bind]. rewrite Esc. reflexivity. }
    destruct Hcov as [(D' & es & [_ (gs & Hes & Hgs)] & _ & Em)|(Hdbg & HnB & es & Hfine & Em)].
    + lia.
    + split; [exact Hl|]. intros s Hs. left. apply Hsc. exact Hs.
    + unfold rem. lia.
    + exact Hbd.
    + lia.
    + rewrite N.mul_1_r. exact Hw.
    + intros b. specialize (HB6 b). rewrite N.mul_1_r. eapply N.le_lt_trans; [|exact HB6]. apply N.mul_le_mono_l, N.pow_le_mono_r; [discriminate|]. unfold rem. lia.
    + rewrite skipn_O. exact Hlegal.
    + rewrite skipn_O. apply (deck_sorted board d Hn Hb5).
    + (* all entries emitted *)
      rewrite skipn_O in Hgs.
      exists (N.of_nat (length gs)). split.
      * specialize (Hgs (fun _ => 1) ltac:(intros ? ? ? ? ?; reflexivity)). rewrite N.mul_1_l, (Hsum (fun _ => 1)) in Hgs by (intros ? ? ? ? ?; reflexivity).
        rewrite sumf_1_length in Hgs. rewrite <- Hgs. split; [|destruct gs; [intros H0; exact (False_ind _ (N.lt_irrefl _ H0))|cbn [length]; lia]].
        etransitivity; [apply length_le_sum; eapply entry_counts; exact Hes|]. apply sumf_le. intros g _. lia.
      * intros st v Hst Hv HB.
        assert (Ham : forall o, amount d (slot_of p d) wt gs o = gain p board dead d wt (N.of_nat (length gs)) o).
        { intros o. destruct o as [m|f k|]; cbn [amount gain]; [| |reflexivity].
          - rewrite (Hgs _ (eff_invariant board dead d Hh Hposs Hn Hb5 (slot_of p d) (OMask m))), N.mul_1_l, Hsum; [reflexivity|apply eff_invariant; assumption].
          - rewrite (Hgs _ (eff_invariant board dead d Hh Hposs Hn Hb5 (slot_of p d) (OHand f k))), N.mul_1_l, Hsum; [reflexivity|apply eff_invariant; assumption]. }
        rewrite Hunfold by apply Hst. rewrite Em.
        pose proof (fold_entries p board dead d Hh Hposs Hn Hb5 hands lookup ids (length d * NUM_HANDS) (slot_of p d) wt Hseats Hslot Hinj B es gs st v Hes Hst Hv) as Hfold.
        eapply may_bind; [eapply may_bind; [apply Hfold|]|].
        -- intros b o. rewrite Ham. apply HB. exact b.
        -- intros st' H'. apply (may_ret p B (D', st') (fun x => shape (length d * NUM_HANDS) ids (snd x) /\ forall o, agr p (rd o (snd x)) (v o + amount d (slot_of p d) wt gs o))). exact H'.
        -- intros [D2 st'] [H1 H2]. apply may_ret. split; [exact H1|]. intros o. rewrite <- Ham. apply H2.
    + (* overflow *)
      exists (N.of_nat (length (boards board dead d))). split; [split; lia|]. intros st v Hst Hv HB. right. split; [exact Hdbg|]. split; [|exact HnB].
      rewrite Hunfold by apply Hst. rewrite Em.
      destruct (fine_list p board dead d wt es Hfine) as (gs & Hes).
      pose proof (fold_entries p board dead d Hh Hposs Hn Hb5 hands lookup ids (length d * NUM_HANDS) (slot_of p d) wt Hseats Hslot Hinj False es gs st v Hes Hst Hv ltac:(contradiction)) as Hfold.
      destruct Hfold as [(st' & E & _)|(_ & E & _)]; rewrite E; reflexivity.
Qed.
