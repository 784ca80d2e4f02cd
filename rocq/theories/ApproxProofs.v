(* Approximate runs: what the threads sample and count, under every interleaving. *)
From Verif Require Import Base BaseProofs SumFacts Ghost Float64 Hand FastDivide Range Combined Sim Approx SpecPoker ListFacts PokerFacts
  HandProofs HandExprProofs SpecNames SpecHand SpecRange SpecEquity SpecResults SpecRun SpecApprox EnumProofs ShowdownProofs BoardProofs CombinedProofs PositionProofs MergeProofs
  MachineProofs SetupProofs WeightProofs FinalProofs ExactProofs ResultProofs WalkProofs.
From Coq Require Import Permutation.
Local Open Scope N_scope.

#[local] Opaque NUM_HANDS.

(* returns a value in P, or runs out of fuel and then [short] holds, or panics on an overflow in a checked build and then B fails *)
Definition runs {A} (p : profile) (B short : Prop) (m : outcome A) (P : A -> Prop) : Prop := may p B m P \/ (short /\ m = Fail OutOfFuel).
Section Runs.
  Variable p : profile.
  Variable B short : Prop.
  Lemma runs_may {A} (m : outcome A) P : may p B m P -> runs p B short m P. Proof. left. assumption. Qed.
  Lemma runs_ret {A} (a : A) (P : A -> Prop) : P a -> runs p B short (Ret a) P. Proof. intros H. left. apply may_ret. exact H. Qed.
  Lemma runs_bind {A C} (m : outcome A) (k : A -> outcome C) P Q : runs p B short m P -> (forall a, P a -> runs p B short (k a) Q) -> runs p B short (bind m k) Q.
  Proof. intros [[(a & -> & Ha)|(Hp & -> & HB)]|[Hs ->]] H; [apply H; exact Ha|left; right; auto|right; split; [exact Hs|reflexivity]]. Qed.
  Lemma runs_weaken {A} (m : outcome A) (P Q : A -> Prop) : runs p B short m P -> (forall a, P a -> Q a) -> runs p B short m Q.
  Proof. intros [H|H] HPQ; [left; eapply may_weaken; eassumption|right; exact H]. Qed.
  Lemma runs_holds {A} (m : outcome A) P a : runs p B short m P -> m = Ret a -> P a.
  Proof. intros [H|[_ H]] E; [eapply may_holds; eassumption|congruence]. Qed.
End Runs.
Lemma runs_any {A} p (B short : Prop) (m : outcome A) P : runs p B short m P -> runs p B True m P.
Proof. intros [H|[_ H]]; [left; exact H|right; split; [exact I|exact H]]. Qed.

(* ------------------------------------------------------------------------- *)
(** * A random board *)

Lemma draw_card_ok fuel used : forall r, (exists c r', draw_card fuel used r = Ret (c, r') /\ c < 52 /\ N.testbit used c = false) \/ draw_card fuel used r = Fail OutOfFuel.
Proof.
  induction fuel as [|fuel IH]; intros r; [right; reflexivity|]. cbn [draw_card sample]. rewrite land_bit_zero.
  set (c := draws r (drawn r) mod CARD_COUNT). assert (Hc : c < 52) by (unfold c; apply N.mod_lt; discriminate).
  destruct (N.testbit used c) eqn:E; cbn [negb]; [apply IH|]. left. eauto.
Qed.

Lemma randomize_board_ok p fuel : forall k used r bd l, hand_of base l bd -> (length l + k <= 5)%nat ->
  (exists bd' r' cs, randomize_board p fuel k used r bd = Ret (bd', r') /\ length cs = k /\ NoDup cs /\
     Forall (fun c => c < 52 /\ N.testbit used c = false) cs /\ hand_of base (l ++ cs) bd') \/ ((0 < k)%nat /\ randomize_board p fuel k used r bd = Fail OutOfFuel).
Proof.
  induction k as [|k IH]; intros used r bd l Hof Hl; cbn [randomize_board].
  - left. exists bd, r, []. rewrite app_nil_r. split; [reflexivity|]. split; [reflexivity|]. split; [constructor|]. split; [constructor|exact Hof].
  - destruct (draw_card_ok fuel used r) as [(c & r' & E & Hc & Hu)|E]; rewrite E; cbn [bind]; [|right; split; [lia|reflexivity]].
    destruct (CARDS_get_ok c Hc) as (x & Ex & _). rewrite Ex. cbn [bind].
    destruct (hand_add_card p base l bd c x) as (bd1 & E1 & Hof1); try assumption.
    + lia.
    + cbn [length]. lia.
    + apply fits_of_length. cbn [length]. lia.
    + rewrite E1. cbn [bind].
      destruct (IH (N.lor used (N.shiftl 1 c)) r' bd1 (c :: l) Hof1) as [(bd' & r2 & cs & E2 & L & Hn & HF & Hof2)|[_ E2]]; [cbn [length]; lia| |right; split; [lia|exact E2]].
      left. exists bd', r2, (c :: cs). split; [exact E2|]. split; [cbn [length]; congruence|]. split; [|split].
      * constructor; [|exact Hn]. intros Hin. rewrite Forall_forall in HF. destruct (HF c Hin) as [_ Hf].
        rewrite N.lor_spec, pow2_mask, N.eqb_refl, orb_true_r in Hf by lia. discriminate.
      * constructor; [auto|]. eapply Forall_impl; [|exact HF]. cbv beta. intros a [Ha Hb]. split; [exact Ha|].
        rewrite N.lor_spec in Hb. apply orb_false_iff in Hb. apply Hb.
      * eapply hand_of_perm; [|exact Hof2]. cbn [app]. apply Permutation_middle.
Qed.

(* ------------------------------------------------------------------------- *)
(** * Weights *)

Lemma mul_all_ok p (B : Prop) : forall ws w0 W0, agr p w0 W0 -> Forall (fun x => x < 2 ^ 64) ws ->
  (B -> N.max 1 W0 * prod_of (fun x => N.max 1 x) ws < 2 ^ 64) ->
  may p B (foldM (fun acc c => mul_ 64 p acc c) ws w0) (fun w => agr p w (W0 * prod_of (fun x => x) ws)).
Proof.
  induction ws as [|x ws IH]; intros w0 W0 Hw Hb HB.
  - cbn [foldM prod_of fold_right]. rewrite N.mul_1_r. apply may_ret. exact Hw.
  - cbn [foldM]. inversion Hb as [|? ? Hh Hb']; subst.
    change (prod_of (fun x => x) (x :: ws)) with (x * prod_of (fun x => x) ws).
    change (prod_of (fun x => N.max 1 x) (x :: ws)) with (N.max 1 x * prod_of (fun x => N.max 1 x) ws) in HB.
    assert (H1 : 1 <= prod_of (fun x => N.max 1 x) ws).
    { clear. induction ws as [|x ws IH]; [cbn; lia|]. change (1 <= N.max 1 x * prod_of (fun x => N.max 1 x) ws). nia. }
    eapply may_bind; [apply may_mul; [exact Hw|apply agr_small; exact Hh|]|].
    + intros b. apply HB in b. revert b H1. clear. generalize (2 ^ 64), (prod_of (fun x => N.max 1 x) ws). intros. nia.
    + intros w1 Hw1. cbv beta in Hw1. rewrite N.mul_assoc. apply IH; [exact Hw1|exact Hb'|]. intros b. apply HB in b. revert b H1. clear.
      generalize (2 ^ 64), (prod_of (fun x => N.max 1 x) ws). intros L a Hlt H1.
      assert (H : N.max 1 (W0 * x) <= N.max 1 W0 * N.max 1 x) by nia.
      rewrite N.mul_assoc in Hlt. eapply N.le_lt_trans; [apply N.mul_le_mono_r; exact H|exact Hlt].
Qed.
Lemma prod_app {A} (f : A -> N) l l' : prod_of f (l ++ l') = prod_of f l * prod_of f l'.
Proof. induction l as [|x l IH]; cbn [app]; [cbn [prod_of fold_right]; lia|]. change (f x * prod_of f (l ++ l') = f x * prod_of f l * prod_of f l'). rewrite IH. lia. Qed.
Lemma prod_ones (f : N -> N) k : f 1 = 1 -> prod_of f (repeat 1 k) = 1.
Proof. intros H. induction k as [|k IH]; [reflexivity|]. cbn [repeat]. change (f 1 * prod_of f (repeat 1 k) = 1). rewrite IH, H. reflexivity. Qed.
Lemma prod_map {A C} (g : A -> C) (f : C -> N) l : prod_of f (map g l) = prod_of (fun x => f (g x)) l.
Proof. induction l as [|x l IH]; [reflexivity|]. cbn [map]. change (f (g x) * prod_of f (map g l) = f (g x) * prod_of (fun x => f (g x)) l). rewrite IH. reflexivity. Qed.

(* ------------------------------------------------------------------------- *)
(** * One evaluation *)

Definition item_gain (p : profile) (s : sample_of) (o : obs) : N :=
  deal_weight (fst s) * eff (fst s) (slot_of p (fst s)) o (snd s) + one o.

Section Eval.
  Variable p : profile.
  Variable B : Prop.
  Variable ranges : list (list whand).
  Variable pss : list (list nat).
  Variable crs : list crange.
  Variable board dead : N.
  Variable m : simulator.
  Variable ids : list nat.
  Variable fuel : nat.
  Hypothesis Hok : Forall (Forall hole_hand) ranges.
  Hypothesis Hw : Forall (Forall (fun h => weight h < 2 ^ 64)) ranges.
  Hypothesis Hn2 : (2 <= length ranges)%nat.
  Hypothesis Hn9 : (length ranges <= 9)%nat.
  Hypothesis HP : Permutation (concat pss) (seq 0 (length ranges)).
  Hypothesis HF : Forall2 (range_in ranges) pss crs.
  Hypothesis Hpos : Forall (fun cr => 0 < cr_size cr) crs.
  Hypothesis Hl9 : (length crs <= 9)%nat.
  Hypothesis Hb5 : (length (mask_cards board) <= 5)%nat.
  Hypothesis Hm1 : m_combined m = crs.
  Hypothesis Hm2 : m_board_mask m = board.
  Hypothesis Hm3 : m_dead_mask m = dead.
  Hypothesis Hm4 : hand_of base (mask_cards board) (m_fixed_board m).
  Hypothesis Hm5 : m_n_players m = length ranges.

  Definition good_sample (s : sample_of) : Prop := In (fst s) (deals ranges board dead) /\
    exists cs, snd s = mask_cards board ++ cs /\ length (snd s) = 5%nat /\ NoDup (dealt (fst s) ++ snd s) /\
      Forall (fun c => c < 52 /\ N.testbit dead c = false) cs.

  Lemma walk_weights w parts : holds_deal p ranges pss crs board dead w parts ->
    w_weights w = map weight (deal_of ranges pss parts) ++ repeat 1 (9 - length ranges).
  Proof.
    intros [[Hsz Hone] H1 H2 H3 H4 H5 H6]. destruct Hsz as (_ & _ & Z3 & _). apply nth_error_ext. intros i.
    assert (Hd : length (map weight (deal_of ranges pss parts)) = length ranges) by (rewrite map_length; apply deal_of_length).
    destruct (Nat.ltb_spec i (length ranges)) as [Hi|Hi].
    - rewrite nth_error_app1 by lia. rewrite map_nth_error'.
      pose proof (seat_pair ranges pss crs board dead m Hok Hn9 HP Hl9 Hm2 Hm3 parts H1 i Hi) as Hp. destruct (H3 _ _ Hp) as (_ & _ & E). rewrite E.
      assert (Hi' : (i < length (deal_of ranges pss parts))%nat) by (rewrite deal_of_length; exact Hi).
      rewrite (nth_error_nth' (deal_of ranges pss parts) (0, 0, 0) Hi'). reflexivity.
    - rewrite nth_error_app2 by lia. destruct (Nat.ltb_spec i 9) as [H9|H9].
      + rewrite Hone by lia. symmetry. rewrite Hd. apply nth_error_repeat. lia.
      + rewrite (proj2 (nth_error_None (w_weights w) i)) by lia. symmetry. apply nth_error_None. rewrite repeat_length. lia.
  Qed.

  Lemma deal_in_weights d : In d (deals ranges board dead) -> Forall (fun h => weight h < 2 ^ 64) d.
  Proof.
    intros H. apply filter_In in H as [H _]. revert d H. clear - Hw. induction Hw as [|r rs Hr HF IH]; intros d H; cbn [picks] in H.
    - destruct H as [<-|[]]. constructor.
    - apply in_flat_map in H as (h & Hh & H). apply in_map_iff in H as (d' & <- & H). constructor; [|apply IH; assumption]. rewrite Forall_forall in Hr. apply Hr, Hh.
  Qed.

  #[local] Opaque randomize_board evaluate_hands hand_of count mask_cards fits N.pow deal_weight big_weight rd eff shape.
  Lemma walk_eval_ok r w parts st v : holds_deal p ranges pss crs board dead w parts -> shape (length ranges * NUM_HANDS) ids st ->
    (forall o, agr p (rd o st) (v o)) ->
    (B -> forall d, In d (deals ranges board dead) -> big_weight d < 2 ^ 64) ->
    (B -> forall s o, good_sample s -> v o + item_gain p s o < 2 ^ 64) ->
    runs p B (length (mask_cards board) < 5)%nat (walk_eval p m fuel r w st) (fun '(_, st') => shape (length ranges * NUM_HANDS) ids st' /\
      exists s, good_sample s /\ forall o, agr p (rd o st') (v o + item_gain p s o)).
  Proof.
    intros Hh Hst Hv HB0 HB. pose proof (walk_weights w parts Hh) as Eww. pose proof Hh as [[Hsz _] H1 H2 H3 H4 H5 H6].
    pose proof (fun i Hi => seat_pair ranges pss crs board dead m Hok Hn9 HP Hl9 Hm2 Hm3 parts H1 i Hi) as Hseat.
    assert (Hdl : length (deal_of ranges pss parts) = length ranges) by apply deal_of_length.
    assert (Hdh : Forall hole_hand (deal_of ranges pss parts)) by (apply (deal_of_hole ranges pss Hok HP parts H1)).
    assert (Hdin : In (deal_of ranges pss parts) (deals ranges board dead)) by (apply (deal_of_in ranges pss crs board dead m Hok Hn9 HP Hl9 Hm2 Hm3 parts H1 H4 H5)).
    assert (Hperm : Permutation (dealt (deal_of ranges pss parts)) (dealt (concat parts))) by (apply dealt_perm, (deal_of_perm ranges pss Hok HP parts H1)).
    set (d := deal_of ranges pss parts) in *. clearbody d.
    assert (Hposs : possible board dead d = true) by (apply filter_In in Hdin; apply Hdin).
    assert (Hu : forall c, N.testbit (N.lor (w_used w) dead) c = on_table board dead c || existsb (N.eqb c) (dealt d)).
    { intros c. rewrite N.lor_spec, H6, N.lor_spec. unfold on_table.
      assert (E : existsb (N.eqb c) (dealt d) = existsb (N.eqb c) (dealt (concat parts))).
      { apply eq_true_iff_eq. rewrite !existsb_eqb_In. split; apply Permutation_in; [exact Hperm|symmetry; exact Hperm]. }
      rewrite E. destruct (N.testbit board c), (N.testbit dead c), (existsb (N.eqb c) (dealt (concat parts))); reflexivity. }
    assert (Hwd : Forall (fun x => x < 2 ^ 64) (w_weights w)).
    { rewrite Eww. apply Forall_app. split; [apply Forall_map, deal_in_weights; exact Hdin|].
      rewrite Forall_forall. intros x Hx. apply repeat_spec in Hx. subst. reflexivity. }
    assert (Hprod : prod_of (fun x => x) (w_weights w) = deal_weight d).
    { rewrite Eww, prod_app, prod_ones, prod_map by reflexivity. rewrite N.mul_1_r. reflexivity. }
    unfold walk_eval. rewrite Hm3, Hm5. eapply runs_bind.
    { apply runs_may. apply (mul_all_ok p B (w_weights w) 1 1 (agr_1 p) Hwd). intros b.
      assert (Eb : prod_of (fun x => N.max 1 x) (w_weights w) = big_weight d).
      { rewrite Eww, prod_app, prod_ones, prod_map by reflexivity. rewrite N.mul_1_r. reflexivity. }
      rewrite Eb. change (N.max 1 1) with 1. rewrite N.mul_1_l. apply (HB0 b). exact Hdin. }
    intros wt Hwt. cbv beta in Hwt. rewrite Hprod, N.mul_1_l in Hwt.
    rewrite (count_of base (mask_cards board) (m_fixed_board m)) by (try assumption; try (left; reflexivity); try (apply fits_of_length; lia); lia).
    rewrite N.mod_small by lia. rewrite sub_ok by lia. cbn [bind].
    replace (N.to_nat (5 - N.of_nat (length (mask_cards board)))) with (5 - length (mask_cards board))%nat by lia.
    destruct (randomize_board_ok p fuel (5 - length (mask_cards board)) (N.lor (w_used w) dead) r (m_fixed_board m) (mask_cards board) Hm4 ltac:(lia))
      as [(bd & r' & cs & Er & Hcl & Hnd & HFc & Hof)|[Hk Er]]; rewrite Er; cbn [bind]; [|right; split; [lia|reflexivity]].
    assert (HL5 : length (mask_cards board ++ cs) = 5%nat) by (rewrite app_length; lia).
    pose proof (proj1 (possible_spec board dead d) Hposs) as [Hdnd Hdt]. destruct (mask_cards_ok board) as [Hbn Hbc].
    rewrite Forall_forall in HFc. assert (Hd9 : (length d <= 9)%nat) by lia.
    assert (Hcs : forall c, In c cs -> c < 52 /\ N.testbit board c = false /\ N.testbit dead c = false /\ ~ In c (dealt d)).
    { intros c Hc. destruct (HFc c Hc) as [Hlt Hf]. rewrite Hu in Hf. apply orb_false_iff in Hf as [Hf Hex]. unfold on_table in Hf. apply orb_false_iff in Hf as [Hf1 Hf2].
      split; [exact Hlt|]. split; [exact Hf1|]. split; [exact Hf2|]. intros Hin. apply existsb_eqb_In in Hin. congruence. }
    assert (HLnd : NoDup (mask_cards board ++ cs)).
    { apply NoDup_app_intro; [exact Hbn|exact Hnd|]. intros c Hc1 Hc2. apply (in_board board d Hd9 Hb5) in Hc1 as [_ Hc1]. apply Hcs in Hc2 as (_ & Hc2 & _). congruence. }
    assert (HLd : forall c, In c (mask_cards board ++ cs) -> ~ In c (dealt d)).
    { intros c Hc. apply in_app_or in Hc as [Hc|Hc]; [|apply Hcs; exact Hc]. intros Hin. apply Hdt in Hin. apply (in_board board d Hd9 Hb5) in Hc as [_ Hc]. unfold on_table in Hin. rewrite Hc in Hin. discriminate. }
    assert (HB5 : board5 (seen_cards board dead d) (mask_cards board ++ cs)).
    { split; [exact HLnd|]. split; [|split; [|exact HL5]].
      - apply Forall_app. split; [exact Hbc|]. apply Forall_forall. intros c Hc. apply Hcs. exact Hc.
      - intros c Hc Hs. apply (in_seen board dead d Hd9 Hb5) in Hs as [Hs|(_ & Hs1 & Hs2)]; [apply (HLd c); assumption|].
        apply in_app_or in Hc as [Hc|Hc]; [apply (in_board board d Hd9 Hb5) in Hc as [_ Hc]; congruence|apply Hcs in Hc as (_ & _ & Hc & _); congruence]. }
    assert (Hsl : forall i, (i < length d)%nat -> get (w_lookup w) i = Ret (slot_of p d i) /\ (slot_of p d i < length ranges * NUM_HANDS)%nat).
    { intros i Hi. rewrite Hdl in Hi. destruct (H3 _ _ (Hseat i Hi)) as (_ & E & _). split; [apply get_ret; exact E|].
      assert (Hhh : hole_hand (holding d i)) by (apply (proj1 (Forall_nth _ d) Hdh); lia). destruct (idx_spec p _ _ Hhh) as [_ L1]. unfold slot_of.
      assert (HN : NUM_HANDS = 1326%nat) by reflexivity. rewrite HN. nia. }
    assert (Hgs : good_sample (d, mask_cards board ++ cs)).
    { split; [exact Hdin|]. exists cs. cbn [fst snd]. split; [reflexivity|]. split; [exact HL5|]. split.
      - apply NoDup_app_intro; [exact Hdnd|exact HLnd|]. intros c Hc1 Hc2. apply (HLd c Hc2 Hc1).
      - apply Forall_forall. intros c Hc. destruct (Hcs c Hc) as (? & _ & ? & _). auto. }
    eapply runs_bind.
    { apply runs_may. rewrite <- Hdl.
      apply (evaluate_hands_ok p d (slot_of p d) (w_lookup w) (w_hands w) (length d * NUM_HANDS) ids) with (W := deal_weight d) (L := mask_cards board ++ cs) (v := v).
      - lia.
      - rewrite Hdl. exact (fun i Hi => Hsl i Hi) || (intros i Hi; apply Hsl; lia).
      - intros i j. apply slot_inj. exact Hdh.
      - exact Hwt.
      - apply (scored_ok p board dead d); try assumption; [|discriminate].
        intros i Hi. rewrite Hdl in Hi. destruct (H3 _ _ (Hseat i Hi)) as ((x & Ex & Hx) & _). exists x. split; [apply get_ret; exact Ex|exact Hx].
      - rewrite Hdl. exact Hst.
      - exact Hv.
      - intros b o. specialize (HB b _ o Hgs). unfold item_gain in HB. cbn [fst snd] in HB. lia. }
    intros st' [Hst' Hv']. apply runs_ret. rewrite Hdl in Hst'. split; [exact Hst'|]. exists (d, mask_cards board ++ cs). split; [exact Hgs|].
    intros o. unfold item_gain. cbn [fst snd]. rewrite N.add_assoc. apply Hv'.
  Qed.
End Eval.

(* ------------------------------------------------------------------------- *)
(** * The threads *)

Section AMachine.
  Variable p : profile.
  Variable B short : Prop.
  Variable n : nat.
  Variable m : simulator.
  Variable fuel : nat.
  Variable ids : list nat.
  Variable st0 : stats.
  Variable r0 : results.
  Variable K : nat.                         (* at most so many samples *)
  Variable ready dealt_out : walk -> Prop.
  Variable G : sample_of -> Prop.
  Variable C : sample_of -> obs -> N.
  Hypothesis Hn : (n <= 9)%nat.
  Hypothesis Hmn : m_n_players m = n.
  Hypothesis Hex : m_calc_exact m = false.
  Hypothesis Hguard : existsb (fun cr => cr_size cr =? 0) (m_combined m) || (length (m_combined m) =? 0)%nat = false.
  Hypothesis Hinit : stats_init n = Ret st0.
  Hypothesis Hshape0 : shape (n * NUM_HANDS) ids st0.
  Hypothesis Hids : forall i, (i < n)%nat -> get ids i = Ret i.
  Hypothesis Hzero : forall o, rd o st0 = 0.
  Hypothesis Hready0 : ready walk_init.
  Hypothesis Hready : forall w, dealt_out w -> ready w.
  Hypothesis Hdeal : forall r w, ready w -> exists ok r' w', randomize_hole_cards p m r w = Ret (ok, r', w') /\ ready w' /\ (ok = true -> dealt_out w').
  Hypothesis Hwalk : forall r w, dealt_out w -> exists r' w', walk_step p m r w = Ret (r', w') /\ dealt_out w'.
  Hypothesis Heval : forall r w st v, dealt_out w -> shape (n * NUM_HANDS) ids st -> (forall o, agr p (rd o st) (v o)) ->
    (B -> forall s o, G s -> v o + C s o < 2 ^ 64) ->
    runs p B short (walk_eval p m fuel r w st) (fun '(_, st') => shape (n * NUM_HANDS) ids st' /\ exists s, G s /\ forall o, agr p (rd o st') (v o + C s o)).
  Hypothesis HB1 : B -> forall L o, Forall G L -> (length L <= K)%nat -> sumf (fun s => C s o) L < 2 ^ 64.
  Hypothesis HB2 : B -> forall L, Forall G L -> (length L <= K)%nat -> sumf (fun i => sumf (fun s => C s (OMask i)) L) (seq 0 (2 ^ n)) < 2 ^ 64.

  Definition aval (L : list sample_of) (o : obs) : N := sumf (fun s => C s o) L.
  Lemma aval_app L L' o : aval (L ++ L') o = aval L o + aval L' o.
  Proof. apply sumf_app. Qed.
  Definition agood (L : list sample_of) (st : stats) : Prop := shape (n * NUM_HANDS) ids st /\ forall o, agr p (rd o st) (aval L o).
  Lemma agood_init : agood [] st0.
  Proof. split; [exact Hshape0|]. intros o. rewrite Hzero. apply agr_0. Qed.

  Definition athread_ok (L : list sample_of) (t : athread) : Prop :=
    match a_phase t with
    | AStart | ACheck => agood L (a_stats t) /\ ready (a_walk t)
    | AEval | AFlush | AWalk => agood L (a_stats t) /\ dealt_out (a_walk t)
    | AFinal => agood L (a_stats t)
    | ADone => L = []
    end.

  Definition astep_post (LR L : list sample_of) (sh : xshared) (t : athread) (sh' : xshared) (t' : athread) : Prop :=
    exists LR' L', athread_ok L' t' /\ results_ok p n r0 (xs_results sh') (aval LR') /\
      Forall G (LR' ++ L') /\ (length (LR' ++ L') <= S (length (LR ++ L)))%nat.

  Lemma astep_ok sh t L LR : athread_ok L t -> results_ok p n r0 (xs_results sh) (aval LR) -> Forall G (LR ++ L) ->
    (length (LR ++ L) < K)%nat -> runs p B short (astep p m fuel sh t) (fun '(sh', t') => astep_post LR L sh t sh' t').
  Proof.
    intros Ht HR HG HK. unfold astep, astep_post. destruct sh as [ep stop res msgs]. destruct t as [ph r w st]. unfold athread_ok in Ht.
    cbn [xs_enum_pos xs_stopped xs_results xs_msgs a_phase a_rng a_walk a_stats] in *.
    assert (Hmerge : forall finished, agood L st ->
      may p B (update_results p m ep stop res st finished) (fun '(r', _, _) => results_ok p n r0 r' (aval (LR ++ L)))).
    { intros finished [Hsh Hag]. assert (HGL : Forall G L) by (apply Forall_app in HG; apply HG). rewrite app_length in HK. eapply may_weaken.
      - apply (update_results_ok p B n Hn ids Hids m ep stop r0 res st finished (aval LR) (aval L) 0 Hmn); try assumption.
        + intros E. congruence.
        + intros b o _. rewrite <- aval_app. apply (HB1 b); [exact HG|rewrite app_length; lia].
        + intros b. apply (HB2 b); [exact HGL|lia].
      - intros [[r' s'] msg'] [HR' _]. eapply results_ok_ext; [exact HR'|]. intros o. cbv beta. symmetry. apply aval_app. }
    destruct ph.
    - (* AStart *) rewrite Hguard. destruct Ht as [Hg Hw]. destruct (Hdeal r w Hw) as (ok & r' & w' & E & Hw' & Hok). rewrite E. cbn [bind]. apply runs_ret.
      exists LR, L. unfold athread_ok. cbn [a_phase a_walk a_stats xs_results]. split; [destruct ok; auto|]. split; [exact HR|]. split; [exact HG|lia].
    - (* AEval *) destruct Ht as [[Hsh Hag] Hw]. eapply runs_bind.
      { apply (Heval r w st (aval L) Hw Hsh Hag). intros b s o Hs. assert (H : aval (L ++ [s]) o < 2 ^ 64).
        - apply (HB1 b); [apply Forall_app in HG as [_ HG]; apply Forall_app; auto|]. rewrite app_length in *. cbn [length]. lia.
        - rewrite aval_app in H. unfold aval in H at 2. rewrite sumf_cons, sumf_nil, N.add_0_r in H. exact H. }
      intros [r' st'] [Hsh' (s & Hs & Hag')]. apply runs_ret. exists LR, (L ++ [s]). unfold athread_ok. cbn [a_phase a_walk a_stats xs_results].
      assert (Hg' : agood (L ++ [s]) st').
      { split; [exact Hsh'|]. intros o. rewrite aval_app. unfold aval at 2. rewrite sumf_cons, sumf_nil, N.add_0_r. apply Hag'. }
      split; [destruct (_ =? 0); auto|]. split; [exact HR|]. split; [rewrite app_assoc; apply Forall_app; auto|].
      rewrite !app_length. cbn [length]. lia.
    - (* AFlush *) destruct Ht as [Hg Hw]. eapply runs_bind; [apply runs_may, (Hmerge false Hg)|]. intros [[r' stop'] msg] HR'. rewrite Hmn, Hinit. cbn [bind].
      apply runs_ret. exists (LR ++ L), []. unfold athread_ok. cbn [a_phase a_walk a_stats xs_results]. rewrite app_nil_r.
      split; [split; [exact agood_init|auto]|]. split; [exact HR'|]. split; [exact HG|lia].
    - (* ACheck *) destruct Ht as [Hg Hw]. destruct stop.
      + apply runs_ret. exists LR, L. unfold athread_ok. cbn [a_phase a_walk a_stats xs_results]. split; [exact Hg|]. split; [exact HR|]. split; [exact HG|lia].
      + destruct (Hdeal r w Hw) as (ok & r' & w' & E & Hw' & Hok). rewrite E. cbn [bind]. apply runs_ret.
        exists LR, L. unfold athread_ok. cbn [a_phase a_walk a_stats xs_results]. split; [destruct ok; auto|]. split; [exact HR|]. split; [exact HG|lia].
    - (* AWalk *) destruct Ht as [Hg Hw]. destruct (Hwalk r w Hw) as (r' & w' & E & Hw'). rewrite E. cbn [bind]. apply runs_ret.
      exists LR, L. unfold athread_ok. cbn [a_phase a_walk a_stats xs_results]. split; [auto|]. split; [exact HR|]. split; [exact HG|lia].
    - (* AFinal *) eapply runs_bind; [apply runs_may, (Hmerge true Ht)|]. intros [[r' stop'] msg] HR'.
      apply runs_ret. exists (LR ++ L), []. unfold athread_ok. cbn [a_phase a_walk a_stats xs_results]. rewrite app_nil_r.
      split; [reflexivity|]. split; [exact HR'|]. split; [exact HG|lia].
    - (* ADone *) apply runs_ret. exists LR, L. unfold athread_ok. cbn [a_phase a_walk a_stats xs_results]. split; [exact Ht|]. split; [exact HR|]. split; [exact HG|lia].
  Qed.

  Record ainv (y : asys) (LR : list sample_of) (Ls : list (list sample_of)) : Prop := mkAInv {
    ai_threads : Forall2 athread_ok Ls (ay_threads y);
    ai_results : results_ok p n r0 (xs_results (ay_shared y)) (aval LR);
    ai_good : Forall G (LR ++ concat Ls) }.

  Lemma aevent_ok y LR Ls e : ainv y LR Ls -> (length (LR ++ concat Ls) < K)%nat ->
    runs p B short (aevent p m fuel y e) (fun y' => exists LR' Ls', ainv y' LR' Ls' /\ (length (LR' ++ concat Ls') <= S (length (LR ++ concat Ls)))%nat).
  Proof.
    intros [I1 I2 I3] HK. destruct e as [tid|]; cbn [aevent].
    2:{ apply runs_ret. exists LR, Ls. split; [constructor; cbn [ay_shared ay_threads xs_results]; assumption|lia]. }
    destruct (nth_error (ay_threads y) tid) as [t|] eqn:Et.
    2:{ apply runs_ret. exists LR, Ls. split; [constructor; assumption|lia]. }
    destruct y as [sh ts]. cbn [ay_shared ay_threads] in *.
    destruct (nth_error_split ts tid Et) as (T1 & T2 & -> & Hlen). subst tid.
    apply Forall2_app_inv_r in I1 as (A1 & A2' & HA1 & HA2 & ->). inversion HA2 as [|L ? A2 ? HL HA2']; subst.
    rewrite concat_app in *. cbn [concat] in *. rewrite !Forall_app in I3. rewrite !app_length in HK. destruct I3 as (G1 & G2 & G3 & G4).
    eapply runs_bind.
    { apply (astep_ok sh t L LR); [exact HL|exact I2|apply Forall_app; auto|rewrite app_length; lia]. }
    intros [sh' t'] (LR' & L' & S1 & S2 & S3 & S4). apply runs_ret. cbn [ay_shared ay_threads]. rewrite set_nth_app.
    exists LR', (A1 ++ L' :: A2). apply Forall_app in S3 as [S3 S3']. split.
    - constructor; cbn [ay_shared ay_threads]; [|exact S2|].
      + apply Forall2_app; [exact HA1|]. constructor; assumption.
      + rewrite concat_app. cbn [concat]. rewrite !Forall_app. auto.
    - rewrite concat_app. cbn [concat]. rewrite !app_length in *. lia.
  Qed.

  Lemma arun_ok sched : forall y LR Ls, ainv y LR Ls -> (length (LR ++ concat Ls) + length sched <= K)%nat ->
    runs p B short (foldM (aevent p m fuel) sched y) (fun y' => exists LR' Ls', ainv y' LR' Ls' /\ (length (LR' ++ concat Ls') <= length (LR ++ concat Ls) + length sched)%nat).
  Proof.
    induction sched as [|e sched IH]; intros y LR Ls HI HK; cbn [foldM length] in *.
    - apply runs_ret. exists LR, Ls. split; [exact HI|lia].
    - eapply runs_bind; [apply (aevent_ok y LR Ls e HI); lia|]. intros y1 (LR1 & Ls1 & HI1 & Hl1).
      eapply runs_weaken; [apply (IH y1 LR1 Ls1 HI1); lia|]. intros y2 (LR2 & Ls2 & HI2 & Hl2). exists LR2, Ls2. split; [exact HI2|lia].
  Qed.

  Lemma ainit_ok k cancelled rngs : results_ok p n r0 r0 (fun _ => 0) -> exists y, ainit n k cancelled rngs r0 = Ret y /\ ainv y [] (repeat [] k).
  Proof.
    intros HR. unfold ainit. rewrite Hinit. cbn [bind]. eexists. split; [reflexivity|].
    constructor; cbn [ay_shared ay_threads xs_results].
    - generalize 0%nat. induction k as [|k IH]; intros a; cbn [repeat seq map]; constructor; [|apply IH].
      unfold athread_ok. cbn [a_phase a_walk a_stats]. split; [exact agood_init|exact Hready0].
    - exact HR.
    - cbn [app]. induction k as [|k IH]; [constructor|exact IH].
  Qed.

  Lemma adone_lists Ls ts : Forall2 athread_ok Ls ts -> forallb adone ts = true -> concat Ls = [].
  Proof.
    induction 1 as [|L t Ls ts H _ IH]; intros Hd; [reflexivity|]. cbn [forallb] in Hd. apply andb_true_iff in Hd as [Hd Hds].
    cbn [concat]. rewrite (IH Hds). unfold adone in Hd. unfold athread_ok in H. destruct (a_phase t); try discriminate. subst L. reflexivity.
  Qed.
End AMachine.
