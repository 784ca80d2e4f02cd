(* The combined ranges of a run, which arguments are rejected, and what one position and one
   deal mean, in terms of the specification. *)
From Verif Require Import Base BaseProofs SumFacts Ghost Float64 Hand HandProofs HandExprProofs Range FastDivide Combined Sim Approx SpecPoker SpecNames SpecHand SpecRange SpecEquity SpecResults SpecRun
  EnumProofs ShowdownProofs BoardProofs CombinedProofs PositionProofs MergeProofs MachineProofs SetupProofs ExactProofs ResultProofs.
From Coq Require Import Permutation.
Local Open Scope N_scope.
#[local] Opaque NUM_HANDS.

(* ------------------------------------------------------------------------- *)
(** * Counting bits *)

Lemma nseq_S a k : map N.succ (nseq a k) = nseq (N.succ a) k.
Proof. revert a. induction k as [|k IH]; intros a; [reflexivity|]. cbn [nseq map]. rewrite IH. reflexivity. Qed.
Lemma count_ones_double m : count_ones (2 * m) = count_ones m.
Proof. destruct m; reflexivity. Qed.
Lemma count_ones_double1 m : count_ones (2 * m + 1) = 1 + count_ones m.
Proof. destruct m; reflexivity. Qed.
Lemma count_bits k : forall m, m < 2 ^ N.of_nat k -> count_ones m = N.of_nat (length (filter (N.testbit m) (nseq 0 k))).
Proof.
  induction k as [|k IH]; intros m Hm.
  - cbn in Hm. assert (E : m = 0) by lia. subst m. reflexivity.
  - rewrite Nat2N.inj_succ, N.pow_succ_r' in Hm. cbn [nseq]. try change (0 + 1) with (N.succ 0). rewrite <- nseq_S. cbn [filter].
    rewrite CombinedProofs.filter_map_swap.
    assert (E : m = 2 * N.div2 m + N.b2n (N.odd m)) by (rewrite <- N.div2_odd; reflexivity).
    assert (Hh : N.div2 m < 2 ^ N.of_nat k) by (revert E Hm; destruct (N.odd m); cbn [N.b2n]; lia).
    assert (Hf : filter (fun x => N.testbit m (N.succ x)) (nseq 0 k) = filter (N.testbit (N.div2 m)) (nseq 0 k)).
    { apply filter_ext. intros x. rewrite E at 1. destruct (N.odd m); cbn [N.b2n]; [apply N.testbit_odd_succ; lia|rewrite N.add_0_r; apply N.testbit_even_succ; lia]. }
    rewrite Hf. rewrite N.bit0_odd. transitivity (count_ones (2 * N.div2 m + N.b2n (N.odd m))); [rewrite <- E; reflexivity|].
    destruct (N.odd m); cbn [N.b2n length].
    + rewrite count_ones_double1, (IH _ Hh), map_length. lia.
    + rewrite N.add_0_r, count_ones_double, (IH _ Hh), map_length. reflexivity.
Qed.
Lemma ones_ok m : m < 2 ^ 64 -> count_ones m = ones m.
Proof. exact (count_bits 64 m). Qed.

Lemma accepted_ok n board dead : board < 2 ^ 64 -> dead < 2 ^ 64 -> (validate n board dead = None <-> accepted n board dead).
Proof. intros Hb Hd. rewrite validate_none, (ones_ok _ Hb), (ones_ok _ Hd). reflexivity. Qed.

(* ------------------------------------------------------------------------- *)
(** * Which error is returned *)

Lemma validate_rejection n board dead : board < 2 ^ 64 -> dead < 2 ^ 64 -> validate n board dead = rejection n board dead.
Proof. intros Hb Hd. unfold validate, rejection. rewrite (ones_ok _ Hb), (ones_ok _ Hd). reflexivity. Qed.

Lemma exact_rejects p ranges board dead threads cancelled sched : board < 2 ^ 64 -> dead < 2 ^ 64 ->
  match rejection (length ranges) board dead with
  | Some e => exact_equity p ranges board dead threads cancelled sched = Ret (RErr e)
  | None => forall e, exact_equity p ranges board dead threads cancelled sched = Ret (RErr e) -> e = ConflictingRanges
  end.
Proof.
  intros Hb Hd. rewrite <- (validate_rejection _ _ _ Hb Hd). unfold exact_equity. destruct (validate (length ranges) board dead) as [e|] eqn:E; [reflexivity|].
  intros e H. unfold combine_ranges in H. apply bind_ret in H as (c & Hc & H). apply bind_ret in Hc as (hrs & _ & Hc). apply bind_ret in Hc as (crs & _ & Hc).
  injection Hc as <-. destruct (existsb (fun cr => cr_size cr =? 0) crs); [injection H as <-; reflexivity|exfalso].
  apply bind_ret in H as (m & _ & H). apply bind_ret in H as ([r0 flag] & _ & H). apply bind_ret in H as (dvs & _ & H). apply bind_ret in H as (y0 & _ & H).
  apply bind_ret in H as (y & _ & H). destruct (forallb xdone (xy_threads y)); [|discriminate]. apply bind_ret in H as (r & _ & H). discriminate.
Qed.
Lemma approx_rejects p ranges board dead threads target cancelled shuf rngs fuel sched : board < 2 ^ 64 -> dead < 2 ^ 64 ->
  match rejection (length ranges) board dead with
  | Some e => approx_equity p ranges board dead threads target cancelled shuf rngs fuel sched = Ret (RErr e)
  | None => forall e, approx_equity p ranges board dead threads target cancelled shuf rngs fuel sched = Ret (RErr e) -> e = ConflictingRanges
  end.
Proof.
  intros Hb Hd. rewrite <- (validate_rejection _ _ _ Hb Hd). unfold approx_equity. destruct (validate (length ranges) board dead) as [e|] eqn:E; [reflexivity|].
  intros e H. unfold combine_ranges in H. apply bind_ret in H as (c & Hc & H). apply bind_ret in Hc as (hrs & _ & Hc). apply bind_ret in Hc as (crs & _ & Hc).
  injection Hc as <-. destruct (existsb (fun cr => cr_size cr =? 0) crs); [injection H as <-; reflexivity|exfalso].
  apply bind_ret in H as (m & _ & H). apply bind_ret in H as ([r0 flag] & _ & H). apply bind_ret in H as (y0 & _ & H).
  apply bind_ret in H as (y & _ & H). destruct (forallb adone (ay_threads y)); [|discriminate]. apply bind_ret in H as (r & _ & H). discriminate.
Qed.

(* ------------------------------------------------------------------------- *)
(** * Combined ranges *)

Lemma joint_fair ranges ps : joint ranges ps = fair (map (range_of ranges) ps). Proof. reflexivity. Qed.
Lemma joint_hole ranges ps hs : Forall (Forall hole_hand) ranges -> In hs (joint ranges ps) -> Forall hole_hand hs.
Proof. intros Hok H. apply (fair_ok ranges Hok ps). rewrite <- joint_fair. exact H. Qed.

Lemma range_describes p ranges ps cr : Forall (Forall hole_hand) ranges -> range_is ranges ps cr -> describes p ranges ps cr.
Proof.
  intros Hok (H1 & H2 & H3 & H4 & H5). split; [exact H1|]. split; [exact H2|]. split; [exact H4|]. rewrite joint_fair.
  assert (Hall : Forall (Forall hole_hand) (fair (map (range_of ranges) ps))) by (apply Forall_forall; intros hs Hin; apply (joint_hole ranges ps hs Hok Hin)).
  revert Hall. clear H3 H4. induction H5 as [|hs c A cs Hc _ IH]; intros Hall; constructor; inversion Hall as [|? ? Hh Hall']; subst; [|apply IH; exact Hall'].
  destruct Hc as (C1 & C2 & _ & _ & C5 & C6). split; [exact C2|]. split; [exact C5|]. intros i Hi. destruct (C6 i Hi) as (x & Ex & Hx). rewrite Ex.
  assert (Hin : In (holding hs i) hs) by (unfold holding; apply nth_In; lia). rewrite Forall_forall in Hh. destruct (Hh _ Hin) as (Ha & Hb & _).
  destruct (from_hole_cards_of p (first_card (holding hs i)) (second_card (holding hs i)) Ha Hb) as (y & Ey & Hy). rewrite Ey. f_equal. eapply hand_of_unique; [exact Hy|exact Hx].
Qed.

Lemma Forall2_nth_both {A C} (R : A -> C -> Prop) l l' (d : A) (d' : C) i : Forall2 R l l' -> (i < length l)%nat -> R (nth i l d) (nth i l' d').
Proof. intros H. revert i. induction H as [|x y l l' Hxy _ IH]; intros [|i] Hi; cbn [length nth] in *; try lia; [exact Hxy|apply IH; lia]. Qed.

Lemma combined p ranges : Forall (Forall hole_hand) ranges -> (length ranges <= 9)%nat ->
  exists pss crs, from_ranges p ranges = Ret crs /\ Permutation (concat pss) (seq 0 (length ranges)) /\ Forall2 (describes p ranges) pss crs /\
    (forall i j, (j < i < length pss)%nat -> 10000 <= pairs_without (joint ranges (nth i pss [])) (joint ranges (nth j pss []))) /\
    Forall2 (fun ps cr => ps <> [] /\ ((2 <= length ps)%nat -> cr_size cr < 10000)) pss crs.
Proof.
  intros Hok H9. destruct (from_ranges_ok p ranges Hok H9) as (pss & crs & E & [HF HP] & Hset). exists pss, crs. split; [exact E|]. split; [exact HP|].
  assert (Hlen : length pss = length crs) by (eapply CombinedProofs.Forall2_length; exact HF). split; [|split].
  - clear - HF Hok. induction HF as [|ps cr pss crs (H & _) _ IH]; constructor; [apply range_describes; assumption|exact IH].
  - intros i j Hij. specialize (Hset i j ltac:(lia)).
    destruct (Forall2_nth_both _ _ _ [] cr_default i HF ltac:(lia)) as (Hi & _). destruct (Forall2_nth_both _ _ _ [] cr_default j HF ltac:(lia)) as (Hj & _).
    rewrite (estimate_ok ranges _ _ _ _ Hi Hj) in Hset. exact Hset.
  - clear - HF. induction HF as [|ps cr pss crs (_ & H & H') _ IH]; constructor; [split; assumption|exact IH].
Qed.

(* ------------------------------------------------------------------------- *)
(** * Conflicting ranges *)

Lemma ok_hole ranges : Forall range_ok ranges -> Forall (Forall hole_hand) ranges.
Proof. intros H. eapply Forall_impl; [|exact H]. intros r [Hr _]. eapply Forall_impl; [|exact Hr]. intros h [Hh _]. exact Hh. Qed.

Lemma conflict_sound p ranges board dead : Forall range_ok ranges -> (length ranges <= 9)%nat ->
  combine_ranges p ranges board dead = Ret (RErr ConflictingRanges) -> deals ranges board dead = [].
Proof.
  intros Hr H9 H. pose proof (ok_hole _ Hr) as Hh. unfold combine_ranges in H. rewrite (filter_ranges_ok p board dead ranges Hh) in H. cbn [bind] in H.
  destruct (from_ranges_ok p (filtered board dead ranges) (filtered_ok _ board dead ranges Hh) ltac:(rewrite filtered_length; exact H9)) as (pss & crs & Efr & [HF HP] & _).
  rewrite Efr in H. cbn [bind] in H. destruct (existsb (fun cr => cr_size cr =? 0) crs) eqn:Ee; [|discriminate].
  rewrite <- deals_filtered. apply (no_deals _ pss); [exact HP|]. clear - HF Ee. induction HF as [|ps cr pss crs (Hp & _) _ IH]; cbn [existsb] in Ee; [discriminate|].
  apply orb_true_iff in Ee as [Ee|Ee]; [left|right; apply IH; exact Ee]. apply N.eqb_eq in Ee. rewrite <- Ee. symmetry. apply range_is_size. exact Hp.
Qed.

Lemma concat_in {A} (x : A) ls : In x (concat ls) -> exists l, In l ls /\ In x l.
Proof. intros H. apply in_concat in H. exact H. Qed.
Lemma conflict_complete p ranges board dead r : Forall range_ok ranges -> (length ranges <= 9)%nat -> In r ranges -> emptied board dead r ->
  combine_ranges p ranges board dead = Ret (RErr ConflictingRanges).
Proof.
  intros Hr H9 Hin He. pose proof (ok_hole _ Hr) as Hh. unfold combine_ranges. rewrite (filter_ranges_ok p board dead ranges Hh). cbn [bind].
  destruct (from_ranges_ok p (filtered board dead ranges) (filtered_ok _ board dead ranges Hh) ltac:(rewrite filtered_length; exact H9)) as (pss & crs & Efr & [HF HP] & _).
  rewrite Efr. cbn [bind]. assert (Ee : existsb (fun cr => cr_size cr =? 0) crs = true); [|rewrite Ee; reflexivity].
  apply (In_nth _ _ []) in Hin as (i & Hi & Er).
  assert (Hfe : range_of (filtered board dead ranges) i = []).
  { unfold range_of, filtered. rewrite (nth_indep _ _ (filter (free board dead) [])) by (rewrite map_length; exact Hi). rewrite map_nth, Er.
    apply filter_none. intros h Hhin. unfold free, SpecRange.avoids. specialize (He h Hhin). unfold on_table in He.
    destruct (N.testbit board (first_card h)), (N.testbit dead (first_card h)), (N.testbit board (second_card h)), (N.testbit dead (second_card h)); cbn in *; try reflexivity; destruct He; discriminate. }
  assert (Hi2 : In i (concat pss)).
  { eapply Permutation_in; [symmetry; exact HP|]. apply in_seq. rewrite filtered_length. lia. }
  apply concat_in in Hi2 as (ps & Hps & Hips). clear - HF Hfe Hps Hips. induction HF as [|ps0 cr pss crs (Hp & _) _ IH]; [contradiction|]. cbn [existsb].
  destruct Hps as [->|Hps]; [|rewrite (IH Hps); apply orb_true_r]. rewrite (range_is_size _ _ _ Hp). unfold size_of, fairs, fair.
  rewrite picks_empty; [reflexivity|]. rewrite <- Hfe. apply in_map. exact Hips.
Qed.

Lemma equity_conflict_sound p ranges board dead : Forall range_ok ranges ->
  (forall threads cancelled sched, exact_equity p ranges board dead threads cancelled sched = Ret (RErr ConflictingRanges) -> deals ranges board dead = []) /\
  (forall threads target cancelled shuf rngs fuel sched, approx_equity p ranges board dead threads target cancelled shuf rngs fuel sched = Ret (RErr ConflictingRanges) -> deals ranges board dead = []).
Proof.
  intros Hr. assert (Hn : forall e, validate (length ranges) board dead = e -> e <> Some ConflictingRanges).
  { intros e <-. unfold validate. repeat (match goal with |- context [if ?b then _ else _] => destruct b end); discriminate. }
  assert (H9 : validate (length ranges) board dead = None -> (length ranges <= 9)%nat).
  { intros H. apply validate_none in H. lia. }
  split; intros *; intros H; [unfold exact_equity in H|unfold approx_equity in H].
  all: change (@length (list combo) ranges) with (@length (list whand) ranges) in H;
    destruct (validate (length ranges) board dead) as [e|] eqn:Ev; [injection H as ->; exfalso; apply (Hn _ eq_refl); reflexivity|]; specialize (H9 eq_refl).
  - apply bind_ret in H as (c & Hc & H). destruct c as [[hrs crs]|e].
    + exfalso. apply bind_ret in H as (m & _ & H). apply bind_ret in H as ([r0 flag] & _ & H). apply bind_ret in H as (dvs & _ & H). apply bind_ret in H as (y0 & _ & H).
      apply bind_ret in H as (y & _ & H). destruct (forallb xdone (xy_threads y)); [|discriminate]. apply bind_ret in H as (r & _ & H). discriminate.
    + injection H as ->. eapply conflict_sound; eassumption.
  - apply bind_ret in H as (c & Hc & H). destruct c as [[hrs crs]|e].
    + exfalso. apply bind_ret in H as (m & _ & H). apply bind_ret in H as ([r0 flag] & _ & H). apply bind_ret in H as (y0 & _ & H).
      apply bind_ret in H as (y & _ & H). destruct (forallb adone (ay_threads y)); [|discriminate]. apply bind_ret in H as (r & _ & H). discriminate.
    + injection H as ->. eapply conflict_sound; eassumption.
Qed.
Lemma equity_conflict_complete p ranges board dead : Forall range_ok ranges -> board < 2 ^ 64 -> dead < 2 ^ 64 -> accepted (length ranges) board dead ->
  Exists (emptied board dead) ranges ->
  (forall threads cancelled sched, exact_equity p ranges board dead threads cancelled sched = Ret (RErr ConflictingRanges)) /\
  (forall threads target cancelled shuf rngs fuel sched, approx_equity p ranges board dead threads target cancelled shuf rngs fuel sched = Ret (RErr ConflictingRanges)).
Proof.
  intros Hr Hb Hd Ha He. apply (accepted_ok _ _ _ Hb Hd) in Ha. assert (H9 : (length ranges <= 9)%nat) by (apply validate_none in Ha; lia).
  assert (Ha' : validate (@length (list combo) ranges) board dead = None) by exact Ha.
  apply Exists_exists in He as (r & Hin & He). pose proof (conflict_complete p ranges board dead r Hr H9 Hin He) as Hc.
  split; intros; [unfold exact_equity|unfold approx_equity]; rewrite Ha', Hc; reflexivity.
Qed.
