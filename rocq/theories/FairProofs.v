(* The choices of an approximate run: every legal deal comes from one choice, fresh deals are
   the sampled choices when these are legal, and steps permute the legal choices. *)
From Verif Require Import Base BaseProofs SumFacts Ghost Float64 Hand FastDivide Range Combined Sim Approx SpecPoker ListFacts PokerFacts
  HandProofs HandExprProofs SpecNames SpecHand SpecRange SpecEquity SpecResults SpecRun SpecApprox SpecFair EnumProofs ShowdownProofs BoardProofs CombinedProofs PositionProofs WalkProofs.
From Coq Require Import Permutation.
Local Open Scope N_scope.

#[local] Opaque NUM_HANDS.

(* ------------------------------------------------------------------------- *)
(** * Lists of choices *)

Lemma picks_NoDup {A} (ls : list (list A)) : Forall (@NoDup A) ls -> NoDup (picks ls).
Proof.
  induction 1 as [|l ls Hl _ IH]; cbn [picks]; [constructor; [intros []|constructor]|].
  induction Hl as [|x l Hx _ IHl]; cbn [flat_map]; [constructor|]. apply NoDup_app_intro.
  - apply FinFun.Injective_map_NoDup; [|exact IH]. intros a b E. inversion E. reflexivity.
  - exact IHl.
  - intros v Hv Hv'. apply in_map_iff in Hv as (a & <- & _). apply in_flat_map in Hv' as (y & Hy & Hv'). apply in_map_iff in Hv' as (b & E & _). inversion E; subst. contradiction.
Qed.
Lemma choices_in m v : In v (choices m) <-> length v = length (m_combined m) /\ forall i cr j, nth_error (m_combined m) i = Some cr -> nth_error v i = Some j -> (j < length (cr_combos cr))%nat.
Proof.
  unfold choices. rewrite picks_in. generalize (m_combined m). clear. intros crs. split.
  - intros H. split; [rewrite (CombinedProofs.Forall2_length _ _ _ H), map_length; reflexivity|]. remember (map (fun cr => seq 0 (length (cr_combos cr))) crs) as L eqn:EL. revert crs EL.
    induction H as [|x l v L Hx _ IH]; intros crs EL i cr j Hi Hj; [destruct i; discriminate|]. destruct crs as [|cr0 crs]; [discriminate|]. inversion EL; subst.
    destruct i as [|i]; cbn [nth_error] in Hi, Hj; [|exact (IH crs eq_refl i cr j Hi Hj)]. inversion Hi; inversion Hj; subst. apply in_seq in Hx. lia.
  - revert v. induction crs as [|cr crs IH]; intros [|x v] [Hl H]; try discriminate; [constructor|]. cbn [map]. constructor.
    + apply in_seq. specialize (H 0%nat cr x eq_refl eq_refl). lia.
    + apply IH. split; [cbn in Hl; lia|]. intros i cr1 j Hi Hj. exact (H (S i) cr1 j Hi Hj).
Qed.
Lemma choices_NoDup m : NoDup (choices m).
Proof. apply picks_NoDup. apply Forall_forall. intros l Hl. apply in_map_iff in Hl as (cr & <- & _). apply seq_NoDup. Qed.

(* ------------------------------------------------------------------------- *)
(** * From choices to deals *)

Definition part (cr : crange) (j : nat) : list whand :=
  match nth_error (cr_combos cr) j with Some c => firstn (cr_player_count cr) (cc_hole c) | None => [] end.
Fixpoint parts_of (crs : list crange) (v : list nat) : list (list whand) :=
  match crs, v with cr :: crs', j :: v' => part cr j :: parts_of crs' v' | _, _ => [] end.

Definition range_all (ranges : list (list whand)) (ps : list nat) (cr : crange) : Prop :=
  exists hss, Permutation hss (fairs ranges ps) /\ Forall2 (combo_is (length ps)) hss (cr_combos cr).

Section Parts.
  Variable ranges : list (list whand).
  Lemma part_in ps cr j : range_in ranges ps cr -> (j < length (cr_combos cr))%nat -> exists c, nth_error (cr_combos cr) j = Some c /\
    In (part cr j) (fairs ranges ps) /\ combo_is (length ps) (part cr j) c.
  Proof.
    intros (H1 & _ & _ & _ & H) Hj. destruct (nth_error (cr_combos cr) j) as [c|] eqn:E; [|apply nth_error_None in E; lia]. exists c. split; [reflexivity|].
    rewrite Forall_forall in H. destruct (H c (nth_error_In _ _ E)) as (hs & Hhs & Hc). unfold part. rewrite E, H1. pose proof Hc as (_ & Ef & _). rewrite Ef. auto.
  Qed.
  Lemma parts_in pss crs v : Forall2 (range_in ranges) pss crs -> length v = length crs ->
    (forall i cr j, nth_error crs i = Some cr -> nth_error v i = Some j -> (j < length (cr_combos cr))%nat) ->
    Forall2 (fun ps hs => In hs (fairs ranges ps)) pss (parts_of crs v).
  Proof.
    intros HF. revert v. induction HF as [|ps cr pss crs Hcr _ IH]; intros [|j v] Hl H; try discriminate; cbn [parts_of]; constructor.
    - destruct (part_in ps cr j Hcr (H 0%nat cr j eq_refl eq_refl)) as (c & _ & Hin & _). exact Hin.
    - apply IH; [cbn in Hl; lia|]. intros i cr1 j1 Hi Hj. exact (H (S i) cr1 j1 Hi Hj).
  Qed.
  Lemma parts_of_length : forall crs v, length v = length crs -> length (parts_of crs v) = length crs.
  Proof. induction crs as [|cr crs IH]; intros [|j v] H; try discriminate; cbn [parts_of length] in *; [reflexivity|]. f_equal. apply IH. lia. Qed.
  Lemma parts_nth : forall crs v i cr j, nth_error crs i = Some cr -> nth_error v i = Some j -> nth_error (parts_of crs v) i = Some (part cr j).
  Proof.
    induction crs as [|cr0 crs IH]; intros [|j0 v] [|i] cr j H1 H2; try discriminate; cbn [nth_error parts_of] in *; [congruence|]. apply IH; assumption.
  Qed.

  Lemma given_part ps cr j : range_in ranges ps cr -> (j < length (cr_combos cr))%nat -> given cr j = combine ps (part cr j).
  Proof. intros Hr Hj. destruct (part_in ps cr j Hr Hj) as (c & E & _). destruct Hr as (H1 & H2 & _). unfold given, part. rewrite E, H1, H2. reflexivity. Qed.
  Hypothesis Hok : Forall (Forall hole_hand) ranges.
  Lemma given_parts : forall pss crs, Forall2 (range_in ranges) pss crs -> forall v, length v = length crs ->
    (forall i cr j, nth_error crs i = Some cr -> nth_error v i = Some j -> (j < length (cr_combos cr))%nat) ->
    flat_map (fun x => given (fst x) (snd x)) (combine crs v) = combine (concat pss) (concat (parts_of crs v)).
  Proof.
    induction 1 as [|ps cr pss crs Hcr _ IH]; intros [|j v] Hl H; try discriminate; [reflexivity|]. cbn [combine flat_map parts_of concat fst snd].
    assert (Hj := H 0%nat cr j eq_refl eq_refl). rewrite (given_part ps cr j Hcr Hj). destruct (part_in ps cr j Hcr Hj) as (c & _ & Hin & _).
    destruct (fairs_hole ranges Hok ps _ Hin) as (_ & Hlen & _). rewrite combine_app by (symmetry; exact Hlen). f_equal. apply IH; [cbn in Hl; lia|].
    intros i cr1 j1 Hi1 Hj1. exact (H (S i) cr1 j1 Hi1 Hj1).
  Qed.

  Lemma sum_parts (F : list (list whand) -> N) : forall pss crs, Forall2 (range_in ranges) pss crs -> Forall2 (range_all ranges) pss crs ->
    sumf (fun v => F (parts_of crs v)) (picks (map (fun cr => seq 0 (length (cr_combos cr))) crs)) = sumf F (picks (map (fairs ranges) pss)).
  Proof.
    intros pss crs HF. revert F. induction HF as [|ps cr pss crs Hcr _ IH]; intros F HA; inversion HA as [|? ? ? ? (hss & HPm & HC) HA']; subst; [reflexivity|].
    cbn [map picks]. rewrite !sumf_flat_map.
    transitivity (sumf (fun hs => sumf (fun parts => F (hs :: parts)) (picks (map (fairs ranges) pss))) (map (part cr) (seq 0 (length (cr_combos cr))))).
    - rewrite sumf_map. apply sumf_ext. intros j _. rewrite sumf_map. cbn [parts_of]. apply (IH (fun parts => F (part cr j :: parts)) HA').
    - assert (E : map (part cr) (seq 0 (length (cr_combos cr))) = hss).
      { apply nth_error_ext. intros k. rewrite map_nth_error'. destruct (Nat.ltb_spec k (length (cr_combos cr))) as [Hk|Hk].
        - rewrite (nth_error_nth' (seq 0 (length (cr_combos cr))) 0%nat) by (rewrite seq_length; exact Hk). rewrite seq_nth by exact Hk. cbn [option_map Nat.add].
          destruct Hcr as (H1 & _). unfold part. rewrite H1. clear - HC Hk. revert k Hk. induction HC as [|hs c hss cs Hx _ IHc]; intros [|k] Hk; cbn [length nth_error] in *; try lia.
          + destruct Hx as (_ & -> & _). reflexivity.
          + apply IHc. lia.
        - rewrite (proj2 (nth_error_None (seq 0 (length (cr_combos cr))) k)) by (rewrite seq_length; exact Hk). symmetry. apply nth_error_None.
          rewrite (CombinedProofs.Forall2_length _ _ _ HC). exact Hk. }
      rewrite E. rewrite (sumf_perm _ _ _ HPm). apply sumf_ext. intros hs _. rewrite sumf_map. reflexivity.
  Qed.
End Parts.

Lemma possible_clash board dead d : possible board dead d = distinct (dealt d) && negb (clash (N.lor board dead) (dealt d)).
Proof.
  unfold possible, clash. f_equal. generalize (dealt d). clear. induction l as [|c l IH]; [reflexivity|]. cbn [existsb forallb]. rewrite IH, negb_orb, N.lor_spec. reflexivity.
Qed.

Lemma sizes_pos ranges pss crs : Forall2 (range_in ranges) pss crs -> Forall2 (range_all ranges) pss crs -> Forall (fun cr => 0 < cr_size cr) crs ->
  Forall (fun ps => 0 < size_of ranges ps) pss.
Proof.
  induction 1 as [|ps cr pss crs Hcr _ IH]; intros HA Hpos; constructor; inversion HA as [|? ? ? ? (hss & HPm & HC) HA']; inversion Hpos as [|? ? Hp Hpos']; subst.
  - destruct Hcr as (_ & _ & _ & E & _). unfold size_of. rewrite <- (Permutation_length HPm), (CombinedProofs.Forall2_length _ _ _ HC), <- E. exact Hp.
  - apply IH; assumption.
Qed.

Section Fair.
  Variable p : profile.
  Variable ranges : list (list whand).
  Variable pss : list (list nat).
  Variable crs : list crange.
  Variable board dead : N.
  Variable m : simulator.
  Hypothesis Hok : Forall (Forall hole_hand) ranges.
  Hypothesis HP : Permutation (concat pss) (seq 0 (length ranges)).
  Hypothesis HF : Forall2 (range_in ranges) pss crs.
  Hypothesis Hm1 : m_combined m = crs.
  Hypothesis Hm5 : m_n_players m = length ranges.

  Notation legal := (legal_choice m board dead).

  Lemma choice_bound v : In v (choices m) -> length v = length crs /\ forall i cr j, nth_error crs i = Some cr -> nth_error v i = Some j -> (j < length (cr_combos cr))%nat.
  Proof. rewrite choices_in, Hm1. auto. Qed.
  Lemma choice_parts v : In v (choices m) -> Forall2 (fun ps hs => In hs (fairs ranges ps)) pss (parts_of crs v).
  Proof. intros H. destruct (choice_bound v H) as [H1 H2]. apply parts_in; assumption. Qed.
  Lemma choice_deal_of v : In v (choices m) -> choice_deal m v = deal_of ranges pss (parts_of crs v).
  Proof.
    intros H. destruct (choice_bound v H) as [H1 H2]. unfold choice_deal, deal_of, assemble, all_given. rewrite Hm5, Hm1.
    rewrite (given_parts ranges Hok pss crs HF v H1 H2). reflexivity.
  Qed.
  Lemma choice_legal v : In v (choices m) -> legal v = possible board dead (concat (parts_of crs v)).
  Proof.
    intros H. unfold legal_choice. rewrite (choice_deal_of v H). apply possible_perm. apply deal_of_perm; [exact Hok|exact HP|]. apply choice_parts. exact H.
  Qed.

  (* ----------------------------------------------------------------------- *)
  (** ** Every deal comes from one choice *)

  Hypothesis HA : Forall2 (range_all ranges) pss crs.
  Hypothesis Hpos : Forall (fun cr => 0 < cr_size cr) crs.

  Lemma sizes_positive : Forall (fun ps => 0 < size_of ranges ps) pss.
  Proof. exact (sizes_pos ranges pss crs HF HA Hpos). Qed.
  Lemma sum_choices (G : list whand -> N) : sumf (fun v => if legal v then G (choice_deal m v) else 0) (choices m) = sumf G (deals ranges board dead).
  Proof.
    set (F := fun parts => if possible board dead (concat parts) then G (deal_of ranges pss parts) else 0).
    transitivity (sumf (fun v => F (parts_of crs v)) (choices m)).
    { apply sumf_ext. intros v Hv. unfold F. rewrite (choice_legal v Hv), (choice_deal_of v Hv). reflexivity. }
    unfold choices. rewrite Hm1. rewrite (sum_parts ranges F pss crs HF HA). rewrite <- (sum_positions ranges F pss sizes_positive).
    exact (sum_deals ranges pss board dead HP sizes_positive G).
  Qed.
  Lemma choices_perm : Permutation (map (choice_deal m) (legal_choices m board dead)) (deals ranges board dead).
  Proof.
    assert (dec : forall a b : list whand, {a = b} + {a <> b}) by (repeat decide equality).
    apply (Permutation_count_occ dec). intros d.
    assert (E : forall l, N.of_nat (count_occ dec l d) = sumf (fun a => if dec a d then 1 else 0) l).
    { induction l as [|a l IH]; [reflexivity|]. rewrite sumf_cons, <- IH. cbn [count_occ]. destruct (dec a d); lia. }
    apply Nat2N.inj. rewrite !E, sumf_map. unfold legal_choices. rewrite sumf_filter. apply (sum_choices (fun a => if dec a d then 1 else 0)).
  Qed.
End Fair.
