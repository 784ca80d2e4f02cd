(* Approximate runs of ranges given as texts. *)
From Verif Require Import Base BaseProofs SumFacts ListFacts Float64 Hand Range FastDivide Combined Sim Approx SpecPoker SpecHand SpecNames SpecEquity
  SpecResults SpecRun SpecApprox SpecRange SpecTable RangeProofs ShareProofs TableProofs PropRange PropApprox ProfileProofs.
Local Open Scope N_scope.

Lemma text_heavy lower p text hands : from_string lower p text = Ret hands -> fold_right (fun h w => N.max (weight h) w) 1 hands <= 100.
Proof.
  intros H. destruct (C22_well_formed _ _ _ _ H) as (H1 & _). clear H. induction hands as [|[[a b] w] hands IH]; [cbn; lia|].
  cbn [fold_right]. change (weight (a, b, w)) with w. specialize (IH (fun a b w Hin => H1 a b w (or_intror Hin))). destruct (H1 a b w (or_introl eq_refl)) as (_ & _ & _ & Hw). apply N.max_lub; assumption.
Qed.
Lemma text_heaviest lower p texts (ranges : list (list whand)) : from_strings lower p texts = Ret ranges -> heaviest ranges <= 100 ^ N.of_nat (length texts).
Proof.
  intros H. destruct (read_light _ _ _ _ H) as (EL & _). rewrite <- EL. apply prod_le. apply mapM_Forall2 in H. clear EL. induction H as [|t r texts ranges Ht Hr IH]; constructor; [exact (text_heavy _ _ _ _ Ht)|exact IH].
Qed.
Lemma text_samples lower p texts (ranges : list (list whand)) board dead q threads target cancelled shuf rngs fuel sched : from_strings lower p texts = Ret ranges -> permutes shuf ->
  accepted (length texts) board dead -> board < 2 ^ 64 -> dead < 2 ^ 64 -> N.of_nat (length sched) * 100 ^ N.of_nat (length texts) < 2 ^ 64 ->
  let run q := approx_equity q ranges board dead threads target cancelled shuf rngs fuel sched in
  run Release = run Debug /\ (run q = Ret (RErr ConflictingRanges) /\ deals ranges board dead = [] \/ (exists o, run q = Ret (ROk o)) \/ run q = Fail OutOfFuel).
Proof.
  intros HT Hs Ha Hb Hd Hw run. destruct (read_light _ _ _ _ HT) as (EL & Hr & _). rewrite <- EL in Ha. pose proof (text_heaviest _ _ _ _ HT) as HH.
  assert (HW : N.of_nat (length sched) * heaviest ranges < 2 ^ 64) by (eapply N.le_lt_trans; [apply N.mul_le_mono_l; exact HH|exact Hw]). clear HH Hw.
  assert (G : forall q, run q = Ret (RErr ConflictingRanges) /\ deals ranges board dead = [] \/ (exists o, run q = Ret (ROk o)) \/ run q = Fail OutOfFuel).
  { intros q'. destruct (C76_approx_only_overflow q' ranges board dead threads target cancelled shuf rngs fuel sched Hr Hs Ha Hb Hd) as [H|[H|[(_ & _ & H)|H]]]; [left; exact H|right; left; exact H|contradiction|right; right; exact H]. }
  split; [|apply G]. destruct (ag_approx ranges board dead threads target cancelled shuf rngs fuel sched) as [E|E]; [|exact E].
  destruct (G Debug) as [[H _]|[[o H]|H]]; unfold run in H; rewrite E in H; discriminate.
Qed.
