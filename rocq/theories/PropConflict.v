(* C140: two or three players. *)
From Verif Require Import Base Float64 Hand Range FastDivide Combined Sim Approx SpecPoker SpecNames SpecHand SpecRange SpecEquity SpecResults SpecRun SpecApprox SpecConflict
  ConflictProofs PropRange.
Local Open Scope N_scope.

(* C140: with two or three players the error is reported exactly when no deal is possible *)
Theorem C140_conflict : forall p ranges board dead, Forall range_ok ranges -> board < 2 ^ 64 -> dead < 2 ^ 64 -> accepted (length ranges) board dead ->
  (length ranges <= 3)%nat -> (length ranges = 3%nat -> Forall no_repeats ranges) ->
  (forall threads cancelled sched, exact_equity p ranges board dead threads cancelled sched = Ret (RErr ConflictingRanges) <-> deals ranges board dead = []) /\
  (forall threads target cancelled shuf rngs fuel sched, approx_equity p ranges board dead threads target cancelled shuf rngs fuel sched = Ret (RErr ConflictingRanges) <-> deals ranges board dead = []).
Proof. exact equity_conflict. Qed.
(* ranges read from text satisfy the last assumption *)
Theorem C140_text : forall lower p text hands, from_string lower p text = Ret hands -> no_repeats hands.
Proof.
  intros lower p text hands H. destruct (C22_well_formed _ _ _ _ H) as (H1 & H2 & _). unfold no_repeats. clear H. induction hands as [|[[a b] w] hands IH]; [constructor|].
  inversion H2 as [|x l Hn H2']; subst. constructor; [|apply IH; [intros; eapply H1; right; eassumption|exact H2']].
  apply Forall_forall. intros [[a' b'] w'] Hin [[E1 E2]|[E1 E2]]; cbn in E1, E2.
  - subst. apply Hn. apply in_map_iff. exists (a', b', w'). split; [reflexivity|exact Hin].
  - pose proof (H1 a b w (or_introl eq_refl)). pose proof (H1 a' b' w' (or_intror Hin)). lia.
Qed.
(* Three players need one of two aces each: any two of them can have theirs, but not all three.
   With a third ace in one of the ranges there is a deal. *)
Definition two_aces : list (list whand) := [[(51, 0, 1); (50, 0, 1)]; [(51, 4, 1); (50, 4, 1)]; [(51, 8, 1); (50, 8, 1)]].
Definition third_ace : list (list whand) := [[(51, 0, 1); (50, 0, 1)]; [(51, 4, 1); (50, 4, 1)]; [(51, 8, 1); (49, 8, 1)]].
Example C140_example :
  (forall threads sched, exact_equity Release two_aces 0 0 threads false sched = Ret (RErr ConflictingRanges)) /\
  (forall threads sched, exact_equity Release third_ace 0 0 threads false sched <> Ret (RErr ConflictingRanges)) /\
  deals [[(51, 0, 1); (50, 0, 1)]; [(51, 4, 1); (50, 4, 1)]] 0 0 <> [].
Proof.
  assert (R : forall rs, rs = two_aces \/ rs = third_ace -> Forall range_ok rs /\ Forall no_repeats rs).
  { intros rs [-> | ->]; (split; [repeat constructor; cbn; lia || discriminate|]); repeat constructor; cbn; unfold same_two; cbn; lia. }
  assert (A : accepted 3 0 0) by (vm_compute; repeat split; lia || discriminate).
  split; [|split; [|vm_compute; discriminate]]; intros threads sched.
  - destruct (R two_aces (or_introl eq_refl)) as [R1 R2]. destruct (C140_conflict Release two_aces 0 0 R1 eq_refl eq_refl A (le_n 3) (fun _ => R2)) as [HX _]. apply (proj2 (HX threads false sched)). vm_compute. reflexivity.
  - destruct (R third_ace (or_intror eq_refl)) as [R1 R2]. destruct (C140_conflict Release third_ace 0 0 R1 eq_refl eq_refl A (le_n 3) (fun _ => R2)) as [HX _]. specialize (HX threads false sched). intros H. apply HX in H. clear HX. assert (E : (length (deals third_ace 0 0) =? 0)%nat = false) by (vm_compute; reflexivity). rewrite H in E. discriminate.
Qed.

Print Assumptions C140_conflict.
Print Assumptions C140_text.
