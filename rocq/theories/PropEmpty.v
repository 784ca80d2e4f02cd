(* C138, C139: ranges without any possible deal. *)
From Verif Require Import Base Float64 Hand Range FastDivide Combined Sim Approx SpecPoker SpecNames SpecHand SpecEquity SpecResults SpecRun SpecApprox EmptyProofs.
Local Open Scope N_scope.

(* C138 is false.  Four players all need the ace of hearts, clubs or diamonds; each hand has one
   of 42 other cards.  There is no possible deal.  But any two ranges have 10332 compatible
   pairs, so nothing is combined and no error is reported. *)
Theorem C138_refuted : exists ranges, usable ranges /\ accepted (length ranges) 0 0 /\ deals ranges 0 0 = [] /\
  (forall p threads cancelled, exists sched o, exact_equity p ranges 0 0 threads cancelled sched = Ret (ROk o)) /\
  (forall p threads cancelled sched e, exact_equity p ranges 0 0 threads cancelled sched <> Ret (RErr e)) /\
  (forall p threads target cancelled shuf rngs fuel sched e, approx_equity p ranges 0 0 threads target cancelled shuf rngs fuel sched <> Ret (RErr e)).
Proof.
  exists four_aces. split; [exact four_ok|]. split; [vm_compute; repeat split; Lia.lia || discriminate|]. split; [apply four_none|]. split; [exact four_runs|]. split; intros; intros H.
  - apply exact_combined in H as [H|H]; [discriminate|exact (no_error _ _ H)].
  - apply approx_combined in H as [H|H]; [discriminate|exact (no_error _ _ H)].
Qed.

(* C139: without a possible deal a run counts nothing, and every equity is NaN *)
Theorem C139_exact : forall p ranges board dead threads cancelled sched o, usable ranges -> deals ranges board dead = [] ->
  exact_equity p ranges board dead threads cancelled sched = Ret (ROk o) -> let r := o_results o in
  r_wins_by_mask r = repeat 0 (2 ^ length ranges) /\ r_wins r = repeat 0 (length ranges) /\ r_ties r = repeat f_zero (length ranges) /\ Forall (fun e => f_is_nan e = true) (r_equities r).
Proof. exact exact_empty. Qed.
Theorem C139_approx : forall p ranges board dead threads target cancelled shuf rngs fuel sched o, Forall range_ok ranges -> permutes shuf -> deals ranges board dead = [] ->
  approx_equity p ranges board dead threads target cancelled shuf rngs fuel sched = Ret (ROk o) -> let r := o_results o in
  r_wins_by_mask r = repeat 0 (2 ^ length ranges) /\ r_wins r = repeat 0 (length ranges) /\ r_ties r = repeat f_zero (length ranges) /\ Forall (fun e => f_is_nan e = true) (r_equities r).
Proof. exact approx_empty. Qed.
Example C139_example : exists sched o, exact_equity Debug four_aces 0 0 2 false sched = Ret (ROk o) /\ r_wins (o_results o) = [0; 0; 0; 0] /\ length (r_wins_by_mask (o_results o)) = 16%nat.
Proof.
  destruct (four_runs Debug 2 false) as (sched & o & H). exists sched, o. split; [exact H|].
  destruct (C139_exact Debug four_aces 0 0 2 false sched o four_ok (four_none 0 0) H) as (E1 & E2 & _). split; [exact E2|]. rewrite E1. reflexivity.
Qed.

Print Assumptions C138_refuted.
Print Assumptions C139_exact.
Print Assumptions C139_approx.
