(* C124, C125: players who never win and players who always win. *)
From Coq Require Import Floats.SpecFloat.
From Verif Require Import Base Float64 Hand Range FastDivide Combined Sim Approx SpecPoker SpecNames SpecHand SpecEquity SpecResults SpecRun SpecApprox SpecShare SpecSure
  CombinedProofs MachineProofs ExactProofs ConvergeResultProofs EquityProofs SureProofs PropEquity.
Local Open Scope N_scope.

(* C124: a player who wins nothing in any deal on any board has the equity 0, unless nobody is
   credited with anything. *)
Theorem C124_exact : forall p ranges board dead threads cancelled sched o k, usable ranges -> exact_equity p ranges board dead threads cancelled sched = Ret (ROk o) ->
  never_wins ranges board dead k -> (k < length ranges)%nat -> nothing_won (o_results o) \/ nth k (r_equities (o_results o)) (f_of_N 1) = f_zero.
Proof.
  intros p ranges board dead threads cancelled sched o k Hu H Hn Hk. destruct (exact_hist _ _ _ _ _ _ _ _ Hu H) as (bs & _ & _ & HE & _). unfold nothing_won. rewrite HE at 1.
  exact (exact_never _ _ _ _ _ _ _ _ _ Hu H Hn Hk).
Qed.
Theorem C124_approx : forall p ranges board dead threads target cancelled shuf rngs fuel sched o k, Forall range_ok ranges -> permutes shuf ->
  approx_equity p ranges board dead threads target cancelled shuf rngs fuel sched = Ret (ROk o) ->
  never_wins ranges board dead k -> (k < length ranges)%nat -> nothing_won (o_results o) \/ nth k (r_equities (o_results o)) (f_of_N 1) = f_zero.
Proof.
  intros p ranges board dead threads target cancelled shuf rngs fuel sched o k Hr Hs H Hn Hk. destruct (approx_hist _ _ _ _ _ _ _ _ _ _ _ _ Hr Hs H) as (bs & _ & _ & HE & _). unfold nothing_won. rewrite HE at 1.
  exact (approx_never _ _ _ _ _ _ _ _ _ _ _ _ _ Hr Hs H Hn Hk).
Qed.
(* Kc Kd on the river against aces *)
Example C124_example : never_wins wit_ranges wit_board 0 1 /\ deals wit_ranges wit_board 0 <> [] /\ ~ never_wins aces three_diamonds 0 1.
Proof.
  split; [intros d l Hd Hl H; rewrite (wit_always d l Hd Hl) in H; destruct H as [H|[]]; discriminate|]. split; [vm_compute; discriminate|].
  intros H. apply (H [(51, 50, 2); (49, 48, 3)] [0; 39; 43; 47; 1]); vm_compute; auto 50.
Qed.

(* C125: a player who wins every deal on every board has the equity 1 and everybody else 0, as
   soon as one pot is counted. *)
Theorem C125_exact : forall p ranges board dead threads cancelled sched o k, usable ranges -> exact_equity p ranges board dead threads cancelled sched = Ret (ROk o) ->
  always_wins ranges board dead k -> (k < length ranges)%nat -> 0 < pots (r_wins_by_mask (o_results o)) ->
  r_equities (o_results o) = map (fun j => if (j =? k)%nat then f_of_N 1 else f_zero) (seq 0 (length ranges)).
Proof. exact exact_always. Qed.
Theorem C125_approx : forall p ranges board dead threads target cancelled shuf rngs fuel sched o k, Forall range_ok ranges -> permutes shuf ->
  approx_equity p ranges board dead threads target cancelled shuf rngs fuel sched = Ret (ROk o) ->
  always_wins ranges board dead k -> (k < length ranges)%nat -> 0 < pots (r_wins_by_mask (o_results o)) ->
  r_equities (o_results o) = map (fun j => if (j =? k)%nat then f_of_N 1 else f_zero) (seq 0 (length ranges)).
Proof. exact approx_always. Qed.
Example C125_example : exists o, approx_equity Debug wit_ranges wit_board 0 1 wit_target false wit_shuffle wit_rngs 0 wit_schedule = Ret (ROk o) /\
  r_equities (o_results o) = [f_of_N 1; f_zero].
Proof.
  destruct sure_witness as (o & H & Hp). exists o. split; [exact H|].
  exact (C125_approx _ _ _ _ _ _ _ _ _ _ _ _ 0%nat wit_ok wit_permutes H wit_always ltac:(cbn; lia) Hp).
Qed.

Print Assumptions C124_exact.
Print Assumptions C124_approx.
Print Assumptions C125_exact.
Print Assumptions C125_approx.
