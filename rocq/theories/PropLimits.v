(* C92, C93, C94: the limits of exact and approximate runs. *)
From Coq Require Import Floats.SpecFloat Permutation.
From Verif Require Import Base Float64 Hand Range FastDivide Combined Sim Approx SpecPoker SpecNames SpecHand SpecEquity SpecResults SpecRun SpecApprox
  CombinedProofs LimitProofs CrowdProofs NeverProofs PropApprox ConvergeResultProofs PropBatch.
Local Open Scope N_scope.

(* ------------------------------------------------------------------------- *)
(** * The number of positions *)

(* crowd: eight players with the same 256 hands, one of the cards 16 to 31 and one of the
   cards 0 to 15 *)
(* a deal: player i has the cards 16 + i and i *)
Definition crowd_deal : list whand := map (fun i => (16 + i, i, 100)) (nseq 0 8).
Lemma crowd_deals : In crowd_deal (deals crowd 0 0).
Proof.
  assert (Hin : forall i, In i (nseq 0 8) -> In (16 + i, i, 100) wide).
  { assert (G : forallb (fun i => existsb (fun h => (first_card h =? 16 + i) && (second_card h =? i) && (weight h =? 100)) wide) (nseq 0 8) = true) by (vm_compute; reflexivity).
    rewrite forallb_forall in G. intros i Hi. specialize (G i Hi). apply existsb_exists in G as (((a & b) & w) & Hh & E). cbn [first_card second_card weight fst snd] in E.
    apply andb_prop in E as [E E3]. apply andb_prop in E as [E1 E2]. apply N.eqb_eq in E1, E2, E3. subst a b w. exact Hh. }
  unfold deals. rewrite filter_In, picks_in. split; [|vm_compute; reflexivity]. unfold crowd_deal, crowd. revert Hin. generalize wide. intros r Hin.
  change 8%nat with (length (nseq 0 8)) at 2. induction (nseq 0 8) as [|i l IH]; cbn [map length repeat]; constructor; [apply Hin; left; reflexivity|apply IH; intros k Hk; apply Hin; right; exact Hk].
Qed.

(* C92 is false: with eight players and 256 hands each the number of positions, 2^64, wraps
   to zero.  The release build reports a complete run without a single board; the checked
   build panics. *)
Theorem C92_refuted : exists ranges sched o, Forall range_ok ranges /\ accepted (length ranges) 0 0 /\ deals ranges 0 0 <> [] /\ ~ In Cancel sched /\
  exact_equity Release ranges 0 0 1 false sched = Ret (ROk o) /\ r_eval_count (o_results o) = 0 /\ Forall (fun x => x = 0) (r_wins_by_mask (o_results o)) /\
  forall sched', exact_equity Debug ranges 0 0 1 false (Run 0 :: sched') = Fail Overflow.
Proof.
  destruct crowd_release as (sched & o & H1 & H2 & H3 & H4). exists crowd, sched, o.
  split; [exact crowd_ok|]. split; [split; [cbn [length crowd repeat]; lia|split; vm_compute; discriminate]|].
  split; [pose proof crowd_deals as Hd; intros E0; rewrite E0 in Hd; exact Hd|].
  split; [exact H1|]. split; [exact H2|]. split; [exact H3|]. split; [exact H4|exact crowd_debug].
Qed.

(* C94: in every run which is not cancelled the threads process the positions up to the
   product of the sizes modulo 2^64, each once; a checked build returns only if the product
   does not wrap. *)
Theorem C94_positions_wrap : forall p ranges board dead threads sched o, Forall range_ok ranges -> (0 < threads)%nat -> ~ In Cancel sched ->
  exact_equity p ranges board dead threads false sched = Ret (ROk o) ->
  exists m flag dvs y0 y, launch p ranges board dead threads false m flag dvs y0 /\ foldM (xevent p m dvs) sched y0 = Ret y /\
    let all := prod_of cr_size (m_combined m) in
    (p = Debug -> all < 2 ^ 64) /\
    (all mod 2 ^ 64 + 2000000 < 2 ^ 64 -> Permutation (processed p m dvs sched y0) (nseq 0 (N.to_nat (all mod 2 ^ 64)))).
Proof. exact wrapped_run. Qed.
Example C94_example : match combine_ranges Release crowd 0 0 with Ret (ROk (_, crs)) => map cr_size crs = repeat 256 8 /\ prod_of cr_size crs = 2 ^ 64 | _ => False end.
Proof. rewrite crowd_combine. vm_compute. auto. Qed.

(* ------------------------------------------------------------------------- *)
(** * The target of an approximate run *)

(* C93: a target which is zero, negative or not a number never stops a run: whatever the
   random numbers and the schedule, no thread finishes, and no result is returned. *)
Theorem C93_never_stops : forall p ranges board dead threads target shuf rngs fuel sched, Forall range_ok ranges -> permutes shuf ->
  f_ltb f_zero target = false -> no_common_card ranges -> ~ In Cancel sched ->
  (forall m flag y0 y, alaunch p ranges board dead threads target false shuf rngs m flag y0 -> foldM (aevent p m fuel) sched y0 = Ret y ->
     length (ay_threads y) = threads /\ xs_stopped (ay_shared y) = false /\ forall t, In t (ay_threads y) -> a_phase t <> ADone) /\
  ((0 < threads)%nat -> forall o, approx_equity p ranges board dead threads target false shuf rngs fuel sched <> Ret (ROk o)).
Proof.
  intros p ranges board dead threads target shuf rngs fuel sched Hr Hs Ht Hc Hn. apply no_common_apart in Hc.
  split; [intros; eapply never_stops; eassumption|intros; apply never_returns; assumption].
Qed.
(* targets zero, minus zero, -1 and not a number; and a target which does stop the run of C83 *)
Example C93_targets : map (f_ltb f_zero) [f_zero; S754_zero true; f_sub f_zero (f_of_N 1); S754_nan; wit_target] = [false; false; false; false; true].
Proof. vm_compute. reflexivity. Qed.
Example C93_example : forall rngs, approx_equity Release wit_ranges wit_board 0 2 f_zero false wit_shuffle rngs 0 (repeat (Run 0) (4096 + 4096) ++ repeat (Run 1) (4096 + 4096)) = Fail OutOfFuel.
Proof.
  intros rngs. assert (Hn : ~ In Cancel (repeat (Run 0) (4096 + 4096) ++ repeat (Run 1) (4096 + 4096))) by (intros H; apply in_app_or in H as [H|H]; apply repeat_spec in H; discriminate).
  destruct (C93_never_stops Release wit_ranges wit_board 0 2 f_zero wit_shuffle rngs 0 _ wit_ok wit_permutes eq_refl wit_apart Hn) as [_ H]. specialize (H ltac:(lia)).
  destruct (C76_approx_only_overflow Release wit_ranges wit_board 0 2 f_zero false wit_shuffle rngs 0 (repeat (Run 0) (4096 + 4096) ++ repeat (Run 1) (4096 + 4096)) wit_ok wit_permutes) as [[_ E]|[[o E]|[(E & _)|E]]].
  - split; [cbn [length wit_ranges]; lia|]. split; vm_compute; discriminate.
  - reflexivity.
  - reflexivity.
  - vm_compute in E. discriminate.
  - exfalso. exact (H o E).
  - discriminate.
  - exact E.
Qed.

Print Assumptions C92_refuted.
Print Assumptions C93_never_stops.
Print Assumptions C94_positions_wrap.
