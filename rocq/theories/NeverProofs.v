(* A standard deviation target which no positive number is below never stops an
   approximate run. *)
From Coq Require Import ZArith Floats.SpecFloat.
From Verif Require Import Base Float64 Hand Range FastDivide Combined Sim Approx SpecPoker SpecNames SpecHand SpecEquity SpecResults SpecRun SpecApprox
  BaseProofs CombinedProofs WalkProofs ApproxRunProofs ApproxResultProofs ConvergeRunProofs ConvergeResultProofs BatchProofs FairRunProofs.
Local Open Scope N_scope.

(* ------------------------------------------------------------------------- *)
(** * Signs *)

(* not a number, or without a minus sign *)
Definition plus (x : f64) : Prop := match x with S754_zero s | S754_infinity s => s = false | S754_finite s _ _ => s = false | S754_nan => True end.
(* not below zero *)
Definition unsigned (x : f64) : Prop := match x with S754_zero _ | S754_nan => True | S754_infinity s => s = false | S754_finite s _ _ => s = false end.

Lemma round_plus mx ex lx : plus (binary_round_aux prec64 emax64 false mx ex lx).
Proof.
  unfold binary_round_aux. destruct (shr_fexp _ _ _ _ _) as [r e]. destruct (shr_fexp _ _ _ _ _) as [r2 e2]. destruct (shr_m r2); [reflexivity| |exact I].
  destruct (_ <=? _)%Z; reflexivity.
Qed.
Lemma round_shl_plus m e : plus (binary_round prec64 emax64 false m e).
Proof. unfold binary_round. destruct (shl_align _ _ _) as [mz ez]. apply round_plus. Qed.

Lemma sqrt_unsigned x : unsigned (f_sqrt x).
Proof.
  unfold f_sqrt, SFsqrt. destruct x as [s|[]| |[] m e]; try exact I; try reflexivity.
  destruct (SFsqrt_core_binary _ _ _ _) as [[mz ez] lz]. pose proof (round_plus mz ez lz) as H. destruct (binary_round_aux _ _ _ _ _ _); try exact I; exact H.
Qed.
Lemma div_unsigned x y : unsigned x -> plus y -> unsigned (f_div x y).
Proof.
  unfold f_div, SFdiv. intros Hx Hy. destruct x as [s|s| |s m e], y as [s2|s2| |s2 m2 e2]; cbn [unsigned plus] in *; subst; try exact I; try reflexivity.
  destruct (SFdiv_core_binary _ _ _ _ _ _) as [[mz ez] lz]. cbn [xorb]. pose proof (round_plus mz ez lz) as H. destruct (binary_round_aux _ _ _ _ _ _); try exact I; exact H.
Qed.
Lemma add_plus x y : plus x -> plus y -> plus (f_add x y).
Proof.
  unfold f_add, SFadd. intros Hx Hy. destruct x as [s|s| |s m e], y as [s2|s2| |s2 m2 e2]; cbn [plus] in *; subst; try exact I; try reflexivity.
  unfold binary_normalize, cond_Zopp. destruct (fst (shl_align m e (Z.min e e2))) as [a| |] eqn:E1, (fst (shl_align m2 e2 (Z.min e e2))) as [b| |] eqn:E2; cbn [Z.add]; apply round_shl_plus.
Qed.

Lemma unsigned_ltb x y : unsigned x -> f_ltb f_zero y = false -> f_ltb x y = false.
Proof.
  unfold f_ltb, SFltb, f_zero. intros Hx Hy. destruct x as [s|s| |s m e], y as [s2|[]| |[] m2 e2]; cbn [unsigned SFcompare] in *; subst; try reflexivity; discriminate.
Qed.

Lemma deviation_unsigned sum sum2 cnt : plus cnt -> unsigned (batch_stdev sum sum2 cnt).
Proof. intros H. unfold batch_stdev. apply div_unsigned; [apply sqrt_unsigned|exact H]. Qed.

(* ------------------------------------------------------------------------- *)
(** * Runs *)

Lemma update_goes_on p m ep r st fin r' stop' msg : m_calc_exact m = false -> f_ltb f_zero (m_stdev_target m) = false -> plus (r_batch_count r) ->
  update_results p m ep false r st fin = Ret (r', stop', msg) -> stop' = false /\ plus (r_batch_count r').
Proof.
  intros Hex Ht Hc H. unfold update_results in H. binv H. binv H. binv H. rewrite Hex in H. cbn [negb] in H. inversion H; subst. cbn [r_batch_count].
  assert (Hp : plus (f_add (r_batch_count r) f_1)) by (apply add_plus; [exact Hc|reflexivity]). split; [|exact Hp].
  rewrite (unsigned_ltb _ _ (deviation_unsigned _ _ _ Hp) Ht), andb_false_r. reflexivity.
Qed.

Section Never.
  Variables (p : profile) (ranges : list (list whand)) (board dead : N) (threads : nat) (target : f64)
    (shuf : nat -> list ccombo -> list ccombo) (rngs : nat -> N -> N) (m : simulator) (flag : N) (y0 : asys) (fuel : nat).
  Hypothesis Hr : Forall range_ok ranges.
  Hypothesis Hs : permutes shuf.
  Hypothesis HL : alaunch p ranges board dead threads target false shuf rngs m flag y0.
  Hypothesis Ht : f_ltb f_zero target = false.
  Hypothesis Hap : apart ranges.

  Record on_ok (y : asys) : Prop := {
    on_threads : length (ay_threads y) = threads;
    on_stop : xs_stopped (ay_shared y) = false;
    on_count : plus (r_batch_count (xs_results (ay_shared y)));
    on_phase : forall i t, nth_error (ay_threads y) i = Some t -> a_phase t <> AFinal /\ a_phase t <> ADone
  }.

  Lemma never_run sched : ~ In Cancel sched -> forall y, foldM (aevent p m fuel) sched y0 = Ret y -> on_ok y.
  Proof.
    destruct (launch_facts p ranges board dead threads target false shuf rngs m flag y0 Hr Hs HL) as (_ & Hex & Htg & Hun & _ & _ & Hst0 & st0 & Hinit & _ & Hts).
    induction sched as [|e sched IH] using rev_ind; intros Hnc y Hf.
    - cbn [foldM] in Hf. inversion Hf; subst y. constructor.
      + rewrite Hts, map_length, seq_length. reflexivity.
      + exact Hst0.
      + destruct Hun as (_ & _ & Hc). rewrite Hc. reflexivity.
      + intros i t H. rewrite Hts in H. apply nth_error_In, in_map_iff in H as (k & <- & _). cbn [a_phase]. split; discriminate.
    - assert (Hnc' : ~ In Cancel sched) by (intros H; apply Hnc, in_or_app; left; exact H).
      rewrite foldM_app in Hf. binv Hf. cbn [foldM] in Hf. binv Hf. inversion Hf; subst v0. clear Hf. destruct (IH Hnc' v E) as [O1 O2 O3 O4].
      destruct e as [tid|]; [|exfalso; apply Hnc, in_or_app; right; left; reflexivity].
      cbn [aevent] in E0. destruct (nth_error (ay_threads v) tid) as [t|] eqn:Et; [|inversion E0; subst y; constructor; assumption].
      binv E0. destruct v0 as [sh' t']. inversion E0; subst y. clear E0.
      pose proof (run_idle p ranges board dead threads target false shuf rngs m flag y0 Hr Hs HL fuel sched v E t (nth_error_In _ _ Et)) as Hidle.
      assert (Hdeal : exists r' w', randomize_hole_cards p m (a_rng t) (a_walk t) = Ret (true, r', w')).
      { pose proof (proj1 HL) as Hval. destruct (alaunched _ _ _ _ _ _ _ _ _ _ _ _ Hr Hs HL) as (pss & crs & r0 & HS & Ey0).
        exact (deal_apart p ranges board dead m (a_rng t) (a_walk t) pss crs shuf target r0 flag Hr Hval HS Hap Hidle). }
      assert (Same : a_phase t' <> AFinal /\ a_phase t' <> ADone -> xs_stopped sh' = false -> plus (r_batch_count (xs_results sh')) ->
        on_ok {| ay_shared := sh'; ay_threads := set_nth (ay_threads v) tid t' |}).
      { intros Hp Hst Hc. constructor; cbn [ay_threads ay_shared].
        - rewrite set_nth_length. exact O1.
        - exact Hst.
        - exact Hc.
        - intros i t1 H. apply nth_set_nth in H as [[_ ->]|[_ H]]; [exact Hp|exact (O4 i t1 H)]. }
      destruct Hdeal as (r1 & w1 & Ed). destruct (O4 tid t Et) as [N1 N2].
      unfold astep in E1. destruct (a_phase t) eqn:Eph; [| | | | |contradiction|contradiction].
      + destruct (_ || _) in E1; [discriminate|]. rewrite Ed in E1. cbn [bind] in E1. inversion E1; subst sh' t'. apply Same; [split; discriminate|exact O2|exact O3].
      + binv E1. destruct v0 as [r2 st2]. inversion E1; subst sh' t'. apply Same; [cbn [a_phase]; destruct (_ =? _); split; discriminate|exact O2|exact O3].
      + binv E1. destruct v0 as [[r2 stop2] msg2]. rewrite Hinit in E1. cbn [bind] in E1. inversion E1; subst sh' t'. rewrite O2 in E0.
        apply update_goes_on in E0 as [U1 U2]; [|exact Hex|rewrite Htg; exact Ht|exact O3]. apply Same; [split; discriminate|exact U1|exact U2].
      + rewrite O2, Ed in E1. cbn [bind] in E1. inversion E1; subst sh' t'. apply Same; [split; discriminate|exact O2|exact O3].
      + binv E1. destruct v0 as [r2 w2]. inversion E1; subst sh' t'. apply Same; [split; discriminate|exact O2|exact O3].
  Qed.
End Never.

Lemma never_stops p ranges board dead threads target shuf rngs fuel sched m flag y0 y : Forall range_ok ranges -> permutes shuf -> f_ltb f_zero target = false -> apart ranges -> ~ In Cancel sched ->
  alaunch p ranges board dead threads target false shuf rngs m flag y0 -> foldM (aevent p m fuel) sched y0 = Ret y ->
  length (ay_threads y) = threads /\ xs_stopped (ay_shared y) = false /\ forall t, In t (ay_threads y) -> a_phase t <> ADone.
Proof.
  intros Hr Hs Ht Hap Hnc HL Hf. destruct (never_run p ranges board dead threads target shuf rngs m flag y0 fuel Hr Hs HL Ht Hap sched Hnc y Hf) as [O1 O2 _ O4].
  split; [exact O1|]. split; [exact O2|]. intros t Hin. apply In_nth_error in Hin as (i & Hi). exact (proj2 (O4 i t Hi)).
Qed.

Lemma never_returns p ranges board dead threads target shuf rngs fuel sched o : Forall range_ok ranges -> permutes shuf -> f_ltb f_zero target = false -> apart ranges -> ~ In Cancel sched ->
  (0 < threads)%nat -> approx_equity p ranges board dead threads target false shuf rngs fuel sched <> Ret (ROk o).
Proof.
  intros Hr Hs Ht Hap Hnc Hth H. destruct (launch_of _ _ _ _ _ _ _ _ _ _ _ _ H) as (m & flag & y0 & y & HL & Hf & Hd & _).
  destruct (never_stops p ranges board dead threads target shuf rngs fuel sched m flag y0 y Hr Hs Ht Hap Hnc HL Hf) as (O1 & _ & O3).
  destruct (ay_threads y) as [|t ts]; [cbn [length] in O1; lia|]. cbn [forallb] in Hd. apply andb_prop in Hd as [Hd _]. apply (O3 t); [left; reflexivity|].
  unfold adone in Hd. destruct (a_phase t); try discriminate. reflexivity.
Qed.
