(* The number of positions of an exact run is a 64 bit product: what happens when it does
   not fit. *)
From Coq Require Import Permutation.
From Verif Require Import Base BaseProofs Float64 Hand Range FastDivide Combined Sim SpecPoker SpecNames SpecHand SpecEquity SpecResults SpecRun
  HandProofs HandExprProofs ShowdownProofs BoardProofs CombinedProofs SetupProofs FinalProofs ExactProofs DealProofs TraceProofs RunProofs LaunchProofs.
Local Open Scope N_scope.

Lemma product_checked crs : forall a n, a < 2 ^ 64 -> foldM (fun n c => mul_ 64 Debug n (cr_size c)) crs a = Ret n -> n = a * prod_of cr_size crs /\ n < 2 ^ 64.
Proof.
  induction crs as [|c crs IH]; intros a n Ha H; cbn [foldM] in H.
  - injection H as <-. cbn [prod_of fold_right]. rewrite N.mul_1_r. auto.
  - unfold mul_ in H. destruct (N.ltb_spec (a * cr_size c) (2 ^ 64)) as [Hl|Hl]; [|discriminate]. cbn [bind] in H. apply IH in H as [-> H]; [|exact Hl].
    change (prod_of cr_size (c :: crs)) with (cr_size c * prod_of cr_size crs). rewrite N.mul_assoc in *. auto.
Qed.
Lemma product_wraps crs : forall a, a < 2 ^ 64 -> foldM (fun n c => mul_ 64 Release n (cr_size c)) crs a = Ret ((a * prod_of cr_size crs) mod 2 ^ 64).
Proof.
  induction crs as [|c crs IH]; intros a Ha; cbn [foldM].
  - cbn [prod_of fold_right]. rewrite N.mul_1_r, N.mod_small by exact Ha. reflexivity.
  - assert (E : mul_ 64 Release a (cr_size c) = Ret ((a * cr_size c) mod 2 ^ 64)).
    { unfold mul_. destruct (N.ltb_spec (a * cr_size c) (2 ^ 64)) as [Hl|Hl]; [rewrite N.mod_small by exact Hl|]; reflexivity. }
    rewrite E. cbn [bind]. rewrite IH by (apply N.mod_lt; discriminate). rewrite N.mul_mod_idemp_l by discriminate.
    change (prod_of cr_size (c :: crs)) with (cr_size c * prod_of cr_size crs). rewrite N.mul_assoc. reflexivity.
Qed.

(* a thread cannot leave its first step if the product fails *)
Lemma nothing_starts p m dvs f sched y0 y : (forall post, get_postflop_combo_count p m = Ret post -> 0 < post -> get_preflop_combo_count p m = Fail f) ->
  Forall (fun t => x_phase t = XTop /\ x_end t <= x_pos t) (xy_threads y0) -> foldM (xevent p m dvs) sched y0 = Ret y -> xy_threads y = xy_threads y0.
Proof.
  intros Hpre. revert y0. induction sched as [|e sched IH]; intros y0 H0 H; cbn [foldM] in H; [injection H as <-; reflexivity|].
  apply bind_ret in H as (y1 & E & H). assert (Ht : xy_threads y1 = xy_threads y0).
  { destruct e as [tid|]; cbn [xevent] in E; [|injection E as <-; reflexivity]. destruct (nth_error (xy_threads y0) tid) as [t|] eqn:Et; [|injection E as <-; reflexivity].
    apply bind_ret in E as ((sh & t') & E & _). exfalso. rewrite Forall_forall in H0. destruct (H0 t (nth_error_In _ _ Et)) as [Hp He]. unfold xstep in E. rewrite Hp in E.
    apply N.leb_le in He. rewrite He in E. apply bind_ret in E as (post & Epost & E). destruct (N.eqb_spec post 0) as [|Hne]; [discriminate|].
    rewrite (Hpre post Epost) in E by lia. discriminate. }
  rewrite <- Ht. apply IH; [rewrite Ht; exact H0|exact H].
Qed.

Lemma wrapped_run p ranges board dead threads sched o : Forall range_ok ranges -> (0 < threads)%nat -> ~ In Cancel sched ->
  exact_equity p ranges board dead threads false sched = Ret (ROk o) ->
  exists m flag dvs y0 y, launch p ranges board dead threads false m flag dvs y0 /\ foldM (xevent p m dvs) sched y0 = Ret y /\
    let all := prod_of cr_size (m_combined m) in
    (p = Debug -> all < 2 ^ 64) /\
    (all mod 2 ^ 64 + 2000000 < 2 ^ 64 -> Permutation (processed p m dvs sched y0) (nseq 0 (N.to_nat (all mod 2 ^ 64)))).
Proof.
  intros Hr Ht Hnc H. destruct (launched _ _ _ _ _ _ _ _ H) as (m & flag & dvs & y0 & y & r & HL & Hf & Hd & _).
  exists m, flag, dvs, y0, y. split; [exact HL|]. split; [exact Hf|]. intros all.
  destruct HL as (Hv & hrs & crs & r0 & Ec & Em & Ep & Ed & Ey). destruct (proj1 (validate_none _ _ _) Hv) as (Hn & Hb & Hdead).
  destruct (combine_ok p ranges board dead hrs crs Hr ltac:(lia) Ec) as (Efr & _).
  assert (Hb5 : (length (mask_cards board) <= 5)%nat) by (pose proof (mask_cards_length board); lia).
  destruct (from_bit_mask_of p board) as (fb & Efb & Hfb); [apply fits_of_length; lia|].
  unfold sim_new in Em. rewrite Efb in Em. cbn [bind] in Em. injection Em as Em.
  assert (Hcount : get_preflop_combo_count p m = Ret (all mod 2 ^ 64) /\ (p = Debug -> all < 2 ^ 64)).
  { unfold get_preflop_combo_count, all. destruct p.
    - destruct (foldM (fun n c => mul_ 64 Debug n (cr_size c)) (m_combined m) 1) as [n|f] eqn:E.
      + apply product_checked in E as [-> Hlt]; [|reflexivity]. rewrite N.mul_1_l in *. split; [rewrite N.mod_small by exact Hlt; reflexivity|auto].
      + exfalso. assert (Hs : xy_threads y = xy_threads y0).
        { eapply (nothing_starts Debug m dvs f sched y0 y); [intros post _ _; exact E| |exact Hf].
          unfold xinit in Ey. apply bind_ret in Ey as (st & _ & Ey). injection Ey as <-. cbn [xy_threads]. apply Forall_forall. intros t Hin. apply repeat_spec in Hin. subst t. cbn. split; [reflexivity|lia]. }
        rewrite Hs in Hd. unfold xinit in Ey. apply bind_ret in Ey as (st & _ & Ey). injection Ey as <-. cbn [xy_threads] in Hd. destruct threads as [|k]; [lia|]. discriminate.
    - split; [|discriminate]. rewrite (product_wraps (m_combined m) 1) by reflexivity. rewrite N.mul_1_l. reflexivity. }
  destruct Hcount as [Hpre Hdbg]. split; [exact Hdbg|]. intros Hlt.
  assert (Hnp : m_n_players m = length ranges) by (rewrite <- Em; cbn [m_n_players]; rewrite Efr; apply filtered_length).
  destruct (postflop_ok p m board dead (length ranges)) as (post & Hpost & Hpost0); [rewrite <- Em; exact Hfb|rewrite <- Em; reflexivity|exact Hnp|exact Hb5|exact Hdead|].
  refine (proj2 (positions_once p m dvs (all mod 2 ^ 64) post _ Hpre Hpost Hpost0 Hlt (m_n_players m) threads false r0 sched y0 y Ey Hf Hd) eq_refl _ Ht).
  - rewrite <- Em. reflexivity.
  - apply not_cancelled. exact Hnc.
Qed.
