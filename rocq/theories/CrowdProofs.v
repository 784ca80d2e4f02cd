(* A run of eight ranges too large to be joined, for the witness of C92. *)
From Verif Require Import Base BaseProofs SumFacts Ghost Float64 Hand Range FastDivide Combined Sim SpecPoker SpecNames SpecHand SpecEquity SpecResults SpecRun
  HandProofs HandExprProofs ShowdownProofs BoardProofs CombinedProofs MergeProofs MachineProofs SetupProofs FinalProofs ExactProofs LaunchProofs LimitProofs.
Local Open Scope N_scope.

(* ranges which are too large to be joined stay as they are *)
Lemma join_settled p fuel l : settled l -> join_loop p (S fuel) l = Ret l.
Proof.
  intros H. cbn [join_loop]. destruct (best_pair_ok l) as (s & i & j & E & Hp & _). rewrite E. cbn [bind].
  assert (Hs : 10000 <= s) by (destruct Hp as [(-> & _)|(Hij & _ & ->)]; [discriminate|apply H; exact Hij]).
  change MAX_SIZE with 10000. rewrite (proj2 (N.ltb_ge _ _) Hs). reflexivity.
Qed.

(* the run after the ranges have been combined *)
Definition run_on (p : profile) (hrs : list (list combo)) (crs : list crange) (board dead : N) (threads : nat) (cancelled : bool) (sched : list event)
  : outcome (result observed sim_error) :=
  m <- sim_new p hrs crs board dead true f_zero ;;
  '(r0, flag) <- prepare p m ;;
  dividers <- mapM (fun cr => divide_by p (cr_size cr)) crs ;;
  y0 <- xinit (m_n_players m) threads cancelled r0 ;;
  y <- foldM (xevent p m dividers) sched y0 ;;
  if forallb xdone (xy_threads y) then
    r <- finish p m flag (xs_results (xy_shared y)) ;;
    Ret (ROk {| o_results := r; o_progress := xs_msgs (xy_shared y); o_token := xs_stopped (xy_shared y) |})
  else Fail OutOfFuel.
Lemma exact_run_on p ranges board dead threads cancelled sched hrs crs : validate (length ranges) board dead = None ->
  combine_ranges p ranges board dead = Ret (ROk (hrs, crs)) ->
  exact_equity p ranges board dead threads cancelled sched = run_on p hrs crs board dead threads cancelled sched.
Proof. intros H1 H2. unfold exact_equity. rewrite H1, H2. reflexivity. Qed.

(* A run whose number of positions wraps to zero: the release build ends without a board, the
   checked build does not start. *)
Lemma no_positions ranges board dead crs dvs : Forall range_ok ranges -> validate (length ranges) board dead = None ->
  combine_ranges Release ranges board dead = Ret (ROk (filtered board dead ranges, crs)) -> prod_of cr_size crs mod 2 ^ 64 = 0 ->
  mapM (fun cr => divide_by Release (cr_size cr)) crs = Ret dvs ->
  exists sched o, ~ In Cancel sched /\ exact_equity Release ranges board dead 1 false sched = Ret (ROk o) /\
    r_eval_count (o_results o) = 0 /\ Forall (fun x => x = 0) (r_wins_by_mask (o_results o)).
Proof.
  intros Hr Hval Ec Hprod Ed. set (fr := filtered board dead ranges) in *.
  assert (Hfn : length fr = length ranges) by apply filtered_length.
  assert (Hn9 : (length ranges <= 9)%nat) by (apply validate_none in Hval; lia).
  assert (Hb5 : (length (mask_cards board) <= 5)%nat) by (apply validate_none in Hval as (_ & Hb & _); pose proof (mask_cards_length board); lia). pose proof (run_off ranges board dead Hr) as Hoff. fold fr in Hoff.
  destruct (from_bit_mask_of Release board) as (fb & Efb & Hfb); [apply fits_of_length; lia|].
  set (m := {| m_hand_ranges := fr; m_combined := crs; m_board_mask := board; m_dead_mask := dead; m_fixed_board := fb; m_n_players := length fr;
               m_stdev_target := f_zero; m_calc_exact := true |}).
  assert (Em : sim_new Release fr crs board dead true f_zero = Ret m) by (unfold sim_new; rewrite Efb; reflexivity).
  destruct (prepare_ok Release fr board m eq_refl eq_refl eq_refl Hoff Hb5) as (r0 & flag & Ep & Hready & Hr0 & Hflag).
  assert (Hpre : get_preflop_combo_count Release m = Ret 0).
  { unfold get_preflop_combo_count. rewrite (product_wraps (m_combined m) 1) by reflexivity. rewrite N.mul_1_l. cbn [m_combined m]. rewrite Hprod. reflexivity. }
  destruct (proj1 (validate_none _ _ _) Hval) as (_ & _ & Hdeadb).
  destruct (postflop_ok Release m board dead (length ranges) Hfb eq_refl Hfn Hb5 Hdeadb) as (post & Hpost & Hpost0).
  assert (HR0 : results_ok Release (length fr) r0 r0 (fun _ => 0)) by (apply (prepared_ok Release fr board); assumption).
  destruct (stats_init_ok (length fr) ltac:(lia)) as (ids & st0 & Hinit & Hshape & Hids & Hzero).
  assert (Hproc : forall x, x < 0 -> forall st v, shape (length fr * NUM_HANDS) ids st -> (forall o, agr Release (rd o st) (v o)) ->
    (True -> forall o, v o + (fun _ _ => 0) x o < 2 ^ 64) ->
    may Release True (process_position Release m dvs x st) (fun st' => shape (length fr * NUM_HANDS) ids st' /\ forall o, agr Release (rd o st') (v o + (fun _ _ => 0) x o))) by (intros; lia).
  assert (HB1 : True -> forall o : obs, sumf (fun x => (fun _ _ => 0) x o) (upto 0) < 2 ^ 64) by (intros; reflexivity).
  assert (HB2 : True -> sumf (fun i => sumf (fun x => (fun (_ : N) (_ : obs) => 0) x (OMask i)) (upto 0)) (seq 0 (2 ^ length fr)) < 2 ^ 64) by (intros; rewrite sumf_zero by reflexivity; reflexivity).
  assert (Htot : 0 + 2000000 < 2 ^ 64) by reflexivity.
  assert (HX : exists y, xinit (length fr) 1 false r0 = Ret y /\ inv Release (length fr) 0 (fun _ _ => 0) ids r0 y [] (repeat [] 1) [] [] /\
    length (xy_threads y) = 1%nat /\ xs_stopped (xy_shared y) = false /\ fuel 0 y = (3 * 1 + 4 * N.to_nat 0)%nat).
  { eapply (xinit_ok Release True (length fr) m 0 post (fun _ _ => 0) ids st0 r0); try eassumption; try reflexivity; try lia. }
  destruct HX as (y0 & Ey0 & HI & _).
  assert (HF : exists sched y, foldM (xevent Release m dvs) sched y0 = Ret y /\ forallb xdone (xy_threads y) = true /\ existsb is_cancel sched = false).
  { eapply (can_finish Release True (length fr) m dvs 0 post (fun _ _ => 0) ids st0 r0); try eassumption; try reflexivity; try lia; try apply le_n; try (left; exact I). }
  destruct HF as (sched & y & Ef & Hdone & Hc).
  assert (HI' : exists LR Ls lost es, inv Release (length fr) 0 (fun _ _ => 0) ids r0 y LR Ls lost es).
  { assert (Hrun : may Release True (foldM (xevent Release m dvs) sched y0) (fun y' => (exists LR Ls lost es, inv Release (length fr) 0 (fun _ _ => 0) ids r0 y' LR Ls lost es) /\
      length (xy_threads y') = length (xy_threads y0) /\ xs_stopped (xy_shared y') = xs_stopped (xy_shared y0) || existsb is_cancel sched)).
    { eapply (run_ok Release True (length fr) m dvs 0 post (fun _ _ => 0) ids st0 r0); try eassumption; try reflexivity; try lia. }
    destruct Hrun as [(y1 & E1 & H1 & _)|(_ & E1 & _)]; rewrite Ef in E1; [|discriminate]. injection E1 as <-. exact H1. }
  destruct HI' as (LR & Ls & lost & es & HI'). pose proof (i_results _ _ _ _ _ _ _ _ _ _ _ HI') as Hres.
  assert (Hres0 : results_ok Release (length fr) r0 (xs_results (xy_shared y)) (fun _ => 0)).
  { eapply results_ok_ext; [exact Hres|]. intros o. apply sumf_zero. reflexivity. }
  assert (Hw : Forall (Forall (fun h => c_w h <= 255)) fr).
  { eapply Forall_impl; [|apply filtered_ok, (run_weight ranges Hr)]. intros r Hrr. eapply Forall_impl; [|exact Hrr]. cbv beta. unfold weight, c_w. intros h Hh. change (2 ^ 8) with 256 in Hh. lia. }
  assert (Hf9 : (length fr <= 9)%nat) by lia.
  destruct (finish_ok Release fr board m eq_refl eq_refl Hoff Hw Hf9 r0 (xs_results (xy_shared y)) flag (fun _ => 0) Hr0 Hready Hflag Hres0) as (r' & Efin & _ & _ & Hmask & Hcount & _).
  exists sched, {| o_results := r'; o_progress := xs_msgs (xy_shared y); o_token := xs_stopped (xy_shared y) |}.
  split; [intros Hin; assert (Hx : existsb is_cancel sched = true) by (apply existsb_exists; exists Cancel; auto); congruence|].
  destruct Hres0 as (_ & _ & Hlm & _ & Hobs & _). split; [|cbn [o_results]; split].
  - rewrite (exact_run_on Release ranges board dead 1 false sched fr crs Hval Ec). unfold run_on. rewrite Em. cbn [bind]. rewrite Ep. cbn [bind]. rewrite Ed. cbn [bind].
    change (m_n_players m) with (length fr). rewrite Ey0. cbn [bind]. rewrite Ef. cbn [bind]. rewrite Hdone, Efin. reflexivity.
  - rewrite Hcount. exact (Hobs OCount I).
  - rewrite Hmask. apply Forall_forall. intros x Hx. apply (In_nth _ _ 0) in Hx as (k & Hk & <-). rewrite Hlm in Hk. exact (Hobs (OMask k) Hk).
Qed.
Lemma no_start ranges board dead crs dvs : Forall range_ok ranges -> validate (length ranges) board dead = None ->
  combine_ranges Debug ranges board dead = Ret (ROk (filtered board dead ranges, crs)) -> foldM (fun n c => mul_ 64 Debug n (cr_size c)) crs 1 = Fail Overflow ->
  mapM (fun cr => divide_by Debug (cr_size cr)) crs = Ret dvs -> forall sched, exact_equity Debug ranges board dead 1 false (Run 0 :: sched) = Fail Overflow.
Proof.
  intros Hr Hval Ec Hprod Ed sched. set (fr := filtered board dead ranges) in *.
  assert (Hfn : length fr = length ranges) by apply filtered_length.
  assert (Hn9 : (length ranges <= 9)%nat) by (apply validate_none in Hval; lia).
  assert (Hb5 : (length (mask_cards board) <= 5)%nat) by (apply validate_none in Hval as (_ & Hb & _); pose proof (mask_cards_length board); lia). pose proof (run_off ranges board dead Hr) as Hoff. fold fr in Hoff.
  destruct (from_bit_mask_of Debug board) as (fb & Efb & Hfb); [apply fits_of_length; lia|].
  set (m := {| m_hand_ranges := fr; m_combined := crs; m_board_mask := board; m_dead_mask := dead; m_fixed_board := fb; m_n_players := length fr;
               m_stdev_target := f_zero; m_calc_exact := true |}).
  assert (Em : sim_new Debug fr crs board dead true f_zero = Ret m) by (unfold sim_new; rewrite Efb; reflexivity).
  destruct (prepare_ok Debug fr board m eq_refl eq_refl eq_refl Hoff Hb5) as (r0 & flag & Ep & _).
  destruct (proj1 (validate_none _ _ _) Hval) as (_ & _ & Hdeadb).
  destruct (postflop_ok Debug m board dead (length ranges) Hfb eq_refl Hfn Hb5 Hdeadb) as (post & Hpost & Hpost0).
  destruct (stats_init_ok (length fr) ltac:(lia)) as (ids & st0 & Hinit & _).
  rewrite (exact_run_on Debug ranges board dead 1 false (Run 0 :: sched) fr crs Hval Ec). unfold run_on. rewrite Em. cbn [bind]. rewrite Ep. cbn [bind]. rewrite Ed. cbn [bind].
  unfold xinit. change (m_n_players m) with (length fr). rewrite Hinit. cbn [bind foldM xevent xy_threads nth_error repeat xstep x_phase x_end x_pos]. rewrite N.leb_refl, Hpost. cbn [bind].
  destruct (N.eqb_spec post 0) as [|_]; [lia|]. unfold get_preflop_combo_count. change (m_combined m) with crs. rewrite Hprod. reflexivity.
Qed.

(* n ranges with the same hands *)
Definition copies (p : profile) (range : list combo) (n : nat) : list crange :=
  match mapM (ccombo_of p) range with
  | Ret cs => map (fun i => {| cr_player_count := 1; cr_players := set_nth (repeat 0%nat MAX_PLAYERS) 0 i; cr_combos := cs; cr_size := lenN cs |}) (seq 0 n)
  | Fail _ => []
  end.
Definition own_join (p : profile) (range : list combo) : N :=
  match mapM (ccombo_of p) range with
  | Ret cs => fold_left (fun size c1 => fold_left (fun size c2 => if N.land (cc_mask c1) (cc_mask c2) =? 0 then size + 1 else size) cs size) cs 0
  | Fail _ => 0
  end.
Lemma copies_settled p range n : 10000 <= own_join p range -> settled (copies p range n).
Proof.
  intros H i j Hij. unfold copies in *. unfold own_join in H. destruct (mapM (ccombo_of p) range) as [cs|f]; [|lia]. rewrite map_length, seq_length in Hij.
  set (g := fun k => {| cr_player_count := 1; cr_players := set_nth (repeat 0%nat MAX_PLAYERS) 0 k; cr_combos := cs; cr_size := lenN cs |}).
  assert (G : forall k, (k < n)%nat -> cr_combos (nth k (map g (seq 0 n)) cr_default) = cs).
  { intros k Hk. rewrite (nth_indep _ cr_default (g 0%nat)) by (rewrite map_length, seq_length; exact Hk). rewrite map_nth. reflexivity. }
  unfold estimate_join_size. rewrite !G by lia. exact H.
Qed.
Lemma copies_from p range n : 10000 <= own_join p range -> from_ranges p (repeat range n) = Ret (copies p range n).
Proof.
  intros H. unfold from_ranges. rewrite repeat_length.
  assert (E : mapM (fun '(i, r) => from_range p r i) (combine (seq 0 n) (repeat range n)) = Ret (copies p range n)).
  { unfold copies. destruct (mapM (ccombo_of p) range) as [cs|f] eqn:Ec; [|unfold own_join in H; rewrite Ec in H; lia].
    clear H. set (g := fun k : nat => {| cr_player_count := 1; cr_players := set_nth (repeat 0%nat MAX_PLAYERS) 0 k; cr_combos := cs; cr_size := lenN cs |}).
    generalize 0%nat as s. induction n as [|k IH]; intros s; [reflexivity|]. cbn [seq repeat combine mapM map].
    unfold from_range at 1. change (cr_players cr_default) with (repeat 0%nat MAX_PLAYERS).
    change (upd (repeat 0%nat MAX_PLAYERS) 0 s) with (Ret (set_nth (repeat 0%nat MAX_PLAYERS) 0 s)). cbn [bind]. rewrite Ec. cbn [bind]. rewrite IH. reflexivity. }
  rewrite E. cbn [bind]. apply join_settled, copies_settled. exact H.
Qed.
Lemma copies_combine p range hr board dead n : remove_conflicting_combos p range board dead = Ret hr -> 10000 <= own_join p hr ->
  combine_ranges p (repeat range n) board dead = Ret (ROk (repeat hr n, copies p hr n)).
Proof.
  intros E H. unfold combine_ranges.
  assert (Em : mapM (fun h => remove_conflicting_combos p h board dead) (repeat range n) = Ret (repeat hr n)).
  { induction n as [|k IH]; [reflexivity|]. cbn [repeat mapM]. rewrite E. cbn [bind]. rewrite IH. reflexivity. }
  rewrite Em. cbn [bind]. rewrite copies_from by exact H. cbn [bind].
  assert (E0 : existsb (fun cr => cr_size cr =? 0) (copies p hr n) = false).
  { unfold copies. destruct (mapM (ccombo_of p) hr) as [cs|f] eqn:Ec; [|reflexivity].
    destruct cs as [|c cs]; [unfold own_join in H; rewrite Ec in H; cbn [fold_left] in H; lia|].
    induction (seq 0 n) as [|i l IH]; [reflexivity|]. cbn [map existsb cr_size]. rewrite IH. unfold lenN. cbn [length]. destruct (N.eqb_spec (N.of_nat (S (length cs))) 0); [lia|reflexivity]. }
  rewrite E0. reflexivity.
Qed.

(* eight players with the same 256 hands: one of the cards 16 to 31 and one of the cards 0
   to 15 *)
Definition wide : list combo := flat_map (fun a => map (fun b => (a, b, 100)) (nseq 0 16)) (nseq 16 16).
Definition crowd : list (list combo) := repeat wide 8.
Lemma wide_join p : own_join p wide = 57600.
Proof. destruct p; vm_cast_no_check (eq_refl 57600). Qed.
Lemma wide_free : filter (free 0 0) wide = wide.
Proof. vm_compute. reflexivity. Qed.
Lemma crowd_filtered : filtered 0 0 crowd = crowd.
Proof. unfold filtered, crowd. cbn [repeat map]. rewrite wide_free. reflexivity. Qed.
Lemma crowd_combine p : combine_ranges p crowd 0 0 = Ret (ROk (filtered 0 0 crowd, copies p wide 8)).
Proof. rewrite crowd_filtered. apply copies_combine; [destruct p; vm_compute; reflexivity|rewrite wide_join; discriminate]. Qed.
Lemma crowd_ok : Forall range_ok crowd.
Proof.
  assert (H : range_ok wide).
  { split; [|reflexivity]. apply Forall_forall. intros h Hh.
    assert (G : forallb (fun h => (second_card h <? first_card h) && (first_card h <? 52) && (weight h <? 2 ^ 8)) wide = true) by (vm_compute; reflexivity).
    rewrite forallb_forall in G. specialize (G h Hh). apply andb_prop in G as [G G3]. apply andb_prop in G as [G1 G2]. apply N.ltb_lt in G1, G2, G3.
    split; [|exact G3]. unfold hole, is_card. lia. }
  apply Forall_forall. intros r Hr. apply repeat_spec in Hr. subst r. exact H.
Qed.
Lemma crowd_release : exists sched o, ~ In Cancel sched /\ exact_equity Release crowd 0 0 1 false sched = Ret (ROk o) /\
  r_eval_count (o_results o) = 0 /\ Forall (fun x => x = 0) (r_wins_by_mask (o_results o)).
Proof.
  assert (Ed : exists dvs, mapM (fun cr => divide_by Release (cr_size cr)) (copies Release wide 8) = Ret dvs) by (eexists; vm_compute; reflexivity). destruct Ed as (dvs & Ed).
  eapply no_positions; [exact crowd_ok|reflexivity|apply crowd_combine| |exact Ed]. vm_compute. reflexivity.
Qed.
Lemma crowd_debug sched : exact_equity Debug crowd 0 0 1 false (Run 0 :: sched) = Fail Overflow.
Proof.
  assert (Ed : exists dvs, mapM (fun cr => divide_by Debug (cr_size cr)) (copies Debug wide 8) = Ret dvs) by (eexists; vm_compute; reflexivity). destruct Ed as (dvs & Ed).
  eapply no_start; [exact crowd_ok|reflexivity|apply crowd_combine| |exact Ed]. vm_compute. reflexivity.
Qed.
