(* What the entries of the starting hands satisfy throughout a checked run. *)
From Coq Require Import Floats.SpecFloat.
From Verif Require Import Base BaseProofs Float64 Hand FastDivide Range Combined Sim Approx SpecShare SpecRates EnumProofs RateProofs.
Local Open Scope N_scope.

#[local] Opaque NUM_HANDS.

Lemma Forall_set {A} (P : A -> Prop) l k x : Forall P l -> P x -> Forall P (set_nth l k x).
Proof.
  intros HF HP. apply Forall_forall. intros y Hy. apply In_nth_error in Hy as (j & Hj). rewrite Forall_forall in HF.
  destruct (Nat.eq_dec k j) as [<-|Hne].
  - destruct (Nat.ltb_spec k (length l)) as [L|L]; [rewrite set_nth_same in Hj by exact L; inversion Hj; subst y; exact HP|].
    assert (Hk : (k < length (set_nth l k x))%nat) by (apply nth_error_Some; congruence). rewrite set_nth_length in Hk. lia.
  - rewrite set_nth_other in Hj by exact Hne. apply HF. eapply nth_error_In. exact Hj.
Qed.
Lemma Forall_updf {A} (P : A -> Prop) l k f l' : updf l k f = Ret l' -> (forall u u', f u = Ret u' -> P u -> P u') -> Forall P l -> Forall P l'.
Proof.
  intros H Hf HF. apply updf_ret in H as (x & y & Hx & Hy & -> & _). apply Forall_set; [exact HF|]. apply (Hf x y Hy). rewrite Forall_forall in HF. apply HF. eapply nth_error_In. exact Hx.
Qed.

Section Units.
  Variable n : nat.
  Hypothesis Hn : (n <= 9)%nat.

  (* the entry of a batch, and the entry of the results *)
  Definition fine (u : unit_results) : Prop :=
    half n (u_ties u) (u_corrected_ties u) /\ (u_total u = 0 -> u_winrate u = f_zero /\ u_tierate u = f_zero).
  Definition summed (u : unit_results) : Prop :=
    fine u /\ (u_total u = 0 \/ u_equity u = share_float (u_wins u) (u_corrected_ties u) (u_total u)).

  Lemma fine_default : fine unit_default.
  Proof. split; [apply half_zero|split; reflexivity]. Qed.
  Lemma summed_default : summed unit_default.
  Proof. split; [exact fine_default|left; reflexivity]. Qed.

  Lemma fine_total w u u' : update_total Debug w u = Ret u' -> fine u -> fine u'.
  Proof.
    unfold update_total. intros H [H1 H2]. binv H. inversion H; subst u'. apply add_debug in E as [-> _].
    split; cbn [with_total u_ties u_corrected_ties u_total u_winrate u_tierate]; [exact H1|]. intros H0. apply H2. lia.
  Qed.
  Lemma fine_wins w u u' : update_wins Debug w u = Ret u' -> fine u -> fine u'.
  Proof. unfold update_wins. intros H H1. binv H. inversion H; subst u'. exact H1. Qed.
  Lemma fine_ties w c u u' : (2 <= c <= n)%nat -> update_ties Debug w c u = Ret u' -> fine u -> fine u'.
  Proof.
    unfold update_ties. intros Hc H [H1 H2]. binv H. inversion H; subst u'. apply add_debug in E as [-> _].
    split; cbn [with_ties u_ties u_corrected_ties u_total u_winrate u_tierate]; [|exact H2].
    apply half_add; [exact H1|]. apply half_share; lia.
  Qed.
  Lemma fine_merge a b x : unit_add_assign Debug a b = Ret x -> fine a -> fine b -> summed x.
  Proof.
    unfold unit_add_assign. intros H [A1 A2] [B1 B2]. binv H. binv H. binv H. inversion H; subst x. apply add_debug in E as [-> _], E0 as [-> _], E1 as [-> _].
    split; [split|right]; cbn [u_ties u_corrected_ties u_total u_winrate u_tierate u_wins u_equity].
    - apply half_add; assumption.
    - intros H0. apply A2. lia.
    - reflexivity.
  Qed.

  (* one evaluation *)
  Lemma scan_count hands board fl l : forall s s', foldM (scan_step Debug hands board fl) l s = Ret s' -> (sc_counter s' <= sc_counter s + length l)%nat.
  Proof.
    induction l as [|i l IH]; intros s s' H; cbn [foldM length] in *; [inversion H; subst; lia|]. binv H. apply IH in H.
    assert (Hs : (sc_counter v <= S (sc_counter s))%nat); [|lia]. clear H IH. unfold scan_step in E. binv E. binv E. binv E. binv E. inversion E; subst v. cbn [sc_counter].
    destruct (sc_best s <? v2); [binv E3; inversion E3; subst v3; cbn [sc_counter]; lia|]. destruct (v2 =? sc_best s); [binv E3|]; inversion E3; subst v3; cbn [sc_counter]; lia.
  Qed.
  Definition fine_stats (st : stats) : Prop := Forall fine (s_hands st).
  Lemma fine_evaluate hands lookup w board fl st st' : evaluate_hands Debug n hands lookup w board fl st = Ret st' -> fine_stats st -> fine_stats st'.
  Proof.
    unfold evaluate_hands, fine_stats. intros H HF. binv H. rename v into s. binv H. rename v into hs. binv H. rename v into hs'. binv H. binv H. inversion H; subst st'. cbn [s_hands].
    apply scan_count in E. rewrite seq_length in E. cbn [scan_init sc_counter Nat.add] in E.
    assert (F1 : Forall fine hs).
    { refine (foldM_inv (Forall fine) _ _ _ _ _ HF E0). intros x i x' _ Hx Hs. binv Hs. eapply Forall_updf; [exact Hs| |exact Hx]. intros u u'. apply fine_total. }
    clear E0. destruct (Nat.eqb_spec (sc_counter s) 1) as [E1'|E1'].
    - binv E1. binv E1. eapply Forall_updf; [exact E1| |exact F1]. intros u u'. apply fine_wins.
    - refine (foldM_inv (Forall fine) _ _ _ _ _ F1 E1). intros x i x' Hi Hx Hs. apply in_seq in Hi. binv Hs. binv Hs. eapply Forall_updf; [exact Hs| |exact Hx]. intros u u'. apply fine_ties. lia.
  Qed.

  (* any enumeration keeps what every evaluation keeps *)
  Section Keep.
    Context {St : Type}.
    Variable p : profile.
    Variable emit : N -> hand -> bool -> St -> outcome St.
    Variable P : St -> Prop.
    Hypothesis Hemit : forall w b f st st', emit w b f st = Ret st' -> P st -> P st'.

    Lemma keep_noflush deck board w : forall fuel i st st', last_card_noflush p emit fuel deck board w i st = Ret st' -> P st -> P st'.
    Proof.
      induction fuel as [|fuel IH]; intros i st st' H HP; cbn [last_card_noflush] in H; [discriminate|]. destruct (i <? length deck)%nat; [|congruence].
      binv H. binv H. binv H. binv H. destruct v2 as [mult i']. binv H. binv H. eapply IH; [exact H|]. eapply Hemit; eassumption.
    Qed.
    Lemma keep_flush deck sc board w : forall l s s', foldM (last_card_flush_step p emit deck sc board w) l s = Ret s' -> P (snd s) -> P (snd s').
    Proof.
      intros l s s' H HP. refine (foldM_inv (fun s => P (snd s)) _ l s s' _ HP H). clear - Hemit. intros [lr st] i s' _ HP H. cbn [snd] in HP. unfold last_card_flush_step in H. binv H. binv H.
      destruct ((v0 <? 4)%nat && (crank v =? lr)); [inversion H; subst; exact HP|]. binv H. destruct v1 as [mult lr']. binv H. binv H. binv H. binv H. inversion H; subst s'. cbn [snd]. eapply Hemit; eassumption.
    Qed.
    Lemma keep_last deck sc board start w st st' : last_card p emit deck sc board start w st = Ret st' -> P st -> P st'.
    Proof.
      unfold last_card. intros H HP. binv H. binv H. binv H. binv H. destruct (_ && _ && _ && _); [eapply keep_noflush; eassumption|].
      binv H. destruct v3 as [lr st1]. inversion H; subst st1. apply keep_flush in E3; [exact E3|exact HP].
    Qed.
    Lemma keep_rec : forall fuel board deck sc rem start w st d st', enumerate_board_rec p emit fuel board deck sc rem start w st = Ret (d, st') -> P st -> P st'.
    Proof.
      induction fuel as [|fuel IH]; intros board deck sc rem start w st d st' H HP; [discriminate|]. rewrite enumerate_unfold in H.
      destruct (rem =? 1)%nat; [binv H; inversion H; subst; eapply keep_last; eassumption|].
      revert H HP. generalize (S (length deck)) as lf. intros lf. revert start deck st d st'. induction lf as [|lf IHl]; intros start deck st d st' H HP; cbn [while_loop] in H; [discriminate|].
      destruct (start <? length deck)%nat; [|inversion H; subst; exact HP]. binv H. binv H. destruct (v0 + rem <? 5)%nat.
      - binv H. destruct v1 as [deck1 irr]. binv H. destruct v1 as [[nb deck2] st2]. eapply IHl; [exact H|]. clear H IHl.
        change st2 with (snd (nb, deck2, st2)). refine (foldM_inv (fun s => P (snd s)) _ _ _ _ _ _ E2); [|exact HP].
        intros [[nb0 dk0] st0] k s1 _ H0 H1. cbn [snd] in H0. cbn [repeats_step] in H1. binv H1. binv H1. binv H1. binv H1. binv H1. binv H1. destruct (k =? rem)%nat.
        + binv H1. inversion H1; subst s1. cbn [snd]. eapply Hemit; eassumption.
        + binv H1. destruct v7 as [dk1 st1]. inversion H1; subst s1. cbn [snd]. eapply IH; eassumption.
      - binv H. binv H. binv H. binv H. destruct v4 as [dk1 st1]. eapply IHl; [exact H|]. eapply IH; eassumption.
    Qed.
  End Keep.

  Lemma fine_board hands w board used st st' : enumerate_board Debug n hands w board used st = Ret st' -> fine_stats st -> fine_stats st'.
  Proof.
    unfold enumerate_board. intros H HF. binv H. destruct v as [hs lookup]. binv H. destruct (_ =? 0)%nat; [eapply fine_evaluate; eassumption|].
    binv H. binv H. binv H. destruct v2 as [d st1]. inversion H; subst st1. eapply (keep_rec Debug _ fine_stats); [|exact E3|exact HF].
    intros w' b f s s'. apply fine_evaluate.
  Qed.
  Lemma fine_position m dvs pos st st' : m_n_players m = n -> process_position Debug m dvs pos st = Ret st' -> fine_stats st -> fine_stats st'.
  Proof.
    unfold process_position. intros Hm H HF. binv H. destruct v as [[used phs]|]; [|congruence]. binv H. rewrite Hm in H. eapply fine_board; eassumption.
  Qed.
  Lemma fine_walk m fuel r w st r' st' : m_n_players m = n -> walk_eval Debug m fuel r w st = Ret (r', st') -> fine_stats st -> fine_stats st'.
  Proof.
    unfold walk_eval. intros Hm H HF. binv H. binv H. binv H. destruct v1 as [b r1]. binv H. inversion H; subst r' st'. rewrite Hm in *. eapply fine_evaluate; eassumption.
  Qed.
  Lemma fine_init k st : stats_init k = Ret st -> fine_stats st.
  Proof.
    unfold stats_init. intros H. binv H. inversion H; subst st. unfold fine_stats. cbn [s_hands]. apply Forall_forall. intros u Hu. apply repeat_spec in Hu. subst u. exact fine_default.
  Qed.
  Definition summed_results (r : results) : Prop := Forall summed (r_hand_results r).
  Lemma merge_summed : forall rs bs xs, merge_hands Debug rs bs = Ret xs -> Forall summed rs -> Forall fine bs -> Forall summed xs.
  Proof.
    induction rs as [|r rs IH]; intros [|b bs] xs H HR HB; cbn [merge_hands] in H; try (inversion H; subst; assumption). binv H. binv H. inversion H; subst xs.
    inversion HR as [|? ? [R1 _] R2]; inversion HB as [|? ? B1 B2]; subst. constructor; [eapply fine_merge; eassumption|eapply IH; eassumption].
  Qed.
  Lemma update_summed m ep stop r st fin r' stop' msg : update_results Debug m ep stop r st fin = Ret (r', stop', msg) -> summed_results r -> fine_stats st -> summed_results r'.
  Proof.
    unfold update_results, summed_results, fine_stats. intros H HR HS. binv H. binv H. binv H. apply merge_summed in E; try assumption. destruct (negb (m_calc_exact m)).
    - inversion H; subst r'. exact E.
    - binv H. inversion H; subst r'. exact E.
  Qed.

  (* the threads *)
  Definition xfine (y : xsys) : Prop := summed_results (xs_results (xy_shared y)) /\ Forall (fun t => fine_stats (x_stats t)) (xy_threads y).
  Lemma fine_xstep m dvs sh t sh' t' : m_n_players m = n -> xstep Debug m dvs sh t = Ret (sh', t') -> summed_results (xs_results sh) -> fine_stats (x_stats t) ->
    summed_results (xs_results sh') /\ fine_stats (x_stats t').
  Proof.
    intros Hm H HR HS. unfold xstep in H. destruct (x_phase t).
    - destruct (x_end t <=? x_pos t); [|inversion H; subst; auto]. binv H. destruct (v =? 0); [discriminate|]. binv H. binv H. destruct v1 as [s e]. inversion H; subst. auto.
    - binv H. apply (fine_position m) in E; try assumption. destruct (10000 <=? b_eval_count (s_batch v)); [inversion H; subst; auto|]. binv H. inversion H; subst. auto.
    - binv H. destruct v as [[r stop] msg]. binv H. inversion H; subst. cbn [xs_results x_stats]. split; [eapply update_summed; eassumption|eapply fine_init; eassumption].
    - destruct (xs_stopped sh); [inversion H; subst; auto|]. binv H. inversion H; subst. auto.
    - binv H. destruct v as [[r stop] msg]. inversion H; subst. cbn [xs_results x_stats]. split; [eapply update_summed; eassumption|exact HS].
    - inversion H; subst. auto.
  Qed.
  Lemma fine_xevent m dvs y e y' : m_n_players m = n -> xevent Debug m dvs y e = Ret y' -> xfine y -> xfine y'.
  Proof.
    intros Hm H [HR HF]. unfold xevent in H. destruct e as [tid|]; [|inversion H; subst; split; assumption]. destruct (nth_error (xy_threads y) tid) as [t|] eqn:Et; [|inversion H; subst; split; assumption].
    binv H. destruct v as [sh t']. inversion H; subst y'. rewrite Forall_forall in HF. pose proof (HF t (nth_error_In _ _ Et)) as Ht.
    destruct (fine_xstep m dvs _ _ _ _ Hm E HR Ht) as [H1 H2]. split; cbn [xy_shared xy_threads]; [exact H1|]. apply Forall_set; [apply Forall_forall; exact HF|exact H2].
  Qed.
  Definition afine (y : asys) : Prop := summed_results (xs_results (ay_shared y)) /\ Forall (fun t => fine_stats (a_stats t)) (ay_threads y).
  Lemma fine_astep m fuel sh t sh' t' : m_n_players m = n -> astep Debug m fuel sh t = Ret (sh', t') -> summed_results (xs_results sh) -> fine_stats (a_stats t) ->
    summed_results (xs_results sh') /\ fine_stats (a_stats t').
  Proof.
    intros Hm H HR HS. unfold astep in H. destruct (a_phase t).
    - destruct (_ || _); [discriminate|]. binv H. destruct v as [[ok r] w]. inversion H; subst. auto.
    - binv H. destruct v as [r st]. apply (fine_walk m) in E; try assumption. inversion H; subst. auto.
    - binv H. destruct v as [[r stop] msg]. binv H. inversion H; subst. cbn [xs_results a_stats]. split; [eapply update_summed; eassumption|eapply fine_init; eassumption].
    - destruct (xs_stopped sh); [inversion H; subst; auto|]. binv H. destruct v as [[ok r] w]. inversion H; subst. auto.
    - binv H. destruct v as [r w]. inversion H; subst. auto.
    - binv H. destruct v as [[r stop] msg]. inversion H; subst. cbn [xs_results a_stats]. split; [eapply update_summed; eassumption|exact HS].
    - inversion H; subst. auto.
  Qed.
  Lemma fine_aevent m fuel y e y' : m_n_players m = n -> aevent Debug m fuel y e = Ret y' -> afine y -> afine y'.
  Proof.
    intros Hm H [HR HF]. unfold aevent in H. destruct e as [tid|]; [|inversion H; subst; split; assumption]. destruct (nth_error (ay_threads y) tid) as [t|] eqn:Et; [|inversion H; subst; split; assumption].
    binv H. destruct v as [sh t']. inversion H; subst y'. rewrite Forall_forall in HF. pose proof (HF t (nth_error_In _ _ Et)) as Ht.
    destruct (fine_astep m fuel _ _ _ _ Hm E HR Ht) as [H1 H2]. split; cbn [ay_shared ay_threads]; [exact H1|]. apply Forall_set; [apply Forall_forall; exact HF|exact H2].
  Qed.

  (* before and after the threads *)
  Lemma summed_weight u w v : summed u -> summed (with_weight u w v).
  Proof. exact (fun H => H). Qed.
  Lemma summed_rank u r d : summed u -> summed (with_rank u r d).
  Proof. exact (fun H => H). Qed.
  Lemma save_summed p ranges hr hr' flag : save_hand_weights p ranges hr = Ret (hr', flag) -> Forall summed hr -> Forall summed hr'.
  Proof.
    unfold save_hand_weights. intros H HF. change hr' with (fst (hr', flag)). refine (foldM_inv (fun s => Forall summed (fst s)) _ _ _ _ _ _ H); [|exact HF]. clear.
    intros [hr fl] [i hands] [hr' fl'] _ HF H. cbn [fst] in *. unfold save_player_weights in H. binv H. destruct v as [[hr1 check] fl1]. binv H. inversion H; subst.
    assert (F1 : Forall summed hr1).
    { change hr1 with (fst (fst (hr1, check, fl'))). refine (foldM_inv (fun s => Forall summed (fst (fst s))) _ _ _ _ _ _ E); [|exact HF]. clear.
      intros [[hr c] fl] h s' _ HF H. cbn [fst] in HF. binv H. binv H.
      assert (F1 : Forall summed v0). { eapply Forall_updf; [exact E0| |exact HF]. intros u u' Hu. inversion Hu; subst u'. apply summed_weight. }
      destruct (c && _); inversion H; subst s'; exact F1. }
    clear E. destruct check; [|inversion E0; subst; exact F1]. refine (foldM_inv (Forall summed) _ _ _ _ _ F1 E0). clear.
    intros hr h hr' _ HF H. binv H. eapply Forall_updf; [exact H| |exact HF]. intros u u' Hu. inversion Hu; subst u'. destruct (u_valid u); [apply summed_weight|auto].
  Qed.
  Lemma ranks_summed p board ranges hr hr' : set_ranks p board ranges hr = Ret hr' -> Forall summed hr -> Forall summed hr'.
  Proof.
    unfold set_ranks. intros H HF. binv H. refine (foldM_inv (Forall summed) _ _ _ _ _ HF H). clear. intros hr [i hands] hr' _ HF H.
    refine (foldM_inv (Forall summed) _ _ _ _ _ HF H). clear. intros hr h hr' _ HF H. binv H. binv H. binv H. binv H. binv H.
    eapply Forall_updf; [exact H| |exact HF]. intros u u' Hu. inversion Hu; subst u'. apply summed_rank.
  Qed.
  Lemma fix_summed p flag ranges hr hr' : fix_hand_weights p flag ranges hr = Ret hr' -> Forall summed hr -> Forall summed hr'.
  Proof.
    unfold fix_hand_weights. intros H HF. refine (foldM_inv (Forall summed) _ _ _ _ _ HF H). clear. intros hr [i hands] hr' _ HF H. destruct (N.testbit flag (N.of_nat i)); [|congruence].
    refine (foldM_inv (Forall summed) _ _ _ _ _ HF H). clear. intros hr h hr' _ HF H. binv H. eapply Forall_updf; [exact H| |exact HF]. intros u u' Hu. inversion Hu; subst u'. destruct (u_valid u); [apply summed_weight|auto].
  Qed.
  Lemma final_hand_summed p s k s' : final_hand p s k = Ret s' -> Forall summed (snd s) -> Forall summed (snd s').
  Proof.
    destruct s as [a hr]. cbn [snd]. unfold final_hand. intros H HF. binv H. apply get_ret in E. assert (Hv : summed v) by (rewrite Forall_forall in HF; apply HF; eapply nth_error_In; exact E).
    destruct (u_valid v); [|inversion H; subst; exact HF]. destruct Hv as [[V1 V2] V3]. destruct (N.ltb_spec 0 (u_total v)) as [L|L].
    - binv H. binv H. inversion H; subst s'. cbn [snd]. apply upd_ret in E1 as [_ ->]. apply Forall_set; [exact HF|]. split; [split|]; cbn [with_rates u_ties u_corrected_ties u_total u_winrate u_tierate u_wins u_equity].
      + exact V1.
      + intros H0. lia.
      + exact V3.
    - binv H. inversion H; subst s'. cbn [snd]. apply upd_ret in E0 as [_ ->]. apply Forall_set; [exact HF|]. split; [split|left]; cbn [with_rates u_ties u_corrected_ties u_total u_winrate u_tierate u_wins u_equity].
      + exact V1.
      + exact V2.
      + lia.
  Qed.
  Lemma final_player_summed p : forall fuel i j hr cs hr' cs', final_player p fuel i j hr cs = Ret (hr', cs') -> Forall summed hr -> Forall summed hr'.
  Proof.
    induction fuel as [|fuel IH]; intros i j hr cs hr' cs' H HF; cbn [final_player] in H; [discriminate|]. destruct (j <? NUM_HANDS)%nat; [|congruence].
    binv H. destruct v as [a hr1]. eapply IH; [exact H|]. change hr1 with (snd (a, hr1)). refine (foldM_inv (fun s => Forall summed (snd s)) _ _ _ _ _ _ E); [|exact HF].
    intros s k s' _ Hs Hk. eapply final_hand_summed; eassumption.
  Qed.
  Lemma final_summed p k hr hr' cs : generate_final_data p k hr = Ret (hr', cs) -> Forall summed hr -> Forall summed hr'.
  Proof.
    unfold generate_final_data. intros H HF. change hr' with (fst (hr', cs)). refine (foldM_inv (fun s => Forall summed (fst s)) _ _ _ _ _ _ H); [|exact HF].
    intros [hr0 cs0] i [hr1 cs1] _ H0 H1. cbn [fst] in *. eapply final_player_summed; eassumption.
  Qed.
  Lemma finish_summed p m flag r r' : finish p m flag r = Ret r' -> summed_results r -> summed_results r'.
  Proof.
    unfold finish, summed_results. intros H HF. binv H. binv H. destruct v0 as [hr cs]. binv H. destruct v0 as [br bd]. inversion H; subst r'. cbn [r_hand_results].
    eapply final_summed; [exact E0|]. eapply fix_summed; eassumption.
  Qed.
  Lemma prepare_summed p m r flag : prepare p m = Ret (r, flag) -> summed_results r.
  Proof.
    unfold prepare, summed_results. intros H. binv H. destruct v as [hr fl]. binv H. inversion H; subst. cbn [with_hand_results r_hand_results].
    assert (F1 : Forall summed hr).
    { eapply save_summed; [exact E|]. cbn [results_init r_hand_results]. apply Forall_forall. intros u Hu. apply repeat_spec in Hu. subst u. exact summed_default. }
    destruct (2 <? _); [eapply ranks_summed; eassumption|inversion E0; subst; exact F1].
  Qed.
End Units.

Lemma sim_players p hrs crs b d x t m : sim_new p hrs crs b d x t = Ret m -> m_n_players m = length hrs.
Proof. unfold sim_new. intros H. binv H. inversion H; subst m. reflexivity. Qed.
Lemma combined_length p hrs b d frs crs : combine_ranges p hrs b d = Ret (ROk (frs, crs)) -> length frs = length hrs.
Proof. unfold combine_ranges. intros H. binv H. binv H. destruct (existsb _ _); inversion H; subst. eapply mapM_length. exact E. Qed.
Lemma players_max n b d : validate n b d = None -> (n <= 9)%nat.
Proof. unfold validate. destruct (n <? MIN_PLAYERS)%nat; [discriminate|]. destruct (Nat.ltb_spec MAX_PLAYERS n) as [H|H]; [discriminate|]. intros _. exact H. Qed.

Lemma exact_summed ranges board dead threads cancelled sched o : exact_equity Debug ranges board dead threads cancelled sched = Ret (ROk o) ->
  summed_results (length ranges) (o_results o).
Proof.
  unfold exact_equity. destruct (validate (length ranges) board dead) eqn:Ev; [discriminate|]. apply players_max in Ev. intros H. binv H. destruct v as [[frs crs]|]; [|discriminate].
  apply combined_length in E. binv H. apply sim_players in E0. rewrite E in E0. binv H. destruct v0 as [r0 flag]. binv H. binv H. binv H.
  destruct (forallb xdone _); [|discriminate]. binv H. inversion H; subst o. cbn [o_results]. eapply finish_summed; [exact Ev|exact E5|].
  apply (prepare_summed (length ranges)) in E1.
  assert (Hy0 : xfine (length ranges) v1).
  { unfold xinit in E3. binv E3. inversion E3; subst v1. split; [exact E1|]. cbn [xy_threads]. apply Forall_forall. intros t Ht. apply repeat_spec in Ht. subst t. eapply fine_init. exact E6. }
  refine (proj1 (foldM_inv (xfine (length ranges)) _ _ _ _ _ Hy0 E4)). intros y e y' _ Hy He. eapply fine_xevent; eassumption.
Qed.
Lemma approx_summed ranges board dead threads target cancelled shuf rngs fuel sched o : approx_equity Debug ranges board dead threads target cancelled shuf rngs fuel sched = Ret (ROk o) ->
  summed_results (length ranges) (o_results o).
Proof.
  unfold approx_equity. destruct (validate (length ranges) board dead) eqn:Ev; [discriminate|]. apply players_max in Ev. intros H. binv H. destruct v as [[frs crs]|]; [|discriminate].
  apply combined_length in E. binv H. apply sim_players in E0. rewrite E in E0. binv H. destruct v0 as [r0 flag]. binv H. binv H.
  destruct (forallb adone _); [|discriminate]. binv H. inversion H; subst o. cbn [o_results]. eapply finish_summed; [exact Ev|exact E4|].
  apply (prepare_summed (length ranges)) in E1.
  assert (Hy0 : afine (length ranges) v0).
  { unfold ainit in E2. binv E2. inversion E2; subst v0. split; [exact E1|]. cbn [ay_threads]. apply Forall_forall. intros t Ht. apply in_map_iff in Ht as (i & <- & _). cbn [a_stats]. eapply fine_init. exact E5. }
  refine (proj1 (foldM_inv (afine (length ranges)) _ _ _ _ _ Hy0 E3)). intros y e y' _ Hy He. eapply fine_aevent; eassumption.
Qed.
