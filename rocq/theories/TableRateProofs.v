(* The rates in the tables of exact and approximate runs. *)
From Coq Require Import Floats.SpecFloat QArith Qabs Lqa.
From Verif Require Import Base BaseProofs SumFacts Ghost Float64 Hand FastDivide Range Combined Sim Approx SpecPoker SpecNames SpecHand SpecRange SpecEquity SpecResults SpecRun SpecApprox SpecFinal SpecShare SpecRates
  IndexProofs EvalProofs EnumProofs CombinedProofs SetupProofs WeightProofs FinalProofs MergeProofs MachineProofs ExactProofs ResultProofs RunProofs ConsistProofs CombineRunProofs FinalRunProofs
  ApproxProofs ApproxRunProofs ApproxResultProofs FloatProofs FloatSumProofs EquityFloatProofs ConvergeProofs ShareProofs RateProofs UnitProofs.
Local Open Scope N_scope.
#[local] Opaque NUM_HANDS.

(* ------------------------------------------------------------------------- *)
(** * The tables of an approximate run *)

Lemma approx_tables p ranges board dead threads target cancelled shuf rngs fuel sched o : Forall range_ok ranges -> permutes shuf ->
  approx_equity p ranges board dead threads target cancelled shuf rngs fuel sched = Ret (ROk o) -> tables p ranges board dead (o_results o).
Proof.
  intros Hr Hs H. pose proof (approx_valid _ _ _ _ _ _ _ _ _ _ _ _ H) as Hval.
  destruct (astart p ranges board dead Hr Hval shuf target Hs) as [[E _]|(pss & crs & m & r0 & flag & HS)].
  { exfalso. unfold approx_equity in H. assert (Hval' : validate (@length (list combo) ranges) board dead = None) by exact Hval. rewrite Hval', E in H. discriminate. }
  destruct (athreads_ok p ranges board dead Hr Hval shuf target pss crs m r0 flag HS threads cancelled rngs fuel sched) as (y0 & Ey0 & Hrun).
  rewrite (approx_eq p ranges board dead Hval shuf target pss crs m r0 flag HS threads cancelled rngs fuel sched y0 Ey0) in H.
  binv H. rename v into y. pose proof (runs_holds _ _ _ _ _ _ Hrun E) as (_ & _ & Hy). destruct (forallb adone (ay_threads y)) eqn:Ed; [|discriminate].
  destruct (Hy eq_refl) as (L & HE & _ & HR). binv H. inversion H; subst o. cbn [o_results]. clear H Hy Hrun.
  destruct (arun_n ranges board dead Hval) as [Hfn [Hn2 Hn9]]. assert (Hfn' : @length (list combo) (filtered board dead ranges) = length ranges) by exact Hfn.
  destruct (finish_ok p (filtered board dead ranges) board m) with (r0 := r0) (r := xs_results (ay_shared y)) (flag := flag) (V := fun o => sumf (fun s => item_gain p s o) L)
    as (r' & Ef & F1 & F2 & F3 & F4 & F5 & F6 & F7 & F8 & F9 & F10 & F11 & F12); try (apply HS); try (rewrite Hfn'; assumption); try assumption.
  { apply run_off. exact Hr. }
  { eapply Forall_impl; [|apply filtered_ok, run_weight; exact Hr]. intros rr Hrr. eapply Forall_impl; [|exact Hrr]. cbv beta. intros h Hh.
    change (2 ^ 8) with 256 in Hh. change (c_w h) with (weight h). lia. }
  rewrite Ef in E0. inversion E0; subst v. rewrite Hfn' in F6, F7, F8, F9, F10, F11, F12. split; try assumption.
  intros i j Hi Hj. eexists. exact (F7 i j Hi Hj).
Qed.
Lemma approx_shares p ranges board dead threads target cancelled shuf rngs fuel sched o : Forall range_ok ranges -> permutes shuf ->
  approx_equity p ranges board dead threads target cancelled shuf rngs fuel sched = Ret (ROk o) -> p = Debug \/ N.of_nat (length sched) * heaviest ranges < 2 ^ 64 ->
  shares_fit (r_hand_results (o_results o)).
Proof. intros Hr Hs H Hp. exact (proj1 (proj2 (approx_consistent _ _ _ _ _ _ _ _ _ _ _ _ Hr Hs H Hp))). Qed.

(* ------------------------------------------------------------------------- *)
(** * Rates *)

Lemma small_scaled t : scaled t t <= 2 ^ 49 -> t <= 2 ^ 49.
Proof.
  unfold scaled. destruct (N.ltb_spec t (2 ^ 64)) as [H|H]; [auto|]. intros Hs. exfalso. set (M := 2 ^ 64 - 1) in *. assert (HM : M <> 0) by discriminate.
  pose proof (N.mul_div_le t M HM) as H1. assert (Hk : 1 <= t / M) by (apply N.div_le_lower_bound; [exact HM|unfold M; lia]).
  set (k := t / M) in *. assert (Hd : 2 ^ 50 <= t / (k + 1)).
  { apply N.div_le_lower_bound; [lia|]. apply N.le_trans with (k * M); [|lia]. apply N.le_trans with (k * (2 * 2 ^ 50)); [nia|]. apply N.mul_le_mono_l. unfold M. discriminate. }
  assert (2 ^ 49 < 2 ^ 50) by reflexivity. lia.
Qed.
Lemma small_64 t : t <= 2 ^ 49 -> t < 2 ^ 64.
Proof. intros H. apply N.le_lt_trans with (1 := H). reflexivity. Qed.
Lemma small_53 t : t <= 2 ^ 49 -> t <= 2 ^ 53.
Proof. intros H. apply N.le_trans with (1 := H). discriminate. Qed.

(* dividing by 1.0 *)
Lemma half_one n t f : half n t f -> half n t (f_div f (f_of_N 1)).
Proof.
  intros Hh H. destruct (Hh H) as (v & Lv & Uv & Dv). pose proof (level_pos _ _ Lv) as Pv. pose proof (q_53 t H) as H53. pose proof (q_pos t) as Pt. exists v. split; [|auto]. destruct Lv as [[-> Ev]|[Nv Lv]].
  { left. split; [reflexivity|exact Ev]. }
  right. split; [|exact Lv]. assert (Hm : mid_range v).
  { split; [apply Qle_trans with (2 := Lv)|apply Qle_trans with (B 53); [lra|]]; apply B_le; lia. }
  destruct (div_ok _ _ _ _ Nv (int_float 1 ltac:(lia)) Hm (mid_q 1 ltac:(lia) ltac:(lia))) as (z & Hz).
  assert (E : (v / inject_Z (Z.of_N 1) == v)%Q) by (change (inject_Z (Z.of_N 1)) with 1%Q; field).
  apply (num_ext _ z); [apply Hz|]. rewrite <- E. apply (rounded_exact _ _ _ Hz). destruct (num_F _ _ Nv) as (a & b & Ha & Hb). exists a, b. split; [exact Ha|]. rewrite E. exact Hb.
Qed.
Lemma tie_part n ties total ct : half n ties ct -> ties <= total -> 0 < total -> total <= 2 ^ 49 -> let e := f_div ct (f_of_N total) in
  between e (ratio ties (power_above n * total)) (ratio ties (2 * total)) /\ (n = 2%nat -> closest e (ratio ties (2 * total))).
Proof.
  intros Hh Ht H0 H49 e. assert (H53 : total <= 2 ^ 53) by (apply small_53; exact H49). destruct (Hh ltac:(lia)) as (v & Lv & Uv & Dv). pose proof (level_pos _ _ Lv) as Pv.
  pose proof (q_le _ _ Ht) as Hq. pose proof (q_pos ties) as Pt. assert (Ps : (1 <= q total)%Q) by (apply (q_le 1); lia).
  destruct (level_div _ v total Lv ltac:(lra) H0 H53) as (Hc & _ & Hlo & Hhi). fold e in Hc, Hlo, Hhi.
  assert (HP : exists P, power_above n = P /\ (2 <= q P)%Q /\ (q P * part n == 1)%Q).
  { destruct (part_cases n) as [(-> & -> & _)|[(-> & -> & _)|[(-> & -> & _)|(-> & ->)]]]; eexists; (split; [reflexivity|split; [apply (q_le 2); lia|reflexivity]]). }
  destruct HP as (P & -> & P2 & Epart).
  assert (Et : (q (2 * total) == 2 * q total)%Q) by (rewrite q_mul; reflexivity). assert (Et' : (q (P * total) == q P * q total)%Q) by (rewrite q_mul; reflexivity).
  assert (R1 : (ratio ties (P * total) <= v / q total)%Q).
  { unfold ratio. fold (q ties) (q (P * total)). apply Qle_shift_div_l; [lra|]. setoid_replace (q ties / q (P * total) * q total)%Q with (q ties / q P)%Q by (rewrite Et'; field; lra).
    apply Qle_shift_div_r; [lra|]. setoid_replace (q ties)%Q with (q ties * (q P * part n))%Q by (rewrite Epart; ring). nra. }
  assert (R2 : (v / q total <= ratio ties (2 * total))%Q).
  { unfold ratio. fold (q ties) (q (2 * total)). apply Qle_shift_div_r; [lra|]. setoid_replace (q ties / q (2 * total) * q total)%Q with (q ties * (1 # 2))%Q by (rewrite Et; field; lra). exact Uv. }
  split.
  - split; [apply Hc|]. split; intros g Hg Hle; [apply Hlo|apply Hhi]; try assumption; lra.
  - intros ->. apply (closest_ext e (v / q total)); [|exact Hc]. change (part 2) with (1 # 2)%Q in *. assert (E : (v == q ties * (1 # 2))%Q) by lra.
    unfold ratio. fold (q ties) (q (2 * total)). rewrite E, Et. field. lra.
Qed.

Section Rates.
  Variables (p : profile) (ranges : list (list whand)) (board dead : N) (r : results).
  Hypothesis HT : tables p ranges board dead r.
  Hypothesis HS : shares_fit (r_hand_results r).
  Notation n := (length ranges).
  Hypothesis HU : summed_results n r.

  Lemma entry_ok k : (k < n * 1326)%nat -> summed n (unth k (r_hand_results r)) /\ u_wins (unth k (r_hand_results r)) + u_ties (unth k (r_hand_results r)) <= u_total (unth k (r_hand_results r)).
  Proof.
    intros Hk. rewrite <- (tb_hands _ _ _ _ _ HT) in Hk. pose proof (nth_In (r_hand_results r) unit_default Hk) as Hin. split; [|apply HS; exact Hin].
    unfold summed_results in HU. rewrite Forall_forall in HU. apply HU. exact Hin.
  Qed.
  Lemma hand_rates u : In u (r_hand_results r) -> u_valid u = true -> u_total u <= 2 ^ 49 -> rates n u.
  Proof.
    intros Hin Hv H49. apply (In_nth _ _ unit_default) in Hin as (k & Hk & <-). rewrite (tb_hands _ _ _ _ _ HT) in Hk. destruct (entry_ok k Hk) as [[[H1 H2] H3] H4].
    assert (Hi : (k / 1326 < n)%nat) by (apply Nat.div_lt_upper_bound; lia). pose proof (Nat.mod_upper_bound k 1326 ltac:(lia)) as Hj. pose proof (Nat.div_mod k 1326 ltac:(lia)) as Ek.
    destruct (tb_entries _ _ _ _ _ HT (k / 1326)%nat (k mod 1326)%nat Hi Hj) as (u0 & E1 & E2 & E3 & _ & _ & _ & _ & _ & E4 & E5).
    unfold hand_entry in *. rewrite <- Ek in *. set (u := unth k (r_hand_results r)) in *. unfold rates. destruct (N.eqb_spec (u_total u) 0) as [E0|E0].
    - split; [apply E5; [exact Hv|congruence]|]. apply H2. exact E0.
    - destruct (E4 Hv ltac:(rewrite <- E3; lia)) as (_ & -> & ->). rewrite <- E1, <- E2, <- E3. destruct H3 as [H3|H3]; [contradiction|]. rewrite H3.
      pose proof (small_53 _ H49). split; [apply int_closest; lia|]. split; [apply int_closest; lia|]. apply equity_ok; lia || assumption.
  Qed.

  Lemma fin_half us : Forall (fun u => summed n u /\ u_wins u + u_ties u <= u_total u) us -> let a := fold_left fin_add us fin0 in
    half n (f_ties a) (f_ct a) /\ f_wins a + f_ties a <= f_total a /\ (f_counter a = 0%nat -> f_total a = 0) /\ ((0 < f_counter a)%nat -> 0 < f_total a).
  Proof.
    intros HF. cbv zeta. induction us as [|u us IH] using rev_ind; [split; [apply half_zero|]; cbn; lia|]. apply Forall_app in HF as [HF Hu]. inversion Hu as [|? ? [[[U1 _] _] U2] _]; subst.
    destruct (IH HF) as (I1 & I2 & I3 & I4). rewrite fold_left_app. cbn [fold_left]. revert I1 I2 I3 I4. generalize (fold_left fin_add us fin0). intros a I1 I2 I3 I4.
    unfold fin_add. destruct (u_valid u && (0 <? u_total u)) eqn:E; [|auto].
    apply andb_true_iff in E as [_ E]. apply N.ltb_lt in E. cbn [f_ties f_ct f_wins f_total f_counter]. split; [apply half_add; assumption|]. lia.
  Qed.
  Lemma default_rates : rates n unit_default. Proof. repeat split. Qed.
  Lemma default_board_rates : board_rates n unit_default. Proof. repeat split. Qed.
  Lemma final_combo_rates len a : half n (f_ties a) (f_ct a) -> f_wins a + f_ties a <= f_total a -> (f_counter a = 0%nat -> f_total a = 0) -> ((0 < f_counter a)%nat -> 0 < f_total a) ->
    u_total (final_combo len a) <= 2 ^ 49 -> rates n (final_combo len a).
  Proof.
    intros A1 A2 A3 A4 H49. destruct (combo_fields len a ltac:(lia) ltac:(lia) A3) as (_ & _ & G3 & _). rewrite G3 in H49. apply small_scaled in H49. pose proof (small_64 _ H49) as H64. pose proof (small_53 _ H49) as H53.
    unfold final_combo. destruct (Nat.ltb_spec 0 (f_counter a)) as [Hc|Hc]; [|exact default_rates]. specialize (A4 Hc).
    assert (HU64 : U64MAX <? f_total a = false) by (apply N.ltb_ge; change U64MAX with (2 ^ 64 - 1); lia). rewrite HU64. unfold rates. cbn [u_total u_wins u_ties u_winrate u_tierate u_equity].
    assert (T : forall x, x <= f_total a -> trunc 64 x = x) by (intros x Hx; unfold trunc; apply N.mod_small; lia). rewrite !T by lia.
    destruct (N.eqb_spec (f_total a) 0); [lia|]. split; [apply int_closest; lia|]. split; [apply int_closest; lia|]. apply equity_ok; assumption.
  Qed.
  Lemma combo_rates u : In u (r_combo_results r) -> u_total u <= 2 ^ 49 -> rates n u.
  Proof.
    rewrite (tb_combos _ _ _ _ _ HT). intros Hin. apply in_flat_map in Hin as (i & Hi & Hin). apply in_map_iff in Hin as (c & <- & Hc). apply in_seq in Hi, Hc.
    change NUM_COMBOS with 169%nat in Hc. unfold combo_of, combo_fin. set (us := map _ _).
    destruct (fin_half us) as (A1 & A2 & A3 & A4); [|apply final_combo_rates; assumption].
    apply Forall_forall. intros u Hu. apply in_map_iff in Hu as (k & <- & Hk). apply in_seq in Hk. apply entry_ok. pose proof (combo_inside c ltac:(lia)) as Hin.
    change NUM_HANDS with 1326%nat in Hk, Hin. nia.
  Qed.

  Lemma tally_half sel us : Forall (fun u => summed n u /\ u_wins u + u_ties u <= u_total u) us -> let b := tally sel us in half n (bg_ties b) (bg_ct b) /\ bg_wins b + bg_ties b <= bg_total b.
  Proof.
    intros HF. cbv zeta. unfold tally. induction us as [|u us IH] using rev_ind; [split; [apply half_zero|]; cbn; lia|]. apply Forall_app in HF as [HF Hu]. inversion Hu as [|? ? [[[U1 _] _] U2] _]; subst.
    destruct (IH HF) as (I1 & I2). rewrite fold_left_app. cbn [fold_left]. destruct (sel u); [|auto]. cbn [big_plus bg_wins bg_ties bg_total bg_ct]. split; [apply half_add; assumption|]. lia.
  Qed.
  Lemma big_rates b : half n (bg_ties b) (bg_ct b) -> bg_wins b + bg_ties b <= bg_total b -> u_total (big_to_unit b unit_default) <= 2 ^ 49 -> board_rates n (big_to_unit b unit_default).
  Proof.
    intros A1 A2 H49. destruct (board_fields b ltac:(lia) ltac:(lia)) as (_ & _ & G3 & _). rewrite G3 in H49. apply small_scaled in H49. pose proof (small_64 _ H49) as H64. pose proof (small_53 _ H49) as H53.
    unfold big_to_unit. destruct (N.ltb_spec 0 (bg_total b)) as [Hc|Hc]; [|exact default_board_rates].
    assert (HU64 : U64MAX <? bg_total b = false) by (apply N.ltb_ge; change U64MAX with (2 ^ 64 - 1); lia). rewrite HU64. unfold board_rates. cbn [u_total u_wins u_ties u_winrate u_tierate u_equity]. rewrite !N.div_1_r.
    assert (T : forall x, x <= bg_total b -> trunc 64 x = x) by (intros x Hx; unfold trunc; apply N.mod_small; lia). rewrite !T by lia.
    destruct (N.eqb_spec (bg_total b) 0) as [E0|E0]; [lia|]. apply half_one in A1. destruct (tie_part n (bg_ties b) (bg_total b) _ A1 ltac:(lia) Hc H49) as [T1 T2]. destruct (equity_ok n (bg_wins b) (bg_ties b) (bg_total b) _ A1 A2 Hc H49) as [Q1 Q2].
    split; [apply int_closest; lia|]. split; [exact T1|]. split; [exact Q1|]. intros Hn. split; [apply Q2; exact Hn|apply T2; exact Hn].
  Qed.
  Lemma entries_fine i : (i < n)%nat -> Forall (fun u => summed n u /\ u_wins u + u_ties u <= u_total u) (entries (r_hand_results r) i).
  Proof.
    intros Hi. apply Forall_forall. intros u Hu. unfold entries in Hu. apply in_map_iff in Hu as (j & <- & Hj). apply in_seq in Hj. apply entry_ok. change NUM_HANDS with 1326%nat in *. nia.
  Qed.
  Lemma table_rates u : In u (r_board_results r ++ r_board_draws r) -> u_total u <= 2 ^ 49 -> board_rates n u.
  Proof.
    intros Hin. apply in_app_iff in Hin as [Hin|Hin]; apply (In_nth _ _ unit_default) in Hin as (k & Hk & <-).
    - rewrite (tb_br _ _ _ _ _ HT) in Hk. assert (Hi : (k / 9 < n)%nat) by (apply Nat.div_lt_upper_bound; lia). pose proof (Nat.mod_upper_bound k 9 ltac:(lia)) as Hj. pose proof (Nat.div_mod k 9 ltac:(lia)) as Ek.
      pose proof (tb_boards _ _ _ _ _ HT (k / 9)%nat (k mod 9)%nat Hi Hj) as E. replace (k / 9 * 9 + k mod 9)%nat with k in E by lia. rewrite E. destruct (2 <? count_ones board); [|intros _; exact default_board_rates].
      destruct (tally_half (in_rank (k mod 9)) _ (entries_fine _ Hi)). apply big_rates; assumption.
    - rewrite (tb_bd _ _ _ _ _ HT) in Hk. assert (Hi : (k / 10 < n)%nat) by (apply Nat.div_lt_upper_bound; lia). pose proof (Nat.mod_upper_bound k 10 ltac:(lia)) as Hj. pose proof (Nat.div_mod k 10 ltac:(lia)) as Ek.
      pose proof (tb_draws _ _ _ _ _ HT (k / 10)%nat (k mod 10)%nat Hi Hj) as E. replace (k / 10 * 10 + k mod 10)%nat with k in E by lia. rewrite E. destruct (2 <? count_ones board); [|intros _; exact default_board_rates].
      destruct (tally_half (in_draw (k mod 10)) _ (entries_fine _ Hi)). apply big_rates; assumption.
  Qed.
  Lemma all_rates_ok : all_rates n r.
  Proof. split; [exact hand_rates|]. split; [exact combo_rates|exact table_rates]. Qed.
End Rates.

Lemma exact_rates p ranges board dead threads cancelled sched o : usable ranges -> p = Debug \/ weights_fit ranges board ->
  exact_equity p ranges board dead threads cancelled sched = Ret (ROk o) -> all_rates (length ranges) (o_results o).
Proof.
  intros Hu Hp H. apply (all_rates_ok p ranges board dead); [eapply run_tables; eassumption|eapply run_shares; eassumption|].
  eapply exact_summed. eapply exact_debug; eassumption.
Qed.
Lemma approx_rates p ranges board dead threads target cancelled shuf rngs fuel sched o : Forall range_ok ranges -> permutes shuf ->
  p = Debug \/ N.of_nat (length sched) * heaviest ranges < 2 ^ 64 ->
  approx_equity p ranges board dead threads target cancelled shuf rngs fuel sched = Ret (ROk o) -> all_rates (length ranges) (o_results o).
Proof.
  intros Hr Hs Hp H. apply (all_rates_ok p ranges board dead); [eapply approx_tables; eassumption|eapply approx_shares; eassumption|].
  eapply approx_summed. eapply approx_debug; eassumption.
Qed.

(* ------------------------------------------------------------------------- *)
(** * The true equity of a hand *)

Lemma true_hand p ranges board dead threads sched o : usable ranges -> p = Debug \/ weights_fit ranges board ->
  exact_equity p ranges board dead threads false sched = Ret (ROk o) -> ~ In Cancel sched -> (0 < threads)%nat -> length ranges = 2%nat ->
  forall i a b k, (i < 2)%nat -> hole a b -> get_card_index p a b = Ret k ->
  (exists h, In h (range_at ranges i) /\ same_hand a b h) -> on_table board dead a = false -> on_table board dead b = false ->
  let total := hand_total ranges board dead i a b in
  0 < total -> total <= 2 ^ 49 ->
  exists u, nth_error (r_hand_results (o_results o)) (1326 * i + N.to_nat k) = Some u /\
    closest (u_equity u) (ratio (2 * hand_wins ranges board dead i a b + hand_ties ranges board dead i a b) (2 * total)) /\
    closest (u_winrate u) (ratio (hand_wins ranges board dead i a b) total) /\ closest (u_tierate u) (ratio (hand_ties ranges board dead i a b) total).
Proof.
  intros Hu Hp H Hc Ht H2 i a b k Hi Hab Hk Hex Ha Hb total H0 H49. pose proof (exact_debug _ _ _ _ _ _ _ _ Hu Hp H) as HD.
  assert (HkD : get_card_index Debug a b = Ret k).
  { destruct (index_entry p a b k Hab Hk) as [E|E]; apply entry_nth in E; rewrite N2Nat.id in E; [exact (e_index _ _ _ E Debug)|exact (e_index' _ _ _ E Debug)]. }
  destruct (hands_spec Debug ranges board dead threads sched o Hu HD Hc Ht i a b k ltac:(lia) Hab HkD) as (u & Hn & Cw & Ct & Ctt). cbn [counter] in Cw, Ct, Ctt.
  exists u. split; [exact Hn|].
  destruct (run_entry Debug ranges board dead threads false sched o Hu HD i a b k ltac:(lia) Hab HkD) as (u' & Hn' & Hv & _). rewrite Hn in Hn'. injection Hn' as <-.
  assert (Hval : u_valid u = true) by (apply Hv; auto).
  destruct (exact_rates Debug ranges board dead threads false sched o Hu (or_introl eq_refl) HD) as (HR & _).
  specialize (HR u (nth_error_In _ _ Hn) Hval). fold total in Ctt. rewrite Ctt in HR. specialize (HR H49). unfold rates in HR. rewrite Ctt, Cw, Ct in HR. destruct (N.eqb_spec total 0) as [E0|_]; [lia|]. destruct HR as (R1 & R2 & _ & R3). auto.
Qed.

(* ------------------------------------------------------------------------- *)
(** * Flags of the board tables *)

Lemma never_valid p ranges board dead r : tables p ranges board dead r -> forall u, In u (r_board_results r ++ r_board_draws r) -> u_valid u = false /\ u_rank u = U8MAX /\ u_draw u = 0.
Proof.
  intros HT u Hin. assert (G : forall b, u_valid (big_to_unit b unit_default) = false /\ u_rank (big_to_unit b unit_default) = U8MAX /\ u_draw (big_to_unit b unit_default) = 0) by (intros b; unfold big_to_unit; destruct (0 <? bg_total b); repeat split).
  apply in_app_iff in Hin as [Hin|Hin]; apply (In_nth _ _ unit_default) in Hin as (k & Hk & <-).
  - rewrite (tb_br _ _ _ _ _ HT) in Hk. assert (Hi : (k / 9 < length ranges)%nat) by (apply Nat.div_lt_upper_bound; lia). pose proof (Nat.mod_upper_bound k 9 ltac:(lia)) as Hj. pose proof (Nat.div_mod k 9 ltac:(lia)) as Ek.
    pose proof (tb_boards _ _ _ _ _ HT (k / 9)%nat (k mod 9)%nat Hi Hj) as E. replace (k / 9 * 9 + k mod 9)%nat with k in E by lia. rewrite E. destruct (2 <? count_ones board); [apply G|repeat split].
  - rewrite (tb_bd _ _ _ _ _ HT) in Hk. assert (Hi : (k / 10 < length ranges)%nat) by (apply Nat.div_lt_upper_bound; lia). pose proof (Nat.mod_upper_bound k 10 ltac:(lia)) as Hj. pose proof (Nat.div_mod k 10 ltac:(lia)) as Ek.
    pose proof (tb_draws _ _ _ _ _ HT (k / 10)%nat (k mod 10)%nat Hi Hj) as E. replace (k / 10 * 10 + k mod 10)%nat with k in E by lia. rewrite E. destruct (2 <? count_ones board); [apply G|repeat split].
Qed.

(* ------------------------------------------------------------------------- *)
(** * The tables of an approximate run in terms of its hands *)

Section Sampled.
  Variables (p : profile) (ranges : list (list whand)) (board dead : N) (threads : nat) (target : f64) (cancelled : bool) (shuf : nat -> list ccombo -> list ccombo) (rngs : nat -> N -> N) (fuel : nat) (sched : list event) (o : observed).
  Hypothesis Hr : Forall range_ok ranges.
  Hypothesis Hs : permutes shuf.
  Hypothesis H : approx_equity p ranges board dead threads target cancelled shuf rngs fuel sched = Ret (ROk o).

  Lemma sampled_entry i a b k : (i < length ranges)%nat -> hole a b -> get_card_index p a b = Ret k ->
    exists u, nth_error (r_hand_results (o_results o)) (1326 * i + N.to_nat k) = Some u /\
      (u_valid u = true <-> (exists h, In h (range_at ranges i) /\ same_hand a b h) /\ on_table board dead a = false /\ on_table board dead b = false) /\
      (u_valid u = false -> u_weight u = 0) /\
      forall l1 h l2, range_at ranges i = l1 ++ h :: l2 -> same_hand a b h -> (forall h', In h' l2 -> ~ same_hand a b h') -> u_valid u = true -> u_weight u = weight h.
  Proof.
    intros Hi Hab Hk. exists (hand_entry (o_results o) i (N.to_nat k)).
    apply (entry_valid p ranges board dead); [apply ok_hole; exact Hr|exact Hi|exact Hab|eapply approx_tables; eassumption|exact Hk].
  Qed.
  Lemma sampled_rank_draw : board < 2 ^ 64 -> 2 < ones board -> forall i a b k u, (i < length ranges)%nat -> hole a b -> get_card_index p a b = Ret k ->
    nth_error (r_hand_results (o_results o)) (1326 * i + N.to_nat k) = Some u -> u_valid u = true ->
    u_rank u = category_of (a :: b :: mask_cards board) /\
    if (length (mask_cards board) <? 5)%nat
    then (hc <- from_hole_cards p a b ;; bd <- from_bit_mask p board ;; get_draw p hc bd (u_rank u)) = Ret (u_draw u)
    else u_draw u = 0.
  Proof.
    intros Hb H2 i a b k u Hi Hab Hk Hn Hv. rewrite <- (ones_ok _ Hb) in H2. pose proof (approx_tables _ _ _ _ _ _ _ _ _ _ _ _ Hr Hs H) as HT.
    apply (nth_error_nth _ _ unit_default) in Hn. subst u. fold (hand_entry (o_results o) i (N.to_nat k)) in *.
    pose proof (approx_valid _ _ _ _ _ _ _ _ _ _ _ _ H) as Hval. pose proof (arun_board ranges board dead Hval) as Hm. pose proof (ok_hole _ Hr) as Hok.
    split; [eapply entry_rank; eassumption|eapply entry_draw; eassumption].
  Qed.

  Hypothesis Hp : p = Debug \/ N.of_nat (length sched) * heaviest ranges < 2 ^ 64.
  Lemma sampled_combos i c : (i < length ranges)%nat -> (c < 169)%nat ->
    let r := o_results o in
    let mine := filter (fun j => dealt_hand (hand_entry r i j)) (hands_in c) in
    exists u, nth_error (r_combo_results r) (169 * i + c) = Some u /\ sums_up r i mine u /\ u_valid u = (0 <? length mine)%nat /\
      u_weight u = if (0 <? length mine)%nat then sum_of (fun j => u_weight (hand_entry r i j)) mine / N.of_nat (length (hands_in c)) else 0.
  Proof.
    intros Hi Hc. pose proof (approx_tables _ _ _ _ _ _ _ _ _ _ _ _ Hr Hs H) as HT.
    exact (combo_results (o_results o) (length ranges) (tb_hands _ _ _ _ _ HT) (approx_shares _ _ _ _ _ _ _ _ _ _ _ _ Hr Hs H Hp) (tb_combos _ _ _ _ _ HT) i c Hi Hc).
  Qed.
  Lemma sampled_boards : board < 2 ^ 64 -> 2 < ones board -> forall cat,
    (forall a b k, hole a b -> N.testbit board a = false -> N.testbit board b = false -> get_card_index p a b = Ret k -> cat (N.to_nat k) = category_of (a :: b :: mask_cards board)) ->
    let r := o_results o in
    forall i c, (i < length ranges)%nat -> (c < 9)%nat ->
    let mine := filter (fun j => u_valid (hand_entry r i j) && (cat j =? N.of_nat c)) (seq 0 1326) in
    exists u, nth_error (r_board_results r) (9 * i + c) = Some u /\ sums_up r i mine u /\
      u_weight u = if 0 <? sum_of (fun j => u_total (hand_entry r i j)) mine then sum_of (fun j => u_weight (hand_entry r i j)) mine else 0.
  Proof.
    intros Hb H2 cat Hcat. rewrite <- (ones_ok _ Hb) in H2.
    exact (tables_boards p ranges board dead (ok_hole _ Hr) (o_results o) (approx_tables _ _ _ _ _ _ _ _ _ _ _ _ Hr Hs H) (approx_shares _ _ _ _ _ _ _ _ _ _ _ _ Hr Hs H Hp) H2 cat Hcat).
  Qed.
  Lemma sampled_draws : board < 2 ^ 64 -> 2 < ones board ->
    let r := o_results o in
    forall i c, (i < length ranges)%nat -> (c < 10)%nat ->
    let mine := filter (fun j => u_valid (hand_entry r i j) && draw_column c (u_draw (hand_entry r i j))) (seq 0 1326) in
    exists u, nth_error (r_board_draws r) (10 * i + c) = Some u /\ sums_up r i mine u /\
      u_weight u = if 0 <? sum_of (fun j => u_total (hand_entry r i j)) mine then sum_of (fun j => u_weight (hand_entry r i j)) mine else 0.
  Proof.
    intros Hb H2. rewrite <- (ones_ok _ Hb) in H2.
    exact (tables_draws p ranges board dead (o_results o) (approx_tables _ _ _ _ _ _ _ _ _ _ _ _ Hr Hs H) (approx_shares _ _ _ _ _ _ _ _ _ _ _ _ Hr Hs H Hp) H2).
  Qed.
End Sampled.
