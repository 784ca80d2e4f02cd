(* Multiplying the weights of players does not change equities and rates. *)
From Coq Require Import Floats.SpecFloat QArith Lqa.
From Verif Require Import Base BaseProofs SumFacts ListFacts Ghost Float64 Hand Range FastDivide Combined Sim SpecPoker SpecNames SpecHand SpecEquity SpecResults SpecRun SpecSymmetry SpecShare SpecEven SpecFinal SpecRates SpecScale
  EnumProofs PokerFacts IndexProofs CombinedProofs PositionProofs MachineProofs SetupProofs WeightProofs FinalProofs ExactProofs ResultProofs CombineRunProofs RunProofs LaunchProofs ConsistProofs SymmetryProofs
  FloatProofs FloatSumProofs EquityFloatProofs ConvergeProofs EquityProofs ShareProofs FinalRunProofs RateProofs UnitProofs TableRateProofs EvenProofs EvenSymmetryProofs QuotientProofs ProfileProofs SpecApprox.
Local Open Scope N_scope.
#[local] Opaque NUM_HANDS.
Notation scale := SpecSymmetry.scaled.

Lemma scaled_length ks : forall ranges, length ks = length ranges -> length (scale ks ranges) = length ranges.
Proof. induction ks as [|k ks IH]; intros [|r rs] Hk; try discriminate; [reflexivity|]. cbn [scale length]. f_equal. apply IH. injection Hk as Hk. exact Hk. Qed.
Lemma even_scaled ks ranges board dead : length ks = length ranges -> even_deals ranges board dead -> even_deals (scale ks ranges) board dead.
Proof.
  intros Hk He d j Hd Hj. rewrite (scaled_length _ _ Hk) in Hj. unfold deals in Hd. rewrite (picks_scaled _ _ Hk) in Hd. apply filter_In in Hd as [Hd Hp].
  apply in_map_iff in Hd as (d0 & <- & Hd). pose proof (picks_length _ _ Hd) as Hl. assert (Hkd : length ks = length d0) by congruence.
  rewrite (possible_cards _ _ _ _ (scale_cards ks d0 Hkd)) in Hp. rewrite (scale_weight _ _ Hkd). apply N.divide_mul_r. apply He; [|exact Hj]. apply filter_In. split; assumption.
Qed.

Lemma pots_scaled k wbm : pots (map (N.mul k) wbm) = k * pots wbm.
Proof.
  unfold pots. replace (tl (map (N.mul k) wbm)) with (map (N.mul k) (tl wbm)) by (destruct wbm; reflexivity).
  change (sumf (fun x => x) (map (N.mul k) (tl wbm)) = k * sumf (fun x => x) (tl wbm)). rewrite sumf_map, <- sumf_mul. reflexivity.
Qed.
Lemma shares_scaled k n j wbm : pot_shares n j (map (N.mul k) wbm) = k * pot_shares n j wbm.
Proof.
  unfold pot_shares. change (sumf (fun m => nth m (map (N.mul k) wbm) 0 * share_of j (players_of n (N.of_nat m))) (seq 0 (2 ^ n)) =
    k * sumf (fun m => nth m wbm 0 * share_of j (players_of n (N.of_nat m))) (seq 0 (2 ^ n))). rewrite <- sumf_mul. apply sumf_ext. intros m _.
  replace (nth m (map (N.mul k) wbm) 0) with (k * nth m wbm 0); [lia|]. replace 0 with (k * 0) at 2 by lia. symmetry. apply map_nth.
Qed.
Lemma pots_le wbm : pots wbm <= sum_of (fun x => x) wbm.
Proof. destruct wbm as [|x l]; [cbn; lia|]. change (sumf (fun x => x) l <= sumf (fun x => x) (x :: l)). rewrite sumf_cons. lia. Qed.

Lemma whole_form ranges board dead threads cancelled sched o : usable ranges -> even_deals ranges board dead -> exact_equity Debug ranges board dead threads cancelled sched = Ret (ROk o) ->
  let wbm := r_wins_by_mask (o_results o) in
  forall j, (j < length ranges)%nat -> exists t, pot_shares (length ranges) j wbm = t * 2520 /\ t <= pots wbm.
Proof.
  intros Hu Hev H wbm j Hj. destruct (exact_even _ _ _ _ _ _ _ Hu Hev H) as (bs & HH & HB & _ & Hv). apply validate_none in Hv. assert (Hn : (length ranges <= 9)%nat) by lia.
  exists (taken (length ranges) j bs). unfold wbm. rewrite (shares_chips _ _ _ HH), <- (even_taken _ j bs Hn Hj HB), (pots_won _ _ _ HH), <- (even_total _ bs Hn HB). split; [lia|].
  apply (sumf_in_le (fun k => taken (length ranges) k bs)). apply in_seq. lia.
Qed.

Lemma equities_scaled p ks ranges board dead o o' : usable ranges -> usable (scale ks ranges) -> length ks = length ranges -> Forall (fun k => 0 < k) ks ->
  fits p ranges board -> fits p (scale ks ranges) board -> even_deals ranges board dead -> sum_of (fun x => x) (r_wins_by_mask (o_results o')) <= 2 ^ 53 ->
  completes p ranges board dead o -> completes p (scale ks ranges) board dead o' -> r_equities (o_results o') = r_equities (o_results o).
Proof.
  intros Hu Hu' Hk Hpos Hf Hf' He Hs (th & sc & Ht & Hc & H) (th' & sc' & Ht' & Hc' & H'). pose proof (scaled_length _ _ Hk) as Hl. pose proof (even_scaled _ _ _ _ Hk He) as He'.
  apply exact_debug in H; [|assumption|assumption]. apply exact_debug in H'; [|assumption|assumption]. set (K := prod_of (fun k => k) ks).
  assert (HK : 0 < K). { unfold K, prod_of. clear - Hpos. induction Hpos as [|k ks Hk Hks IH]; [reflexivity|]. cbn [fold_right]. nia. }
  assert (E : r_wins_by_mask (o_results o') = map (N.mul K) (r_wins_by_mask (o_results o))).
  { destruct (masks_spec _ _ _ _ _ _ _ Hu H Hc Ht) as [L _]. destruct (masks_spec _ _ _ _ _ _ _ Hu' H' Hc' Ht') as [L' _]. rewrite Hl in L'.
    apply nth_error_ext. intros m. destruct (Nat.ltb_spec m (2 ^ length ranges)) as [Hm|Hm].
    - assert (Hb : has_figure (length ranges) (Winners (N.of_nat m))) by (cbn [has_figure]; change 2 with (N.of_nat 2); rewrite <- Nat2N.inj_pow; lia).
      destruct (scaled_weights Debug ranges ks board dead o o' Hu Hu' Hk ltac:(exists th, sc; auto) ltac:(exists th', sc'; auto) (Winners (N.of_nat m)) Hb) as (x & x' & Ex & Ex' & Hx).
      cbn [figure_of counter] in Ex, Ex', Hx. rewrite Nat2N.id in Ex, Ex'. rewrite Ex', (map_nth_error _ _ _ Ex), Hx. reflexivity.
    - rewrite (proj2 (nth_error_None _ m)) by (rewrite L'; exact Hm). symmetry. apply nth_error_None. rewrite map_length, L. exact Hm. }
  pose proof (whole_form _ _ _ _ _ _ _ Hu He H) as W. cbv zeta in W.
  pose proof (exact_whole _ _ _ _ _ _ _ _ Hu (or_introl eq_refl) He H) as E1. cbv zeta in E1. pose proof (exact_whole _ _ _ _ _ _ _ _ Hu' (or_introl eq_refl) He' H') as E2. cbv zeta in E2.
  rewrite E in *. revert W E1 E2 Hs. generalize (r_wins_by_mask (o_results o)). intros wbm W E1 E2 Hs.
  assert (Hle : sum_of (fun x => x) wbm <= sum_of (fun x => x) (map (N.mul K) wbm)).
  { change (sumf (fun x => x) wbm <= sumf (fun x => x) (map (N.mul K) wbm)). rewrite sumf_map. apply sumf_le. intros x _. nia. }
  destruct (E2 Hs) as [-> _]. destruct (E1 ltac:(lia)) as [-> _]. rewrite Hl. unfold whole_equities. apply map_ext_in. intros j Hj. apply in_seq in Hj.
  destruct (W j ltac:(lia)) as (t & Et & Hle'). rewrite shares_scaled, pots_scaled, Et. rewrite N.mul_assoc, !N.div_mul by discriminate.
  pose proof (pots_le wbm) as Hp. pose proof (pots_le (map (N.mul K) wbm)) as Hp'. rewrite pots_scaled in Hp'.
  destruct (N.eq_dec (pots wbm) 0) as [Z|Z]; [assert (t = 0) by lia; subst t; rewrite Z, N.mul_0_r; reflexivity|].
  apply same_quotient; nia.
Qed.

(* ------------------------------------------------------------------------- *)
(** * Rates of hands *)

(* an entry of a hand as the final pass leaves it *)
Definition rated (n : nat) (u : unit_results) : Prop :=
  u_wins u + u_ties u <= u_total u /\
  if u_total u =? 0 then u_equity u = f_zero /\ u_winrate u = f_zero /\ u_tierate u = f_zero
  else u_winrate u = f_div (f_of_N (u_wins u)) (f_of_N (u_total u)) /\ u_tierate u = f_div (f_of_N (u_ties u)) (f_of_N (u_total u)) /\
    exists ct, half n (u_ties u) ct /\ u_equity u = share_float (u_wins u) ct (u_total u).
Lemma rated_entry p ranges board dead r u : tables p ranges board dead r -> shares_fit (r_hand_results r) -> summed_results (length ranges) r ->
  In u (r_hand_results r) -> u_valid u = true -> rated (length ranges) u.
Proof.
  intros HT HS HU Hin Hv. apply (In_nth _ _ unit_default) in Hin as (k & Hk & <-). rewrite (tb_hands _ _ _ _ _ HT) in Hk. destruct (entry_ok p ranges board dead r HT HS HU k Hk) as [[[H1 H2] H3] H4].
  assert (Hi : (k / 1326 < length ranges)%nat) by (apply Nat.div_lt_upper_bound; lia). pose proof (Nat.mod_upper_bound k 1326 ltac:(lia)) as Hj. pose proof (Nat.div_mod k 1326 ltac:(lia)) as Ek.
  destruct (tb_entries _ _ _ _ _ HT (k / 1326)%nat (k mod 1326)%nat Hi Hj) as (u0 & E1 & E2 & E3 & _ & _ & _ & _ & _ & E4 & E5).
  unfold hand_entry in *. rewrite <- Ek in *. set (u := unth k (r_hand_results r)) in *. split; [exact H4|]. destruct (N.eqb_spec (u_total u) 0) as [E0|E0].
  - split; [apply E5; [exact Hv|congruence]|]. apply H2. exact E0.
  - destruct (E4 Hv ltac:(rewrite <- E3; lia)) as (_ & -> & ->). rewrite <- E1, <- E2, <- E3. destruct H3 as [H3|H3]; [contradiction|].
    split; [reflexivity|]. split; [reflexivity|]. exists (u_corrected_ties u). split; [exact H1|exact H3].
Qed.

Lemma half_two t c f w : half 2 c f -> w + c <= t -> 2 * t <= 2 ^ 53 -> level (f_add (f_of_N w) f) (q w + q c * (1 # 2)).
Proof.
  intros Hh Hle H53. destruct (Hh ltac:(lia)) as (v & Lv & U & D). change (part 2) with (1 # 2)%Q in D. pose proof (q_le _ _ Hle) as Hq. rewrite q_add in Hq. pose proof (q_pos c) as Pc. pose proof (q_pos w) as Pw.
  destruct (level_add (f_of_N w) f (q w) v t (level_int w ltac:(lia)) Lv ltac:(lra) ltac:(lia)) as (z & Lz & Uz & Dz & Ez).
  assert (E : (z == q w + q c * (1 # 2))%Q).
  { assert (E1 : (v == q c * (1 # 2))%Q) by lra. assert (E2 : (q w + v == q (2 * w + c) * (1 # 2))%Q) by (rewrite q_add, q_mul; change (q 2) with 2%Q; lra).
    destruct (F_half (2 * w + c) ltac:(lia)) as (m & e & Hm & Em). assert (Fz : F (q w + v)) by (exists m, e; split; [exact Hm|]; rewrite E2; exact Em). specialize (Ez Fz). lra. }
  destruct Lz as [[L1 L2]|[L1 L2]]; [left; split; [exact L1|lra]|right; split; [eapply num_ext; [exact L1|exact E]|lra]].
Qed.
Lemma rated_same n n' u u' : rated n u -> rated n' u' -> 0 < u_total u -> u_total u <= 2 ^ 49 -> 0 < u_total u' -> u_total u' <= 2 ^ 49 ->
  u_wins u * u_total u' = u_wins u' * u_total u -> u_ties u * u_total u' = u_ties u' * u_total u -> same_rates n n' u u'.
Proof.
  intros [L R] [L' R'] H0 H49 H0' H49' Ew Et. pose proof (small_53 _ H49) as H53. pose proof (small_53 _ H49') as H53'.
  destruct (N.eqb_spec (u_total u) 0) as [Z|_]; [lia|]. destruct (N.eqb_spec (u_total u') 0) as [Z|_]; [lia|].
  unfold same_rates. destruct R as (-> & -> & ct & Hc & ->). destruct R' as (-> & -> & ct' & Hc' & ->). split; [apply same_quotient; lia|]. split; [apply same_quotient; lia|]. intros -> ->. unfold share_float.
  assert (B1 : 2 * u_total u <= 2 ^ 53) by (apply N.le_trans with (2 * 2 ^ 49); [lia|discriminate]). assert (B2 : 2 * u_total u' <= 2 ^ 53) by (apply N.le_trans with (2 * 2 ^ 49); [lia|discriminate]).
  apply (same_share (u_wins u') (u_ties u') (u_total u') (u_wins u) (u_ties u) (u_total u)); try assumption; try (apply (half_two (u_total u')); assumption); try (apply (half_two (u_total u)); assumption). lia.
Qed.

Lemma exact_rated p ranges board dead threads cancelled sched o u : usable ranges -> fits p ranges board -> exact_equity p ranges board dead threads cancelled sched = Ret (ROk o) ->
  In u (r_hand_results (o_results o)) -> u_valid u = true -> rated (length ranges) u.
Proof.
  intros Hu Hf H Hin Hv. eapply (rated_entry p ranges board dead (o_results o)); [eapply run_tables; eassumption|eapply run_shares; eassumption| |exact Hin|exact Hv].
  eapply exact_summed. eapply exact_debug; eassumption.
Qed.
Lemma same_fractions p p' ranges ranges' board board' dead dead' threads threads' cancelled cancelled' sched sched' o o' : usable ranges -> usable ranges' -> fits p ranges board -> fits p' ranges' board' ->
  exact_equity p ranges board dead threads cancelled sched = Ret (ROk o) -> exact_equity p' ranges' board' dead' threads' cancelled' sched' = Ret (ROk o') ->
  forall u u', In u (r_hand_results (o_results o)) -> In u' (r_hand_results (o_results o')) -> u_valid u = true -> u_valid u' = true ->
  0 < u_total u -> u_total u <= 2 ^ 49 -> 0 < u_total u' -> u_total u' <= 2 ^ 49 ->
  u_wins u * u_total u' = u_wins u' * u_total u -> u_ties u * u_total u' = u_ties u' * u_total u -> same_rates (length ranges) (length ranges') u u'.
Proof. intros Hu Hu' Hf Hf' H H' u u' Hin Hin' Hv Hv' H1 H2 H3 H4 E1 E2. apply rated_same; try assumption; eapply exact_rated; eassumption. Qed.

Lemma range_scaled ks : forall ranges i, length ks = length ranges -> range_at (scale ks ranges) i = map (times (nth i ks 0)) (range_at ranges i).
Proof.
  unfold range_at. induction ks as [|k ks IH]; intros [|r rs] [|i] H; try discriminate; try reflexivity. cbn [scale nth]. injection H as H. apply IH. exact H.
Qed.
Lemma rates_scaled p ks ranges board dead o o' : usable ranges -> usable (scale ks ranges) -> length ks = length ranges -> Forall (fun k => 0 < k) ks ->
  fits p ranges board -> fits p (scale ks ranges) board -> completes p ranges board dead o -> completes p (scale ks ranges) board dead o' ->
  forall i a b, (i < length ranges)%nat -> hole a b -> exists u u', of_hand p (o_results o) i a b = Some u /\ of_hand p (o_results o') i a b = Some u' /\ u_valid u' = u_valid u /\
    (u_valid u = true -> u_total u' <= 2 ^ 49 -> same_rates (length ranges) (length ranges) u u').
Proof.
  intros Hu Hu' Hk Hpos Hf Hf' HC HC' i a b Hi Hab. pose proof (scaled_length _ _ Hk) as Hl. set (K := prod_of (fun k => k) ks).
  assert (HK : 0 < K). { unfold K, prod_of. clear - Hpos. induction Hpos as [|k ks Hk Hks IH]; [reflexivity|]. cbn [fold_right]. nia. }
  pose proof HC as (th & sc & Ht & Hc & H). pose proof HC' as (th' & sc' & Ht' & Hc' & H').
  destruct (index_total p a b Hab) as (k & _ & Ek & _).
  destruct (run_entry _ _ _ _ _ _ _ _ Hu H i a b k Hi Hab Ek) as (u & Eu & Vu & _). destruct (run_entry _ _ _ _ _ _ _ _ Hu' H' i a b k ltac:(rewrite Hl; exact Hi) Hab Ek) as (u' & Eu' & Vu' & _).
  exists u, u'. assert (Ou : of_hand p (o_results o) i a b = Some u) by (unfold of_hand; rewrite Ek; exact Eu). assert (Ou' : of_hand p (o_results o') i a b = Some u') by (unfold of_hand; rewrite Ek; exact Eu').
  split; [exact Ou|]. split; [exact Ou'|].
  assert (Hval : u_valid u' = u_valid u).
  { apply Bool.eq_true_iff_eq. rewrite Vu, Vu', (range_scaled _ _ _ Hk). split; intros ((h & Hh & Hs) & Hb).
    - apply in_map_iff in Hh as (h0 & <- & Hh). split; [exists h0; split; [exact Hh|exact Hs]|exact Hb].
    - split; [exists (times (nth i ks 0) h); split; [apply in_map; exact Hh|exact Hs]|exact Hb]. }
  split; [exact Hval|]. intros Hv H49. apply nth_error_In in Eu. apply nth_error_In in Eu'.
  assert (R : rated (length ranges) u) by (eapply exact_rated; eassumption). assert (R' : rated (length ranges) u') by (rewrite <- Hl; eapply (exact_rated p (scale ks ranges)); try eassumption; rewrite Hval; exact Hv).
  assert (Hcnt : u_wins u' = K * u_wins u /\ u_ties u' = K * u_ties u /\ u_total u' = K * u_total u).
  { apply exact_debug in H; [|assumption|assumption]. apply exact_debug in H'; [|assumption|assumption].
    assert (Od : of_hand Debug (o_results o) i a b = Some u).
    { destruct (index_total Debug a b Hab) as (k2 & _ & Ek2 & _). unfold of_hand in *. rewrite Ek in Ou. rewrite Ek2. destruct p; [congruence|]. pose proof (ag_get_card_index a b) as Ag. rewrite Ek, Ek2 in Ag.
      destruct Ag as [Ag|Ag]; [discriminate|injection Ag as ->; exact Ou]. }
    assert (Od' : of_hand Debug (o_results o') i a b = Some u').
    { destruct (index_total Debug a b Hab) as (k2 & _ & Ek2 & _). unfold of_hand in *. rewrite Ek in Ou'. rewrite Ek2. destruct p; [congruence|]. pose proof (ag_get_card_index a b) as Ag. rewrite Ek, Ek2 in Ag.
      destruct Ag as [Ag|Ag]; [discriminate|injection Ag as ->; exact Ou']. }
    pose proof (scaled_weights Debug ranges ks board dead o o' Hu Hu' Hk ltac:(exists th, sc; auto) ltac:(exists th', sc'; auto)) as SW.
    pose proof (SW (Wins i a b) (conj Hi Hab)) as (x1 & y1 & A1 & B1 & C1). pose proof (SW (Ties i a b) (conj Hi Hab)) as (x2 & y2 & A2 & B2 & C2). pose proof (SW (Total i a b) (conj Hi Hab)) as (x3 & y3 & A3 & B3 & C3).
    cbn [figure_of] in *. rewrite Od in *. rewrite Od' in *. cbn [option_map] in *. injection A1 as <-. injection A2 as <-. injection A3 as <-. injection B1 as <-. injection B2 as <-. injection B3 as <-. cbn [counter] in *. auto. }
  destruct Hcnt as (K1 & K2 & K3). destruct (N.eq_dec (u_total u) 0) as [Z|Z].
  - destruct R as [_ R], R' as [_ R']. rewrite Z in R. assert (Z' : u_total u' = 0) by (rewrite K3, Z; lia). rewrite Z' in R'. cbn in R, R'. destruct R as (R1 & R2 & R3), R' as (R1' & R2' & R3'). split; [|split]; intros; congruence.
  - apply rated_same; try assumption; rewrite ?K1, ?K2, ?K3 in *; nia.
Qed.

(* ------------------------------------------------------------------------- *)
(** * Equities of evenly split pots are the closest floats *)

Lemma closest_whole n wbm j : (j < n)%nat -> (forall k, (k < n)%nat -> exists t, pot_shares n k wbm = t * 2520 /\ t <= pots wbm) -> 0 < pots wbm -> pots wbm <= 2 ^ 53 ->
  closest (nth j (whole_equities n wbm) f_zero) (ratio (pot_shares n j wbm) (2520 * pots wbm)).
Proof.
  intros Hj W H0 H53. destruct (W j Hj) as (t & Et & Hle). unfold whole_equities.
  rewrite (nth_indep _ f_zero (f_div (f_of_N (pot_shares n 0 wbm / 2520)) (f_of_N (pots wbm)))) by (rewrite map_length, seq_length; exact Hj).
  rewrite (map_nth (fun k => f_div (f_of_N (pot_shares n k wbm / 2520)) (f_of_N (pots wbm)))), seq_nth by exact Hj. cbn [Nat.add]. rewrite Et, N.div_mul by discriminate.
  apply (closest_ext _ (ratio t (pots wbm))); [|apply int_closest; assumption]. apply (q_frac t (pots wbm) (t * 2520) (2520 * pots wbm)); lia.
Qed.
Lemma exact_closest p ranges board dead threads cancelled sched o : usable ranges -> fits p ranges board -> even_deals ranges board dead ->
  exact_equity p ranges board dead threads cancelled sched = Ret (ROk o) ->
  let r := o_results o in let n := length ranges in let w := pots (r_wins_by_mask r) in
  sum_of (fun x => x) (r_wins_by_mask r) <= 2 ^ 53 -> 0 < w ->
  forall j, (j < n)%nat -> closest (nth j (r_equities r) f_zero) (ratio (pot_shares n j (r_wins_by_mask r)) (2520 * w)).
Proof.
  intros Hu Hf He H. cbv zeta. intros Hs H0 j Hj. destruct (exact_whole _ _ _ _ _ _ _ _ Hu Hf He H Hs) as [-> _]. apply exact_debug in H; [|assumption|assumption].
  apply closest_whole; [exact Hj|exact (whole_form _ _ _ _ _ _ _ Hu He H)|exact H0|]. pose proof (pots_le (r_wins_by_mask (o_results o))). lia.
Qed.
Lemma approx_closest p ranges board dead threads target cancelled shuf rngs fuel sched o : Forall range_ok ranges -> permutes shuf ->
  p = Debug \/ N.of_nat (length sched) * heaviest ranges < 2 ^ 64 -> even_deals ranges board dead ->
  Approx.approx_equity p ranges board dead threads target cancelled shuf rngs fuel sched = Ret (ROk o) ->
  let r := o_results o in let n := length ranges in let w := pots (r_wins_by_mask r) in
  sum_of (fun x => x) (r_wins_by_mask r) <= 2 ^ 53 -> 0 < w ->
  forall j, (j < n)%nat -> closest (nth j (r_equities r) f_zero) (ratio (pot_shares n j (r_wins_by_mask r)) (2520 * w)).
Proof.
  intros Hr Hp Hf He H. cbv zeta. intros Hs H0 j Hj. destruct (approx_whole _ _ _ _ _ _ _ _ _ _ _ _ Hr Hp Hf He H Hs) as [-> _]. apply approx_debug in H; try assumption.
  apply closest_whole; [exact Hj| |exact H0|pose proof (pots_le (r_wins_by_mask (o_results o))); lia].
  intros k Hk. destruct (approx_even _ _ _ _ _ _ _ _ _ _ _ Hr Hp He H) as (bs & HH & HB & _ & Hv). apply validate_none in Hv. assert (Hn : (length ranges <= 9)%nat) by lia.
  exists (taken (length ranges) k bs). rewrite (shares_chips _ _ _ HH), <- (even_taken _ k bs Hn Hk HB), (pots_won _ _ _ HH), <- (even_total _ bs Hn HB). split; [lia|].
  apply (sumf_in_le (fun j => taken (length ranges) j bs)). apply in_seq. lia.
Qed.
