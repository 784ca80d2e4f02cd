(* exact_equity as a whole. *)
From Verif Require Import Base BaseProofs SumFacts Ghost Float64 Hand FastDivide FastDivideProofs Range Combined Sim SpecPoker ListFacts
  HandProofs HandExprProofs SpecNames SpecHand SpecRange SpecEquity SpecResults EvalProofs EnumProofs ShowdownProofs BoardProofs CombinedProofs PositionProofs MergeProofs
  MachineProofs SetupProofs DrawProofs WeightProofs FinalProofs.
From Coq Require Import Permutation Sorted.
Local Open Scope N_scope.

#[local] Opaque NUM_HANDS.

(* ------------------------------------------------------------------------- *)
(** * Bounds *)

Lemma choice_upto (P : N -> N -> Prop) k : (forall x, x < k -> exists e, P x e) -> exists E, forall x, x < k -> P x (E x).
Proof.
  induction k as [|k IH] using N.peano_ind; intros H; [exists (fun _ => 0); intros; lia|].
  destruct IH as (E & HE); [intros; apply H; lia|]. destruct (H k ltac:(lia)) as (e & He).
  exists (fun x => if x =? k then e else E x). intros x Hx. destruct (N.eqb_spec x k) as [->|]; [exact He|]. apply HE. lia.
Qed.

Lemma sum_picks rs : sumf big_weight (picks rs) = prod_of range_weight rs.
Proof.
  induction rs as [|r rs IH]; [reflexivity|]. cbn [picks]. change (prod_of range_weight (r :: rs)) with (range_weight r * prod_of range_weight rs). rewrite <- IH.
  unfold range_weight. clear. induction r as [|h r IH]; [reflexivity|]. cbn [flat_map]. rewrite sumf_app, IH, sumf_map, sumf_cons, N.mul_add_distr_r. f_equal.
  generalize (picks rs). clear. induction l as [|d l IH]; [cbn; lia|]. rewrite !sumf_cons, IH, N.mul_add_distr_l. f_equal.
Qed.
Lemma sum_filter_le {A} (f : A -> N) (g : A -> bool) l : sumf f (filter g l) <= sumf f l.
Proof. induction l as [|x l IH]; [cbn; lia|]. cbn [filter]. rewrite sumf_cons. destruct (g x); rewrite ?sumf_cons; lia. Qed.
Lemma sum_deals_le ranges board dead : sumf big_weight (deals ranges board dead) <= prod_of range_weight ranges.
Proof. unfold deals. rewrite <- sum_picks. apply sum_filter_le. Qed.
Lemma in_sum_le {A} (f : A -> N) l x : In x l -> f x <= sumf f l.
Proof. induction l as [|y l IH]; [intros []|]. rewrite sumf_cons. intros [->|H]; [lia|]. specialize (IH H). lia. Qed.

Lemma choose_mono {A} k : forall (l l' : list A), (length l <= length l')%nat -> (length (choose k l) <= length (choose k l'))%nat.
Proof.
  induction k as [|k IHk]; intros l l' H.
  - destruct l, l'; cbn; lia.
  - revert l H. induction l' as [|y l' IH]; intros l H; destruct l as [|x l]; cbn [choose length] in *; try lia.
    rewrite !app_length, !map_length. specialize (IHk l l' ltac:(lia)). specialize (IH l ltac:(lia)). lia.
Qed.
Lemma filter_le {A} (f g : A -> bool) l : (forall x, f x = true -> g x = true) -> (length (filter f l) <= length (filter g l))%nat.
Proof. intros H. induction l as [|x l IH]; [cbn; lia|]. cbn [filter]. specialize (H x). destruct (f x), (g x); cbn [length]; try lia; discriminate H; reflexivity. Qed.
Lemma boards_le board dead d : N.of_nat (length (boards board dead d)) <= max_boards board.
Proof.
  unfold max_boards, boards. rewrite !map_length. enough (length (choose (5 - length (mask_cards board)) (unseen board dead d)) <= length (choose (5 - length (mask_cards board)) (unseen board 0 [])))%nat by lia.
  apply choose_mono. unfold unseen. apply filter_le. intros c Hc. apply andb_true_iff in Hc as [Hc _]. unfold on_table in *. rewrite N.bits_0.
  destruct (N.testbit board c); [discriminate|reflexivity].
Qed.

Lemma eff_le d slot o L : eff d slot o L <= 1.
Proof. destruct o as [mm|[] k|]; cbn [eff]; unfold b2n; try (match goal with |- context[if ?b then _ else _] => destruct b end; lia); lia. Qed.
Lemma sum_one_le {A} (f : A -> N) l : (forall x, f x <= 1) -> sumf f l <= N.of_nat (length l).
Proof. intros H. induction l as [|x l IH]; [cbn; lia|]. rewrite sumf_cons. specialize (H x). cbn [length]. lia. Qed.

Lemma sum_masks_le d slot l k : sumf (fun i => sumf (eff d slot (OMask i)) l) (seq 0 k) <= N.of_nat (length l).
Proof.
  induction l as [|L l IH]; [rewrite sumf_zero by reflexivity; lia|].
  rewrite (sumf_ext _ (fun i => eff d slot (OMask i) L + sumf (eff d slot (OMask i)) l)) by (intros; apply sumf_cons).
  rewrite sumf_add. enough (sumf (fun i => eff d slot (OMask i) L) (seq 0 k) <= 1) by (cbn [length]; lia).
  cbn [eff]. generalize (N.to_nat (wmask (winners d L))). intros w. clear.
  enough (G : forall a, sumf (fun i => b2n (w =? i)%nat) (seq a k) <= b2n (a <=? w)%nat) by (specialize (G 0%nat); exact G).
  induction k as [|k IH]; intros a; cbn [seq]; [cbn; lia|]. rewrite sumf_cons. specialize (IH (S a)).
  destruct (Nat.eqb_spec w a) as [->|Hne].
  - rewrite (proj2 (Nat.leb_gt (S a) a)) in IH by lia. rewrite Nat.leb_refl. cbn [b2n] in *. lia.
  - cbn [b2n]. destruct (Nat.leb_spec (S a) w), (Nat.leb_spec a w); cbn [b2n] in *; lia.
Qed.

(* ------------------------------------------------------------------------- *)
(** * Ranges that exclude each other *)

Lemma picks_empty {A} (rs : list (list A)) : In [] rs -> picks rs = [].
Proof.
  induction rs as [|r rs IH]; [intros []|]. intros [->|H]; [reflexivity|]. cbn [picks]. rewrite (IH H).
  induction r as [|x r IHr]; [reflexivity|]. exact IHr.
Qed.
Lemma no_deals ranges pss board dead : Permutation (concat pss) (seq 0 (length ranges)) -> Exists (fun ps => size_of ranges ps = 0) pss ->
  deals ranges board dead = [].
Proof.
  intros HP HE. set (F := fun a : list whand => if possible board dead a then 1 else 0).
  assert (H0 : sumf F (picks (map (range_of ranges) (concat pss))) = 0).
  { rewrite <- (sum_concat ranges pss F).
    - rewrite picks_empty; [reflexivity|]. apply Exists_exists in HE as (ps & Hin & Hs). apply in_map_iff. exists ps. split; [|exact Hin].
      unfold size_of in Hs. destruct (fairs ranges ps); [reflexivity|]. cbn in Hs. lia.
    - intros a Ha. unfold F, possible. rewrite Ha. reflexivity. }
  assert (H1 : sumf F (picks ranges) = 0).
  { rewrite <- H0. pose proof (sum_permuted ranges _ _ HP (fun l => F (map snd l))) as Hsp.
    transitivity (sumf (fun a => F (map snd (combine (seq 0 (length ranges)) a))) (picks (map (range_of ranges) (seq 0 (length ranges))))).
    { rewrite map_range_of. apply sumf_ext. intros a Ha. apply picks_length in Ha. rewrite combine_snd by (rewrite seq_length; congruence). reflexivity. }
    rewrite <- Hsp.
    - apply sumf_ext. intros a Ha. apply picks_length in Ha. rewrite map_length in Ha. rewrite combine_snd by congruence. reflexivity.
    - intros l l' _ Hll. unfold F. rewrite (possible_perm board dead (map snd l) (map snd l')) by (apply Permutation_map; exact Hll). reflexivity. }
  unfold deals. destruct (filter (possible board dead) (picks ranges)) as [|d l] eqn:E; [reflexivity|].
  assert (Hd : In d (filter (possible board dead) (picks ranges))) by (rewrite E; left; reflexivity).
  apply filter_In in Hd as [Hd Hp]. apply (in_sum_le F) in Hd. unfold F in Hd at 1. rewrite Hp in Hd. lia.
Qed.

(* ------------------------------------------------------------------------- *)
(** * A run *)

Lemma validate_none n board dead : validate n board dead = None <->
  (2 <= n <= 9)%nat /\ count_ones board <= 5 /\ 2 * N.of_nat n + count_ones dead + 5 <= 52.
Proof.
  unfold validate, MIN_PLAYERS, MAX_PLAYERS, BOARD_CARDS, CARD_COUNT.
  destruct (Nat.ltb_spec n 2), (Nat.ltb_spec 9 n), (N.ltb_spec 5 (count_ones board)), (N.ltb_spec 52 (2 * N.of_nat n + count_ones dead + 5));
    split; try discriminate; try reflexivity; intros; lia.
Qed.

Section Run.
  Variable p : profile.
  Variable ranges : list (list whand).
  Variable board dead : N.
  Hypothesis Hr : Forall range_ok ranges.
  Hypothesis Hval : validate (length ranges) board dead = None.
  Hypothesis Hsize : prod_of len ranges < 2 ^ 63.
  Notation n := (length ranges).
  Notation B := (weights_fit ranges board).
  Notation fr := (filtered board dead ranges).

  Lemma run_hole : Forall (Forall hole_hand) ranges.
  Proof. eapply Forall_impl; [|exact Hr]. intros r [H _]. eapply Forall_impl; [|exact H]. intros h [Hh _]. exact Hh. Qed.
  Lemma run_weight : Forall (Forall (fun h => weight h < 2 ^ 8)) ranges.
  Proof. eapply Forall_impl; [|exact Hr]. intros r [H _]. eapply Forall_impl; [|exact H]. intros h [_ Hh]. exact Hh. Qed.
  Lemma run_off : Forall (Forall (off_board board)) fr.
  Proof.
    unfold filtered. apply Forall_map. eapply Forall_impl; [|exact run_hole]. intros r H. rewrite Forall_forall in *. intros h Hh. apply filter_In in Hh as [Hin Hf].
    split; [apply H; exact Hin|]. unfold free, avoids in Hf. apply andb_true_iff in Hf as [Hf _]. apply andb_true_iff in Hf as [H1 H2].
    apply negb_true_iff in H1, H2. split; assumption.
  Qed.
  Lemma run_board : (length (mask_cards board) <= 5)%nat.
  Proof. apply validate_none in Hval as (_ & Hb & _). pose proof (mask_cards_length board). lia. Qed.
  Lemma run_n : (length fr = n /\ 2 <= n <= 9)%nat.
  Proof. split; [apply filtered_length|]. apply validate_none in Hval. lia. Qed.
  Lemma range_weight_le board' dead' : prod_of range_weight (filtered board' dead' ranges) <= prod_of range_weight ranges.
  Proof.
    unfold filtered. clear. induction ranges as [|r rs IH]; [cbn; lia|]. cbn [map].
    change (range_weight (filter (free board' dead') r) * prod_of range_weight (map (filter (free board' dead')) rs) <= range_weight r * prod_of range_weight rs).
    apply N.mul_le_mono; [|exact IH]. apply (sum_filter_le (fun h => N.max 1 (weight h))).
  Qed.

  Definition sizes_pos (pss : list (list nat)) : Prop := Forall (fun ps => 0 < size_of fr ps) pss.

  (* what one deal adds to a counter other than the number of evaluated boards *)
  Definition deal_gain (o : obs) (d : list whand) : N := deal_weight d * sumf (eff d (slot_of p d) o) (boards board dead d).
  Definition counts (o : obs) : Prop := match o with OCount => False | _ => True end.

  Definition run_state : Type := (list (list nat) * list crange * simulator * results * N * list divider)%type.
  Record started (pss : list (list nat)) (crs : list crange) (m : simulator) (r0 : results) (flag : N) (dvs : list divider) : Prop := mkStarted {
    st_combined : combine_ranges p ranges board dead = Ret (ROk (fr, crs));
    st_members : members fr pss crs;
    st_settled : settled crs;
    st_pos : sizes_pos pss;
    st_new : sim_new p fr crs board dead true f_zero = Ret m;
    st_m1 : m_combined m = crs;
    st_m2 : m_board_mask m = board;
    st_m3 : m_dead_mask m = dead;
    st_m4 : hand_of base (mask_cards board) (m_fixed_board m);
    st_m5 : m_n_players m = n;
    st_m6 : m_hand_ranges m = fr;
    st_m7 : m_calc_exact m = true;
    st_prepare : prepare p m = Ret (r0, flag);
    st_r0 : r0 = with_hand_results (results_init (length fr)) (r_hand_results r0);
    st_ready : entries_ready p board fr (r_hand_results r0);
    st_flag : forall i, (i < length fr)%nat -> N.testbit flag (N.of_nat i) = plain (nth i fr []);
    st_dvs : mapM (fun cr => divide_by p (cr_size cr)) crs = Ret dvs;
    st_divides : Forall2 (fun ps dv => divides p dv (size_of fr ps)) pss dvs;
    st_total : positions fr pss < 2 ^ 63 }.

  Lemma total_bound pss : Permutation (concat pss) (seq 0 (length fr)) -> positions fr pss < 2 ^ 63.
  Proof.
    intros HP. eapply N.le_lt_trans; [apply positions_prod; exact HP|]. eapply N.le_lt_trans; [apply filtered_prod|exact Hsize].
  Qed.

  Lemma members_range pss crs : members fr pss crs -> Forall2 (range_is fr) pss crs.
  Proof. intros [H _]. induction H as [|ps cr pss' crs' [Ha _] _ IH]; constructor; assumption. Qed.

  Lemma start : (combine_ranges p ranges board dead = Ret (RErr ConflictingRanges) /\ deals ranges board dead = [] /\
      exists pss, Permutation (concat pss) (seq 0 n) /\ Exists (fun ps => size_of fr ps = 0) pss) \/
    exists pss crs m r0 flag dvs, started pss crs m r0 flag dvs.
  Proof.
    destruct run_n as [Hfn [_ Hn9]]. unfold combine_ranges. rewrite (filter_ranges_ok p board dead ranges run_hole). cbn [bind].
    destruct (from_ranges_ok p fr (filtered_ok _ board dead ranges run_hole) ltac:(lia)) as (pss & crs & Efr & Hmem & Hset). rewrite Efr. cbn [bind].
    pose proof (members_range pss crs Hmem) as HF. destruct Hmem as [Hmem HP].
    assert (Hex : existsb (fun cr => cr_size cr =? 0) crs = true <-> Exists (fun ps => size_of fr ps = 0) pss).
    { clear - HF. induction HF as [|ps cr pss' crs' H _ IH]; cbn [existsb].
      - split; [discriminate|]. intros H. inversion H.
      - rewrite orb_true_iff, IH, N.eqb_eq, (range_is_size fr ps cr H). split.
        + intros [E|E]; [left; exact E|right; exact E].
        + intros E. inversion E; subst; auto. }
    destruct (existsb (fun cr => cr_size cr =? 0) crs) eqn:Ee.
    - left. split; [reflexivity|]. pose proof (proj1 Hex eq_refl) as HE. split; [|exists pss; rewrite Hfn in HP; auto].
      rewrite <- deals_filtered. apply (no_deals fr pss); assumption.
    - right.
      assert (Hpos : sizes_pos pss).
      { unfold sizes_pos. apply Forall_forall. intros ps Hin. destruct (N.eq_dec (size_of fr ps) 0) as [E|E]; [|lia].
        assert (Ht : false = true) by (apply Hex, Exists_exists; eauto). discriminate. }
      destruct (from_bit_mask_of p board) as (fb & Efb & Hfb); [apply fits_of_length; pose proof run_board; lia|].
      set (m := {| m_hand_ranges := fr; m_combined := crs; m_board_mask := board; m_dead_mask := dead; m_fixed_board := fb; m_n_players := length fr;
                   m_stdev_target := f_zero; m_calc_exact := true |}).
      assert (Em : sim_new p fr crs board dead true f_zero = Ret m) by (unfold sim_new; rewrite Efb; reflexivity).
      destruct (prepare_ok p fr board m eq_refl eq_refl eq_refl run_off run_board) as (r0 & flag & Ep & Hready & Hr0 & Hflag).
      pose proof (total_bound pss HP) as Htot.
      destruct (dividers_ok p fr pss crs HF Hpos) as (dvs & Ed & HD).
      { eapply Forall_impl; [|apply (size_positions fr pss Hpos)]. intros ps Hps. change (2 ^ 63) with 9223372036854775808 in Htot. change (2 ^ 64) with 18446744073709551616. cbv beta in Hps. lia. }
      exists pss, crs, m, r0, flag, dvs. constructor; try assumption; try reflexivity.
      + unfold combine_ranges. rewrite (filter_ranges_ok p board dead ranges run_hole). cbn [bind]. rewrite Efr. cbn [bind]. rewrite Ee. reflexivity.
      + split; assumption.
  Qed.

  (* --------------------------------------------------------------------- *)
  (** ** The threads *)

  Section Started.
    Variable pss : list (list nat).
    Variable crs : list crange.
    Variable m : simulator.
    Variable r0 : results.
    Variable flag : N.
    Variable dvs : list divider.
    Hypothesis HS : started pss crs m r0 flag dvs.
    Notation total := (positions fr pss).
    Notation okp := (ok_at fr pss board dead).
    Notation deal := (deal_at fr pss).
    Notation pg := (pgain p fr pss board dead).

    Lemma st_perm : Permutation (concat pss) (seq 0 (length fr)).
    Proof. apply (st_members _ _ _ _ _ _ HS). Qed.
    Lemma st_ranges : Forall2 (range_is fr) pss crs.
    Proof. apply members_range, (st_members _ _ _ _ _ _ HS). Qed.
    Lemma lt_64 x : x < 2 ^ 63 -> x + 2000000 < 2 ^ 64.
    Proof. change (2 ^ 63) with 9223372036854775808. change (2 ^ 64) with 18446744073709551616. lia. Qed.

    Definition bigsum : N := sumf big_weight (deals ranges board dead).
    Lemma bigsum_bound : B -> N.max 7776 (max_boards board) * bigsum < 2 ^ 64.
    Proof.
      intros b. eapply N.le_lt_trans; [|exact b]. apply N.mul_le_mono_l. apply sum_deals_le.
    Qed.
    Lemma ok_deal x : x < total -> okp x = true -> In (deal x) (deals ranges board dead).
    Proof.
      intros Hx Hok. rewrite <- deals_filtered. eapply Permutation_in; [apply (deals_perm fr pss board dead st_perm (st_pos _ _ _ _ _ _ HS))|].
      apply in_map. apply filter_In. split; [|exact Hok]. apply upto_In. exact Hx.
    Qed.
    Lemma big_deal x : B -> x < total -> okp x = true -> big_weight (deal x) * 6 ^ 5 < 2 ^ 64.
    Proof.
      intros b Hx Hok. pose proof (bigsum_bound b) as Hb. pose proof (in_sum_le big_weight _ _ (ok_deal x Hx Hok)) as Hd. fold bigsum in Hd.
      revert Hb Hd. change (6 ^ 5) with 7776. generalize (2 ^ 64), (max_boards board), bigsum, (big_weight (deal x)). clear. intros. nia.
    Qed.

    Definition evals (E : N -> N) : Prop := forall x, x < total ->
      (okp x = true -> stands_for (E x) (N.of_nat (length (boards board dead (deal x))))) /\ (okp x = false -> E x = 0).

    Lemma gain_bound E x o : evals E -> x < total -> pg x (E x) o <= if okp x then big_weight (deal x) * max_boards board else 0.
    Proof.
      intros HE Hx. unfold pgain. destruct (okp x) eqn:Eo; [|lia]. destruct (HE x Hx) as [He' _]. destruct (He' Eo) as [He _]. clear He'.
      pose proof (boards_le board dead (deal x)) as Hbo. pose proof (deal_weight_le (deal x)) as Hdw. pose proof (big_weight_pos (deal x)) as Hbp.
      assert (Hsum : forall o, sumf (eff (deal x) (slot_of p (deal x)) o) (boards board dead (deal x)) <= N.of_nat (length (boards board dead (deal x)))).
      { intros o'. apply sum_one_le. intros L. apply eff_le. }
      destruct o as [mm|f k|]; cbn [gain].
      - apply N.mul_le_mono; [exact Hdw|]. eapply N.le_trans; [apply Hsum|exact Hbo].
      - apply N.mul_le_mono; [exact Hdw|]. eapply N.le_trans; [apply Hsum|exact Hbo].
      - revert He Hbo Hbp. generalize (max_boards board), (big_weight (deal x)), (N.of_nat (length (boards board dead (deal x)))), (E x). clear. intros. nia.
    Qed.
    Lemma sum_big : sumf (fun x => if okp x then big_weight (deal x) * max_boards board else 0) (upto total) = max_boards board * bigsum.
    Proof.
      rewrite (sum_deals fr pss board dead st_perm (st_pos _ _ _ _ _ _ HS) (fun d => big_weight d * max_boards board)), deals_filtered.
      unfold bigsum. rewrite <- sumf_mul. apply sumf_ext. intros d _. apply N.mul_comm.
    Qed.
    Lemma bound_total E o : evals E -> B -> sumf (fun x => pg x (E x) o) (upto total) < 2 ^ 64.
    Proof.
      intros HE b. eapply N.le_lt_trans; [|exact (bigsum_bound b)]. eapply N.le_trans.
      - apply sumf_le. intros x Hx. apply gain_bound; [exact HE|]. apply upto_In. exact Hx.
      - rewrite sum_big. apply N.mul_le_mono_r. lia.
    Qed.
    Lemma bound_all_masks E k : evals E -> B -> sumf (fun i => sumf (fun x => pg x (E x) (OMask i)) (upto total)) (seq 0 k) < 2 ^ 64.
    Proof.
      intros HE b. rewrite sumf_swap. eapply N.le_lt_trans; [|exact (bigsum_bound b)]. eapply N.le_trans.
      - apply sumf_le with (g := fun x => if okp x then big_weight (deal x) * max_boards board else 0). intros x Hx. apply upto_In in Hx.
        unfold pgain. destruct (okp x) eqn:Eo; [|rewrite sumf_zero; [lia|reflexivity]]. cbn [gain]. rewrite sumf_mul.
        apply N.mul_le_mono; [apply deal_weight_le|]. eapply N.le_trans; [apply sum_masks_le|apply boards_le].
      - rewrite sum_big. apply N.mul_le_mono_r. lia.
    Qed.

    (* the sum of the gains of some positions, in terms of deals *)
    Lemma sum_gain E o L : counts o -> sumf (fun x => pg x (E x) o) L = sumf (deal_gain o) (map deal (filter okp L)).
    Proof.
      intros Ho. rewrite sumf_map, sumf_filter. apply sumf_ext. intros x _. unfold pgain, deal_gain. destruct (okp x); [|reflexivity].
      destruct o; [reflexivity|reflexivity|contradiction].
    Qed.

    Definition finished_run (E : N -> N) (threads : nat) (cancelled : bool) (sched : list event) (r : results) (msgs : list N) (token : bool) : Prop :=
      exists LR skipped es, results_ok p n r0 r (fun o => sumf (fun x => pg x (E x) o) LR) /\
       Permutation (LR ++ skipped) (upto total) /\
       (cancelled = false -> existsb is_cancel sched = false -> (0 < threads)%nat -> skipped = [] /\ last es 0 = total) /\
       msgs = map (fun e => exact_progress e total) es /\ StronglySorted N.le es /\ Forall (fun e => e <= total) es /\
       token = cancelled || existsb is_cancel sched.

    Lemma threads_ok : exists E, evals E /\ forall threads cancelled sched,
      exists y0, xinit (m_n_players m) threads cancelled r0 = Ret y0 /\
     may p B (foldM (xevent p m dvs) sched y0) (fun y =>
        forallb xdone (xy_threads y) = true ->
        finished_run E threads cancelled sched (xs_results (xy_shared y)) (xs_msgs (xy_shared y)) (xs_stopped (xy_shared y))) /\
     (forall y, foldM (xevent p m dvs) sched y0 = Ret y -> length (xy_threads y) = threads) /\
     (worked p m dvs sched y0 <= 3 * threads + 4 * N.to_nat total)%nat /\
     (B \/ p = Release -> exists sched' y', foldM (xevent p m dvs) sched' y0 = Ret y' /\ forallb xdone (xy_threads y') = true /\ existsb is_cancel sched' = false) /\
     (forall y, foldM (xevent p m dvs) sched y0 = Ret y -> forall t, In t (xy_threads y) -> xdone t = false -> exists ids L, (forall i, (i < n)%nat -> get ids i = Ret i) /\
        shape (n * NUM_HANDS) ids (x_stats t) /\ forall o, agr p (rd o (x_stats t)) (sumf (fun x => pg x (E x) o) L)).
    Proof.
      destruct (run_n) as [Hfn [Hn2 Hn9]].
      destruct HS as [S1 [S2a S2b] S3 S4 S5 S6 S7 S8 S9 S10 S11 S12 S13 S14 S15 S16 S17 S18 S19].
      pose proof st_ranges as HF.
      destruct (stats_init_ok n Hn9) as (ids & st0 & Hinit & Hshape & Hids & Hzero).
      destruct (choice_upto (fun x e => (okp x = true -> stands_for e (N.of_nat (length (boards board dead (deal x))))) /\ (okp x = false -> e = 0) /\
        forall st v, shape (n * NUM_HANDS) ids st -> (forall o, agr p (rd o st) (v o)) -> (B -> forall o, v o + pg x e o < 2 ^ 64) ->
          may p B (process_position p m dvs x st) (fun st' => shape (n * NUM_HANDS) ids st' /\ forall o, agr p (rd o st') (v o + pg x e o))) total) as (E & HE).
      { intros x Hx.
        destruct (process_position_ok p B fr pss crs dvs board dead m ids) with (x := x) as (e & He1 & He2 & He3); try assumption.
        - apply filtered_ok, run_hole.
        - eapply Forall_impl; [|apply filtered_ok, run_weight]. intros r Hrr. eapply Forall_impl; [|exact Hrr]. cbv beta. intros h Hh.
          change (2 ^ 8) with 256 in Hh. change (2 ^ 64) with 18446744073709551616. lia.
        - lia.
        - apply run_board.
        - congruence.
        - intros i Hi. apply Hids. lia.
        - revert Hx S19. clear. change (2 ^ 63) with 9223372036854775808. change (2 ^ 64) with 18446744073709551616. lia.
        - intros b Hok. apply big_deal; assumption.
        - exists e. rewrite Hfn in He3. auto. }
      assert (HEv : evals E) by (intros x Hx; destruct (HE x Hx) as (H1 & H2 & _); auto).
      exists E. split; [exact HEv|]. intros threads cancelled sched.
      assert (Hpre : get_preflop_combo_count p m = Ret total).
      { apply (preflop_ok p fr pss m); [rewrite S6; exact HF|exact S4|]. pose proof (lt_64 _ S19). lia. }
      destruct (proj1 (validate_none _ _ _) Hval) as (_ & _ & Hdeadb).
      destruct (postflop_ok p m board dead n S9 S8 S10 run_board Hdeadb) as (post & Hpost & Hpost0).
      assert (HR0 : results_ok p (length fr) r0 r0 (fun _ => 0)) by (apply (prepared_ok p fr board); assumption). rewrite Hfn in HR0.
      assert (Hproc : forall x, x < total -> forall st v, shape (n * NUM_HANDS) ids st -> (forall o, agr p (rd o st) (v o)) ->
        (B -> forall o, v o + pg x (E x) o < 2 ^ 64) ->
        may p B (process_position p m dvs x st) (fun st' => shape (n * NUM_HANDS) ids st' /\ forall o, agr p (rd o st') (v o + pg x (E x) o))).
      { intros x Hx. apply (HE x Hx). }
      pose proof (lt_64 _ S19) as Htot.
      assert (HB1 : B -> forall o, sumf (fun x => pg x (E x) o) (upto total) < 2 ^ 64) by (intros b o; apply bound_total; assumption).
      assert (HB2 : B -> sumf (fun i => sumf (fun x => pg x (E x) (OMask i)) (upto total)) (seq 0 (2 ^ n)) < 2 ^ 64) by (intros b; apply bound_all_masks; assumption).
      rewrite S10.
      assert (HX : exists y, xinit n threads cancelled r0 = Ret y /\ inv p n total (fun x => pg x (E x)) ids r0 y [] (repeat [] threads) [] [] /\
        length (xy_threads y) = threads /\ xs_stopped (xy_shared y) = cancelled /\ fuel total y = (3 * threads + 4 * N.to_nat total)%nat).
      { eapply (xinit_ok p B n m total post (fun x => pg x (E x)) ids st0 r0); try eassumption. }
      destruct HX as (y0 & Ey0 & HI & Hth & Hst & Hfu).
      exists y0. split; [exact Ey0|]. split; [|split; [|split; [|split]]].
      - eapply may_weaken.
        { eapply (run_ok p B n m dvs total post (fun x => pg x (E x)) ids st0 r0); try eassumption. }
        intros y ((LR & Ls & lost & es & HI') & Hl & Hstop) Hdone.
        assert (HD : (exists skipped, Permutation (LR ++ skipped) (upto total)) /\
          (xs_stopped (xy_shared y) = false -> (0 < length (xy_threads y))%nat -> Permutation LR (upto total) /\ xs_enum_pos (xy_shared y) = total /\ last es 0 = total)).
        { eapply (inv_done p B n m total post (fun x => pg x (E x)) ids r0); try eassumption. }
        destruct HD as [(skipped & HP) Hfull].
        destruct HI' as [I1 I2 I3 I4 I5 I6 I7 I8 I9 I10].
        destruct cancelled; [|destruct (existsb is_cancel sched) eqn:Ec].
        + exists LR, skipped, es. split; [exact I2|]. split; [exact HP|]. split; [discriminate|]. split; [exact I6|]. split; [exact I7|]. split; [eapply Forall_impl; [|exact I8]; cbv beta; intros; lia|].
          rewrite Hstop, Hst. reflexivity.
        + exists LR, skipped, es. split; [exact I2|]. split; [exact HP|]. split; [intros _ HH; congruence|]. split; [exact I6|]. split; [exact I7|]. split; [eapply Forall_impl; [|exact I8]; cbv beta; intros; lia|].
          rewrite Hstop, Hst, Ec. reflexivity.
        + rewrite Hst in Hstop. cbn [orb] in Hstop. destruct (Nat.ltb_spec 0 threads) as [Ht|Ht].
          * destruct (Hfull Hstop ltac:(lia)) as (HP' & He' & Hlast). exists LR, [], es. split; [exact I2|]. split; [rewrite app_nil_r; exact HP'|].
            split; [auto|]. split; [exact I6|]. split; [exact I7|]. split; [eapply Forall_impl; [|exact I8]; cbv beta; intros; lia|]. rewrite Ec. exact Hstop.
          * exists LR, skipped, es. split; [exact I2|]. split; [exact HP|]. split; [intros; lia|]. split; [exact I6|]. split; [exact I7|]. split; [eapply Forall_impl; [|exact I8]; cbv beta; intros; lia|]. rewrite Ec. exact Hstop.
      - intros y Ey. assert (Hrun : may p B (foldM (xevent p m dvs) sched y0) (fun y' => (exists LR' Ls' lost' es', inv p n total (fun x => pg x (E x)) ids r0 y' LR' Ls' lost' es') /\
          length (xy_threads y') = length (xy_threads y0) /\ xs_stopped (xy_shared y') = xs_stopped (xy_shared y0) || existsb is_cancel sched)).
        { eapply (run_ok p B n m dvs total post (fun x => pg x (E x)) ids st0 r0); try eassumption. }
        destruct Hrun as [(y1 & Ey1 & _ & Hl & _)|(_ & Ey1 & _)]; congruence.
      - rewrite <- Hfu. eapply (worked_bound p B n m dvs total post (fun x => pg x (E x)) ids st0 r0); eassumption.
      - intros b. eapply (can_finish p B n m dvs total post (fun x => pg x (E x)) ids st0 r0); try eassumption. apply le_n.
      - intros y Ey t Hin Hd. assert (Hrun : may p B (foldM (xevent p m dvs) sched y0) (fun y' => (exists LR' Ls' lost' es', inv p n total (fun x => pg x (E x)) ids r0 y' LR' Ls' lost' es') /\
          length (xy_threads y') = length (xy_threads y0) /\ xs_stopped (xy_shared y') = xs_stopped (xy_shared y0) || existsb is_cancel sched)).
        { eapply (run_ok p B n m dvs total post (fun x => pg x (E x)) ids st0 r0); try eassumption. }
        destruct Hrun as [(y1 & Ey1 & (LR & Ls & lost & es & HI') & _)|(_ & Ey1 & _)]; [|congruence]. assert (y1 = y) by congruence. subst y1.
        pose proof (i_threads _ _ _ _ _ _ _ _ _ _ _ HI') as I1. apply In_nth_error in Hin as (k & Hk).
        assert (HT : exists L, thread_ok p n total (fun x => pg x (E x)) ids L t).
        { clear - I1 Hk. revert k Hk. induction I1 as [|L t0 Ls ts H _ IH]; intros [|k] Hk; cbn [nth_error] in Hk; try discriminate; [injection Hk as <-; eauto|eauto]. }
        destruct HT as (L & _ & HT). exists ids, L. split; [exact Hids|]. unfold xdone in Hd. destruct (x_phase t); try discriminate; apply HT.
    Qed.
  End Started.
End Run.
