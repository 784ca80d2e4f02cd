(* What exact_equity returns, in terms of the specification. *)
From Verif Require Import Base BaseProofs SumFacts Ghost Float64 Hand FastDivide FastDivideProofs Range Combined Sim SpecPoker ListFacts
  HandProofs HandExprProofs SpecNames SpecHand SpecRange SpecEquity SpecResults SpecRun IndexProofs EvalProofs EnumProofs ShowdownProofs BoardProofs CombinedProofs PositionProofs MergeProofs
  MachineProofs SetupProofs DrawProofs WeightProofs FinalProofs ExactProofs.
From Coq Require Import Permutation Sorted.
Local Open Scope N_scope.

#[local] Opaque NUM_HANDS.

(* ------------------------------------------------------------------------- *)
(** * Counters of one deal *)

(* the winners seen by an 8-bit mask *)
Definition seen (l : list nat) : list nat := filter (fun i => (i <? 8)%nat) l.

Lemma wmask_bits l : forall m c, N.testbit (fold_left (fun m i => N.lor m (trunc 8 (2 ^ N.of_nat i))) l m) c =
  N.testbit m c || existsb (fun i => N.of_nat i =? c) (seen l).
Proof.
  induction l as [|i l IH]; intros m c; [cbn; rewrite orb_false_r; reflexivity|]. cbn [fold_left]. rewrite IH, N.lor_spec.
  unfold seen. cbn [filter]. unfold trunc. destruct (Nat.ltb_spec i 8) as [H|H].
  - rewrite N.mod_small by (apply N.pow_lt_mono_r; lia). rewrite N.pow2_bits_eqb. cbn [existsb]. rewrite orb_assoc. reflexivity.
  - replace (2 ^ N.of_nat i mod 2 ^ 8) with 0; [rewrite N.bits_0, orb_false_r; reflexivity|]. symmetry.
    replace (N.of_nat i) with ((N.of_nat i - 8) + 8) by lia. rewrite N.pow_add_r. apply N.mod_mul. discriminate.
Qed.
Lemma wmask_bit l i : N.testbit (wmask l) (N.of_nat i) = existsb (Nat.eqb i) (seen l).
Proof.
  unfold wmask. rewrite wmask_bits, N.bits_0. cbn [orb]. induction (seen l) as [|j l' IH]; [reflexivity|]. cbn [existsb]. rewrite IH. f_equal.
  destruct (N.eqb_spec (N.of_nat j) (N.of_nat i)), (Nat.eqb_spec i j); lia || reflexivity.
Qed.

Lemma filter_seq_in f n i : existsb (Nat.eqb i) (filter f (seq 0 n)) = (i <? n)%nat && f i.
Proof.
  destruct (existsb _ _) eqn:E.
  - apply existsb_exists in E as (j & Hj & E). apply Nat.eqb_eq in E. subst j. apply filter_In in Hj as [Hj Hf]. apply in_seq in Hj.
    rewrite Hf, (proj2 (Nat.ltb_lt i n)) by lia. reflexivity.
  - destruct (Nat.ltb_spec i n) as [H|H]; [|reflexivity]. destruct (f i) eqn:Hf; [|reflexivity]. cbn [andb].
    rewrite <- E. apply existsb_exists. exists i. split; [|apply Nat.eqb_refl]. apply filter_In. split; [apply in_seq; lia|exact Hf].
Qed.
Lemma filter_filter {A} (f g : A -> bool) l : filter f (filter g l) = filter (fun x => g x && f x) l.
Proof. induction l as [|x l IH]; [reflexivity|]. cbn [filter]. destruct (g x); cbn [filter andb]; rewrite IH; reflexivity. Qed.

Lemma bits_eq_nat a b : (forall i : nat, N.testbit a (N.of_nat i) = N.testbit b (N.of_nat i)) -> a = b.
Proof. intros H. apply N.bits_inj. intros c. specialize (H (N.to_nat c)). rewrite N2Nat.id in H. exact H. Qed.
Lemma high_bits m n i : m < 2 ^ N.of_nat n -> (n <= i)%nat -> N.testbit m (N.of_nat i) = false.
Proof.
  intros H Hi. destruct (N.eq_dec m 0) as [->|Hm]; [apply N.bits_0|]. apply N.bits_above_log2. apply N.log2_lt_pow2; [lia|].
  eapply N.lt_le_trans; [exact H|]. apply N.pow_le_mono_r; lia.
Qed.
Lemma nats_eqb_eq a b : nats_eqb a b = true <-> a = b.
Proof. unfold nats_eqb. destruct (list_eq_dec Nat.eq_dec a b); split; congruence || discriminate || auto. Qed.

(* the winner mask is m exactly if the winners among the first eight players are those in m *)
Lemma wmask_players d l n m : length d = n -> m < 2 ^ N.of_nat n ->
  (N.to_nat (wmask (winners d l)) =? N.to_nat m)%nat = nats_eqb (seen (winners d l)) (players_of n m).
Proof.
  intros Hn Hm. apply eq_true_iff_eq. rewrite Nat.eqb_eq, nats_eqb_eq. unfold winners. rewrite Hn.
  match goal with |- context[filter ?f (seq 0 n)] => set (F := f) end.
  assert (Hseen : seen (filter F (seq 0 n)) = filter (fun i => F i && (i <? 8)%nat) (seq 0 n)) by apply filter_filter.
  assert (Hb : forall i, N.testbit (wmask (filter F (seq 0 n))) (N.of_nat i) = (i <? n)%nat && (F i && (i <? 8)%nat)).
  { intros i. rewrite wmask_bit, Hseen. apply filter_seq_in. }
  split.
  - intros E. apply N2Nat.inj in E. rewrite Hseen. unfold players_of. apply filter_ext_in. intros i Hi. apply in_seq in Hi.
    rewrite <- E, Hb, (proj2 (Nat.ltb_lt i n)) by lia. reflexivity.
  - intros E. f_equal. apply bits_eq_nat. intros i. rewrite wmask_bit, E. unfold players_of. rewrite filter_seq_in.
    destruct (Nat.ltb_spec i n) as [H|H]; [reflexivity|]. cbn [andb]. symmetry. apply (high_bits m n); assumption.
Qed.
Lemma seen_all d l : (length d <= 8)%nat -> seen (winners d l) = winners d l.
Proof.
  intros H. unfold seen, winners. rewrite filter_filter. apply filter_ext_in. intros i Hi. apply in_seq in Hi.
  rewrite (proj2 (Nat.ltb_lt i 8)) by lia. apply andb_true_r.
Qed.

(* the entry of a hand in hand_results *)
Lemma idx_eq p a b c d : hole a b -> hole c d -> (idx p a b =? idx p c d)%nat = ((a =? c) && (b =? d) || (a =? d) && (b =? c)).
Proof.
  intros H1 H2. destruct (idx_spec p a b H1) as [E1 _]. destruct (idx_spec p c d H2) as [E2 _].
  apply eq_true_iff_eq. rewrite Nat.eqb_eq, orb_true_iff, !andb_true_iff, !N.eqb_eq. split.
  - intros E. rewrite E in E1. destruct (index_injective p p a b c d _ H1 H2 E1 E2) as [[-> ->]|[-> ->]]; auto.
  - intros [[-> ->]|[-> ->]]; [reflexivity|]. unfold idx. destruct (index_total p c d H2) as (i & _ & Ei & Ei'). rewrite Ei, Ei'. reflexivity.
Qed.
Lemma slot_eq p d i j a b : (i < length d)%nat -> Forall hole_hand d -> hole a b ->
  (slot_of p d i =? NUM_HANDS * j + idx p a b)%nat = ((i =? j)%nat && holds j a b d).
Proof.
  intros Hi Hd Hab. assert (Hh : hole_hand (holding d i)) by (apply (proj1 (Forall_nth _ d) Hd); exact Hi).
  destruct (idx_spec p _ _ Hh) as [_ L1]. destruct (idx_spec p a b Hab) as [_ L2]. unfold slot_of. assert (HN : NUM_HANDS = 1326%nat) by reflexivity. rewrite HN in *.
  destruct (Nat.eqb_spec i j) as [<-|Hne].
  - cbn [andb]. unfold holds. rewrite <- (idx_eq p) by assumption. apply eq_true_iff_eq. rewrite !Nat.eqb_eq. lia.
  - cbn [andb]. apply Nat.eqb_neq. nia.
Qed.
Lemma slot_exists p d l j a b : (forall i, In i l -> (i < length d)%nat) -> Forall hole_hand d -> hole a b ->
  existsb (fun i => (slot_of p d i =? NUM_HANDS * j + idx p a b)%nat) l = holds j a b d && existsb (Nat.eqb j) l.
Proof.
  intros Hl Hd Hab. induction l as [|i l IH]; [cbn; rewrite andb_false_r; reflexivity|]. cbn [existsb].
  rewrite IH by (intros; apply Hl; right; assumption). rewrite (slot_eq p d i j a b) by (try assumption; apply Hl; left; reflexivity).
  rewrite (Nat.eqb_sym i j). destruct (j =? i)%nat, (holds j a b d); cbn [andb orb]; try reflexivity. 
Qed.
Lemma winners_lt d l i : In i (winners d l) -> (i < length d)%nat.
Proof. unfold winners. intros H. apply filter_In in H as [H _]. apply in_seq in H. lia. Qed.

Definition what_of (n : nat) (o : obs) : list whand -> list N -> bool :=
  match o with
  | OMask m => fun d l => nats_eqb (seen (winners d l)) (players_of n (N.of_nat m))
  | _ => fun _ _ => false
  end.

Lemma single_winner d l i : (length (winners d l) =? 1)%nat && existsb (Nat.eqb i) (winners d l) = nats_eqb (winners d l) [i].
Proof.
  apply eq_true_iff_eq. rewrite andb_true_iff, Nat.eqb_eq, nats_eqb_eq. generalize (winners d l). intros w. split.
  - intros [H1 H2]. destruct w as [|j [|? ?]]; try discriminate. cbn [existsb] in H2. rewrite orb_false_r in H2. apply Nat.eqb_eq in H2. congruence.
  - intros ->. cbn [length existsb]. rewrite Nat.eqb_refl. auto.
Qed.
Lemma many_winners d l i : negb (length (winners d l) =? 1)%nat && existsb (Nat.eqb i) (winners d l) = existsb (Nat.eqb i) (winners d l) && (2 <=? length (winners d l))%nat.
Proof.
  generalize (winners d l). intros [|a [|b w]]; cbn [length existsb Nat.eqb negb andb]; try reflexivity.
  - rewrite andb_false_r. reflexivity.
  - rewrite andb_true_r. reflexivity.
Qed.

Lemma sumf_sum_of {A} (f : A -> N) l : sumf f l = sum_of f l. Proof. reflexivity. Qed.
Lemma perm_filter {A} (f : A -> bool) l l' : Permutation l l' -> Permutation (filter f l) (filter f l').
Proof.
  induction 1 as [|x l l' _ IH|x y l|l1 l2 l3 _ IH1 _ IH2]; cbn [filter]; [constructor| | |eapply perm_trans; eassumption].
  - destruct (f x); [constructor; exact IH|exact IH].
  - destruct (f x), (f y); try apply Permutation_refl. constructor.
Qed.

Section Gain.
  Variable p : profile.
  Variable n : nat.
  Variable board dead : N.
  Variable D : list (list whand).
  Hypothesis HD : Forall (fun d => length d = n /\ Forall hole_hand d) D.
  Notation gainsum o := (sumf (deal_gain p board dead o) D).

  Lemma gainsum_ext o (what : list whand -> list N -> bool) : (forall d l, length d = n -> Forall hole_hand d -> eff d (slot_of p d) o l = if what d l then 1 else 0) ->
    gainsum o = sum_over board dead D what.
  Proof.
    intros H. unfold sum_over. etransitivity; [|apply sumf_sum_of]. apply sumf_ext. intros d Hd. rewrite Forall_forall in HD. destruct (HD d Hd) as [H1 H2]. unfold deal_gain. f_equal. etransitivity; [|apply sumf_sum_of]. apply sumf_ext. intros l _. apply H; assumption.
  Qed.
  Lemma gain_mask m : m < 2 ^ N.of_nat n -> gainsum (OMask (N.to_nat m)) = sum_over board dead D (fun d l => nats_eqb (seen (winners d l)) (players_of n m)).
  Proof. intros Hm. apply gainsum_ext. intros d l Hn _. cbn [eff]. rewrite (wmask_players d l n m Hn Hm). reflexivity. Qed.
  Lemma gain_total i a b : (i < n)%nat -> hole a b -> gainsum (OHand FTotal (NUM_HANDS * i + idx p a b)) = sum_over board dead D (fun d _ => holds i a b d).
  Proof.
    intros Hi Hab. apply gainsum_ext. intros d l Hn Hd. cbn [eff]. rewrite slot_exists; [|intros j Hj; apply in_seq in Hj; lia|exact Hd|exact Hab].
    replace (existsb (Nat.eqb i) (seq 0 (length d))) with true; [rewrite andb_true_r; reflexivity|]. symmetry. apply existsb_exists. exists i.
    split; [apply in_seq; lia|apply Nat.eqb_refl].
  Qed.
  Lemma gain_wins i a b : (i < n)%nat -> hole a b -> gainsum (OHand FWins (NUM_HANDS * i + idx p a b)) = sum_over board dead D (wins_with i a b).
  Proof.
    intros Hi Hab. apply gainsum_ext. intros d l Hn Hd. cbn [eff]. rewrite slot_exists; [|apply winners_lt|exact Hd|exact Hab].
    unfold wins_with. rewrite <- single_winner. unfold b2n. destruct (holds i a b d), (length (winners d l) =? 1)%nat; reflexivity.
  Qed.
  Lemma gain_ties i a b : (i < n)%nat -> hole a b -> gainsum (OHand FTies (NUM_HANDS * i + idx p a b)) = sum_over board dead D (ties_with i a b).
  Proof.
    intros Hi Hab. apply gainsum_ext. intros d l Hn Hd. cbn [eff]. rewrite slot_exists; [|apply winners_lt|exact Hd|exact Hab].
    unfold ties_with. rewrite <- andb_assoc, <- many_winners. unfold b2n. destruct (holds i a b d), (length (winners d l) =? 1)%nat; reflexivity.
  Qed.
End Gain.

Lemma deals_shape ranges board dead d : Forall (Forall hole_hand) ranges -> In d (deals ranges board dead) -> length d = length ranges /\ Forall hole_hand d.
Proof.
  intros HF H. apply filter_In in H as [H _]. revert d H. induction HF as [|r rs Hr HF IH]; intros d H; cbn [picks] in H.
  - destruct H as [<-|[]]. split; [reflexivity|constructor].
  - apply in_flat_map in H as (h & Hh & H). apply in_map_iff in H as (d' & <- & H). destruct (IH d' H) as [H1 H2]. cbn [length].
    split; [congruence|]. constructor; [|exact H2]. rewrite Forall_forall in Hr. apply Hr, Hh.
Qed.

(* ------------------------------------------------------------------------- *)
(** * Every fair schedule ends *)


Lemma nth_set_same {A} (l : list A) i j x : nth_error (set_nth l i x) j = if (i =? j)%nat then match nth_error l j with Some _ => Some x | None => None end else nth_error l j.
Proof. revert i j. induction l as [|y l IH]; intros [|i] [|j]; cbn; try reflexivity; try (destruct (_ =? _)%nat; reflexivity). apply IH. Qed.

Lemma done_stays p m dvs y e y' tid t : xevent p m dvs y e = Ret y' -> nth_error (xy_threads y) tid = Some t -> xdone t = true -> nth_error (xy_threads y') tid = Some t.
Proof.
  destruct e as [k|]; cbn [xevent]; intros E Ht Hd; [|injection E as <-; exact Ht].
  destruct (nth_error (xy_threads y) k) as [u|] eqn:Ek; [|injection E as <-; exact Ht].
  destruct (xstep p m dvs (xy_shared y) u) as [[sh u']|] eqn:Es; [|discriminate]. cbn [bind] in E. injection E as <-. cbn [xy_threads].
  rewrite nth_set_same. destruct (Nat.eqb_spec k tid) as [->|]; [|exact Ht]. rewrite Ht in *. injection Ek as <-. f_equal.
  unfold xstep in Es. unfold xdone in Hd. destruct (x_phase t); try discriminate. injection Es as <- <-. reflexivity.
Qed.
Lemma threads_same p m dvs y e y' tid : xevent p m dvs y e = Ret y' -> nth_error (xy_threads y) tid = None -> nth_error (xy_threads y') tid = None.
Proof.
  destruct e as [k|]; cbn [xevent]; intros E Ht; [|injection E as <-; exact Ht].
  destruct (nth_error (xy_threads y) k) as [u|] eqn:Ek; [|injection E as <-; exact Ht].
  destruct (xstep p m dvs (xy_shared y) u) as [[sh u']|] eqn:Es; [|discriminate]. cbn [bind] in E. injection E as <-. cbn [xy_threads].
  rewrite nth_set_same, Ht. destruct (k =? tid)%nat; reflexivity.
Qed.
Lemma over_stays p m dvs sched tid : forall y y', foldM (xevent p m dvs) sched y = Ret y' ->
  (nth_error (xy_threads y) tid = None -> nth_error (xy_threads y') tid = None) /\
  (forall t, nth_error (xy_threads y) tid = Some t -> xdone t = true -> nth_error (xy_threads y') tid = Some t).
Proof.
  induction sched as [|e sched IH]; intros y y' E; cbn [foldM] in E; [injection E as <-; auto|].
  apply bind_ret in E as (y1 & E1 & E2). destruct (IH y1 y' E2) as [H1 H2]. split.
  - intros H. apply H1. eapply threads_same; eassumption.
  - intros t Ht Hd. apply H2; [|exact Hd]. eapply done_stays; eassumption.
Qed.
Lemma steps_worked p m dvs sched tid t' : forall y y', foldM (xevent p m dvs) sched y = Ret y' -> nth_error (xy_threads y') tid = Some t' -> xdone t' = false ->
  (how_many (is_run tid) sched <= worked p m dvs sched y)%nat.
Proof.
  induction sched as [|e sched IH]; intros y y' E Ht Hd; [cbn; lia|]. pose proof (over_stays p m dvs (e :: sched) tid y y' E) as [Hn Ho].
  cbn [foldM] in E. apply bind_ret in E as (y1 & E1 & E2). specialize (IH y1 y' E2 Ht Hd). cbn [worked]. rewrite E1. unfold how_many in *. cbn [filter].
  destruct e as [k|]; cbn [is_run]; [|exact IH]. destruct (Nat.eqb_spec k tid) as [->|]; [|lia]. cbn [length].
  destruct (nth_error (xy_threads y) tid) as [t|]; [|specialize (Hn eq_refl); congruence].
  destruct (xdone t) eqn:Et; [specialize (Ho t eq_refl Et); congruence|lia].
Qed.

(* ------------------------------------------------------------------------- *)
(** * The report *)

Section Report.
  Variable p : profile.
  Variable ranges : list (list whand).
  Variable board dead : N.
  Notation n := (length ranges).
  Notation fr := (filtered board dead ranges).
  (* the entry of the hand a, b of player i *)
  Definition entry_of (r : results) (i : nat) (a b : N) : unit_results := unth (NUM_HANDS * i + idx p a b)%nat (r_hand_results r).

  Record report (D : list (list whand)) (e : N) (r : results) : Prop := mkReport {
    rp_wbm : length (r_wins_by_mask r) = (2 ^ n)%nat;
    rp_wins : length (r_wins r) = n;
    rp_ties : length (r_ties r) = n;
    rp_hands : length (r_hand_results r) = (n * NUM_HANDS)%nat;
    rp_masks : forall m, m < 2 ^ N.of_nat n ->
      counter p (nth (N.to_nat m) (r_wins_by_mask r) 0) (sum_over board dead D (fun d l => nats_eqb (seen (winners d l)) (players_of n m)));
    rp_single : forall j, (j < n)%nat -> nth j (r_wins r) 0 = nth (2 ^ j) (r_wins_by_mask r) 0;
    rp_total : forall i a b, (i < n)%nat -> hole a b -> counter p (u_total (entry_of r i a b)) (sum_over board dead D (fun d _ => holds i a b d));
    rp_win : forall i a b, (i < n)%nat -> hole a b -> counter p (u_wins (entry_of r i a b)) (sum_over board dead D (wins_with i a b));
    rp_tie : forall i a b, (i < n)%nat -> hole a b -> counter p (u_ties (entry_of r i a b)) (sum_over board dead D (ties_with i a b));
    rp_count : counter p (r_eval_count r) e;
    rp_equities : r_equities r = get_equity (r_wins r) (r_ties r);
    rp_entries : forall i j, (i < n)%nat -> (j < NUM_HANDS)%nat -> exists u, final_entry p fr board i j u (unth (NUM_HANDS * i + j)%nat (r_hand_results r));
    rp_combos : r_combo_results r = flat_map (fun i => map (combo_of (r_hand_results r) i) (seq 0 NUM_COMBOS)) (seq 0 n);
    rp_br : length (r_board_results r) = (9 * n)%nat;
    rp_bd : length (r_board_draws r) = (10 * n)%nat;
    rp_boards : forall i c, (i < n)%nat -> (c < 9)%nat -> unth (i * 9 + c)%nat (r_board_results r) =
       if 2 <? count_ones board then big_to_unit (tally (in_rank c) (entries (r_hand_results r) i)) unit_default else unit_default;
    rp_draws : forall i c, (i < n)%nat -> (c < 10)%nat -> unth (i * 10 + c)%nat (r_board_draws r) =
       if 2 <? count_ones board then big_to_unit (tally (in_draw c) (entries (r_hand_results r) i)) unit_default else unit_default }.

  Lemma counter_agr x v : agr p x v -> counter p x v. Proof. exact (fun H => H). Qed.

  Hypothesis Hr : Forall range_ok ranges.
  Hypothesis Hval : validate n board dead = None.
  Hypothesis Hsize : prod_of len ranges < 2 ^ 63.
  Notation B := (weights_fit ranges board).

  (* one complete or cancelled run *)
  Definition uncut (threads : nat) (cancelled : bool) (sched : list event) : Prop :=
    cancelled = false /\ existsb is_cancel sched = false /\ (0 < threads)%nat.
  Record run_of (total : N) (work : list (list whand * N)) (threads : nat) (cancelled : bool) (sched : list event) (o : observed) (made left : list (list whand * N)) (es : list N) : Prop := mkRun {
    ro_perm : Permutation (made ++ left) work;
    ro_full : uncut threads cancelled sched -> left = [] /\ last es 0 = total;
    ro_report : report (map fst made) (sum_of snd made) (o_results o);
    ro_progress : o_progress o = map (fun e => exact_progress e total) es;
    ro_sorted : StronglySorted N.le es;
    ro_bound : Forall (fun e => e <= total) es;
    ro_token : o_token o = cancelled || existsb is_cancel sched }.

  Lemma exact_ok :
    (deals ranges board dead = [] /\ (exists pss, Permutation (concat pss) (seq 0 n) /\ Exists (fun ps => size_of fr ps = 0) pss) /\
     forall threads cancelled sched, exact_equity p ranges board dead threads cancelled sched = Ret (RErr ConflictingRanges)) \/
    exists total work, 0 < total <= prod_of len ranges /\ Permutation (map fst work) (deals ranges board dead) /\
      Forall (fun w => stands_for (snd w) (N.of_nat (length (boards board dead (fst w))))) work /\
      forall threads,
       (forall cancelled sched,
         (exact_equity p ranges board dead threads cancelled sched = Fail OutOfFuel /\
            exists tid, (tid < threads)%nat /\ (how_many (is_run tid) sched <= 3 * threads + 4 * N.to_nat total)%nat) \/
         may p B (exact_equity p ranges board dead threads cancelled sched) (fun res => exists o made left es, res = ROk o /\ run_of total work threads cancelled sched o made left es)) /\
       (B \/ p = Release -> forall cancelled, exists sched o, existsb is_cancel sched = false /\ exact_equity p ranges board dead threads cancelled sched = Ret (ROk o)).
  Proof.
    assert (Hval' : validate (@length (list combo) ranges) board dead = None) by exact Hval.
    destruct (start p ranges board dead Hr Hval Hsize) as [(E & Hd & Hex)|(pss & crs & m & r0 & flag & dvs & HS)].
    - left. split; [exact Hd|]. split; [exact Hex|]. intros threads cancelled sched. unfold exact_equity. rewrite Hval', E. reflexivity.
    - right. destruct (run_n ranges board dead Hval Hsize) as [Hfn [Hn2 Hn9]].
      assert (Hfn' : @length (list combo) fr = n) by exact Hfn.
      destruct (threads_ok p ranges board dead Hr Hval Hsize pss crs m r0 flag dvs HS) as (E & HE & Hrun).
      pose proof (st_perm p ranges board dead pss crs m r0 flag dvs HS) as HP.
      set (total := positions fr pss) in *. set (okp := ok_at fr pss board dead) in *. set (deal := deal_at fr pss) in *.
      set (of_pos := fun x => (deal x, E x)).
      assert (Hmain : forall L, sumf (fun x => pgain p fr pss board dead x (E x) OCount) L = sum_of snd (map of_pos (filter okp L))).
      { intros L. change (sum_of snd (map of_pos (filter okp L))) with (sumf snd (map of_pos (filter okp L))). rewrite sumf_map, sumf_filter. apply sumf_ext. intros x _. unfold pgain. fold okp. destruct (okp x); reflexivity. }
      exists total. exists (map of_pos (filter okp (upto total))).
      assert (Hpos : 0 < total).
      { unfold total. apply positions_pos. exact (st_pos _ _ _ _ _ _ _ _ _ _ HS). }
      split; [split; [exact Hpos|]; unfold total; eapply N.le_trans; [apply positions_prod; exact HP|apply filtered_prod]|]. split; [|split].
      + rewrite map_map. cbn [of_pos fst]. rewrite <- deals_filtered. apply (deals_perm fr pss board dead HP). exact (st_pos _ _ _ _ _ _ _ _ _ _ HS).
      + apply Forall_map, Forall_forall. intros x Hx. apply filter_In in Hx as [Hx Hox]. apply upto_In in Hx. cbn [of_pos fst snd]. apply (HE x Hx). exact Hox.
      + intros threads.
        assert (Hfinish : forall r msgs token cancelled sched, finished_run p ranges board dead pss r0 E threads cancelled sched r msgs token ->
          exists r' made left es, finish p m flag r = Ret r' /\ run_of total (map of_pos (filter okp (upto total))) threads cancelled sched {| o_results := r'; o_progress := msgs; o_token := token |} made left es).
        { intros r msgs token cancelled sched (LR & skipped & es & HR & HLR & Hfull & Hmsg & Hsort & Hbound & Htok).
          assert (HRf : results_ok p (length fr) r0 r (fun o => sumf (fun x => pgain p fr pss board dead x (E x) o) LR)) by (rewrite Hfn; exact HR).
          destruct (finish_ok p fr board m) with (r0 := r0) (r := r) (flag := flag) (V := fun o => sumf (fun x => pgain p fr pss board dead x (E x) o) LR)
            as (r' & Ef & F1 & F2 & F3 & F4 & F5 & F6 & F7 & F8 & F9 & F10 & F11 & F12); try (apply HS); try assumption.
          { apply run_off. exact Hr. }
          { eapply Forall_impl; [|apply filtered_ok, run_weight; exact Hr]. intros rr Hrr. eapply Forall_impl; [|exact Hrr]. cbv beta. intros h Hh.
            change (2 ^ 8) with 256 in Hh. change (c_w h) with (weight h). lia. }
          { rewrite Hfn'. exact Hn9. }
          rewrite Hfn' in F6, F7, F8, F9, F10, F11, F12.
          set (made := map of_pos (filter okp LR)). exists r', made, (map of_pos (filter okp skipped)), es. split; [exact Ef|].
          assert (Hperm : Permutation (made ++ map of_pos (filter okp skipped)) (map of_pos (filter okp (upto total)))).
          { unfold made. rewrite <- map_app. apply Permutation_map. rewrite <- filter_app. apply perm_filter. exact HLR. }
          assert (HD : Forall (fun d => length d = n /\ Forall hole_hand d) (map fst made)).
          { apply Forall_forall. intros d Hdin. apply (deals_shape ranges board dead); [apply run_hole; exact Hr|]. rewrite <- deals_filtered.
            eapply Permutation_in; [apply (deals_perm fr pss board dead HP); exact (st_pos _ _ _ _ _ _ _ _ _ _ HS)|].
            unfold made in Hdin. rewrite map_map in Hdin. cbn [of_pos fst] in Hdin. apply in_map_iff in Hdin as (x & <- & Hx). apply in_map.
            apply filter_In in Hx as [Hx Hox]. apply filter_In. split; [|exact Hox]. eapply Permutation_in; [exact HLR|]. apply in_or_app. left. exact Hx. }
          assert (Hsum : forall o, counts o -> sumf (fun x => pgain p fr pss board dead x (E x) o) LR = sumf (deal_gain p board dead o) (map fst made)).
          { intros o Ho. unfold made. rewrite map_map. cbn [of_pos fst]. apply (sum_gain p ranges board dead); exact Ho. }
          destruct HRf as (R1 & R2 & R3 & R4 & R5 & R6 & R7 & _).
          constructor; cbn [o_results o_progress o_token]; try assumption.
          - intros (Hc & Hnc & Ht). destruct (Hfull Hc Hnc Ht) as [-> Hl]. auto.
          - constructor; try assumption; try congruence.
            + intros mm Hmm. rewrite F3, <- (gain_mask p n board dead _ HD mm Hmm), <- Hsum by exact I. apply counter_agr.
              apply (R5 (OMask (N.to_nat mm))). cbn [inr]. rewrite Hfn. clear - Hmm.
              assert (H2 : N.of_nat (2 ^ n) = 2 ^ N.of_nat n) by (rewrite Nat2N.inj_pow; reflexivity). lia.
            + intros j Hj. rewrite F1, F3. assert (Hj2 : (j < length fr)%nat) by lia. specialize (R6 j Hj2). eapply agr_fun; [exact R6|].
              apply (R5 (OMask (2 ^ j))). cbn [inr]. apply Nat.pow_lt_mono_r; lia.
            + intros i a b Hi Hab. destruct (idx_spec p a b Hab) as [_ Hlt]. destruct (F7 i (idx p a b) Hi Hlt) as (_ & _ & Ht & _).
              unfold entry_of. rewrite Ht, <- (gain_total p n board dead _ HD i a b Hi Hab), <- Hsum by exact I. apply counter_agr.
              apply (R5 (OHand FTotal (NUM_HANDS * i + idx p a b))). cbn [inr]. rewrite Hfn. assert (HN : NUM_HANDS = 1326%nat) by reflexivity. rewrite HN. nia.
            + intros i a b Hi Hab. destruct (idx_spec p a b Hab) as [_ Hlt]. destruct (F7 i (idx p a b) Hi Hlt) as (Ht & _).
              unfold entry_of. rewrite Ht, <- (gain_wins p n board dead _ HD i a b Hi Hab), <- Hsum by exact I. apply counter_agr.
              apply (R5 (OHand FWins (NUM_HANDS * i + idx p a b))). cbn [inr]. rewrite Hfn. assert (HN : NUM_HANDS = 1326%nat) by reflexivity. rewrite HN. nia.
            + intros i a b Hi Hab. destruct (idx_spec p a b Hab) as [_ Hlt]. destruct (F7 i (idx p a b) Hi Hlt) as (_ & Ht & _).
              unfold entry_of. rewrite Ht, <- (gain_ties p n board dead _ HD i a b Hi Hab), <- Hsum by exact I. apply counter_agr.
              apply (R5 (OHand FTies (NUM_HANDS * i + idx p a b))). cbn [inr]. rewrite Hfn. assert (HN : NUM_HANDS = 1326%nat) by reflexivity. rewrite HN. nia.
            + rewrite F4. unfold made. rewrite <- Hmain. apply (R5 OCount). exact I.
            + intros i j Hi Hj. eexists. apply F7; assumption. }
        assert (Heq : forall cancelled sched y0, xinit (m_n_players m) threads cancelled r0 = Ret y0 -> exact_equity p ranges board dead threads cancelled sched =
          (y <- foldM (xevent p m dvs) sched y0 ;;
           if forallb xdone (xy_threads y) then
            r <- finish p m flag (xs_results (xy_shared y)) ;;
            Ret (ROk {| o_results := r; o_progress := xs_msgs (xy_shared y); o_token := xs_stopped (xy_shared y) |})
          else Fail OutOfFuel)).
        { intros cancelled sched y0 Ey0. unfold exact_equity. rewrite Hval', (st_combined _ _ _ _ _ _ _ _ _ _ HS). cbn [bind].
          rewrite (st_new _ _ _ _ _ _ _ _ _ _ HS). cbn [bind]. rewrite (st_prepare _ _ _ _ _ _ _ _ _ _ HS). cbn [bind].
          rewrite (st_dvs _ _ _ _ _ _ _ _ _ _ HS). cbn [bind]. rewrite Ey0. reflexivity. }
        split.
        * intros cancelled sched. destruct (Hrun threads cancelled sched) as (y0 & Ey0 & Hmay & Hlen & Hwork & _). rewrite (Heq cancelled sched y0 Ey0).
          destruct Hmay as [(y & Ey & Hy)|(Hp & Ey & Hb)]; rewrite Ey in *; cbn [bind]; [|right; right; auto].
          destruct (forallb xdone (xy_threads y)) eqn:Ed.
          -- right. left. destruct (Hfinish _ _ _ _ _ (Hy eq_refl)) as (r' & made & left & es & Ef & Hro). rewrite Ef. cbn [bind]. eauto 10.
          -- left. split; [reflexivity|]. destruct (some_not_done _ Ed) as (tid & t & Ht & Hd). exists tid. split.
             ++ rewrite <- (Hlen y eq_refl). apply nth_error_Some. congruence.
             ++ eapply Nat.le_trans; [eapply steps_worked; eassumption|exact Hwork].
        * intros b cancelled. destruct (Hrun threads cancelled []) as (y0 & Ey0 & _ & _ & _ & Hfin & _). destruct (Hfin b) as (sched & y & Ey & Hd & Hc).
          destruct (Hrun threads cancelled sched) as (y0' & Ey0' & Hmay & _). rewrite Ey0 in Ey0'. injection Ey0' as <-.
          rewrite Ey in Hmay. destruct Hmay as [(y' & Ey' & Hy)|(_ & Ey' & _)]; [|discriminate]. injection Ey' as <-.
          destruct (Hfinish _ _ _ _ _ (Hy Hd)) as (r' & made & left & es & Ef & _).
          exists sched. eexists. split; [exact Hc|]. rewrite (Heq cancelled sched y0 Ey0), Ey. cbn [bind]. rewrite Hd, Ef. reflexivity.
  Qed.
End Report.
