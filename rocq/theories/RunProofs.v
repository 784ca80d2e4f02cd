(* What a run of exact_equity returns: masks, hands, two runs, cancellation, termination. *)
From Verif Require Import Base BaseProofs SumFacts ListFacts Ghost Float64 Hand Range FastDivide Combined Sim SpecPoker SpecNames SpecHand SpecRange SpecEquity SpecResults SpecRun
  IndexProofs EnumProofs ShowdownProofs BoardProofs CombinedProofs PositionProofs MergeProofs MachineProofs SetupProofs WeightProofs FinalProofs ExactProofs ResultProofs CombineRunProofs.
From Coq Require Import Permutation Sorted.
Local Open Scope N_scope.
#[local] Opaque NUM_HANDS.

Lemma not_cancelled sched : ~ In Cancel sched -> existsb is_cancel sched = false.
Proof.
  intros H. destruct (existsb is_cancel sched) eqn:E; [|reflexivity]. exfalso. apply H. apply existsb_exists in E as (e & He & Hc).
  destruct e as [tid|]; [discriminate|exact He].
Qed.
Lemma counter_fun p x y v : counter p x v -> counter p y v -> x = y.
Proof. destruct p; cbn [counter]; congruence. Qed.
Lemma sum_over_perm board dead D D' what : Permutation D D' -> sum_over board dead D what = sum_over board dead D' what.
Proof. intros H. unfold sum_over. etransitivity; [symmetry; apply sumf_sum_of|]. etransitivity; [apply sumf_perm; exact H|]. apply sumf_sum_of. Qed.
Lemma sum_over_ext board dead D what what' : (forall d l, In d D -> In l (boards board dead d) -> what d l = what' d l) -> sum_over board dead D what = sum_over board dead D what'.
Proof.
  intros H. unfold sum_over. etransitivity; [symmetry; apply sumf_sum_of|]. etransitivity; [|apply sumf_sum_of]. apply sumf_ext. intros d Hd. f_equal.
  etransitivity; [symmetry; apply sumf_sum_of|]. etransitivity; [|apply sumf_sum_of]. apply sumf_ext. intros l Hl. rewrite (H d l Hd Hl). reflexivity.
Qed.
Lemma sum_over_total ranges board dead what : sum_over board dead (deals ranges board dead) what = total_of ranges board dead what.
Proof. unfold sum_over, total_of. reflexivity. Qed.

(* ------------------------------------------------------------------------- *)
(** * All runs on the same arguments *)

Lemma exact_common p ranges board dead : usable ranges ->
  exists total work, 0 < total < 2 ^ 63 /\ Permutation (map fst work) (deals ranges board dead) /\
    Forall (fun w => stands_for (snd w) (N.of_nat (length (boards board dead (fst w))))) work /\
    forall threads cancelled sched o, exact_equity p ranges board dead threads cancelled sched = Ret (ROk o) ->
      validate (length ranges) board dead = None /\ exists made left es, run_of p ranges board dead total work threads cancelled sched o made left es.
Proof.
  intros [Hr Hsize]. assert (Hdummy : Permutation (map fst (map (fun d => (d, N.of_nat (length (boards board dead d)))) (deals ranges board dead))) (deals ranges board dead)).
  { rewrite map_map. cbn [fst]. rewrite map_id. reflexivity. }
  assert (Hdummy2 : Forall (fun w => stands_for (snd w) (N.of_nat (length (boards board dead (fst w))))) (map (fun d => (d, N.of_nat (length (boards board dead d)))) (deals ranges board dead))).
  { apply Forall_forall. intros w Hw. apply in_map_iff in Hw as (d & <- & _). cbn [fst snd]. split; lia. }
  destruct (validate (length ranges) board dead) as [e|] eqn:Hv.
  - exists 1, (map (fun d => (d, N.of_nat (length (boards board dead d)))) (deals ranges board dead)). split; [lia|]. split; [exact Hdummy|]. split; [exact Hdummy2|].
    intros threads cancelled sched o H. exfalso. unfold exact_equity in H.
    change (@length (list combo) ranges) with (@length (list whand) ranges) in H. rewrite Hv in H. discriminate.
  - destruct (exact_ok p ranges board dead Hr Hv Hsize) as [(_ & _ & Hc)|(total & work & Ht & HP & HW & Hrun)].
    + exists 1, (map (fun d => (d, N.of_nat (length (boards board dead d)))) (deals ranges board dead)). split; [lia|]. split; [exact Hdummy|]. split; [exact Hdummy2|].
      intros threads cancelled sched o H. exfalso. rewrite Hc in H. discriminate.
    + exists total, work. split; [split; [lia|]; apply N.le_lt_trans with (2 := Hsize); apply Ht|]. split; [exact HP|]. split; [exact HW|]. intros threads cancelled sched o H. split; [reflexivity|].
      destruct (Hrun threads) as [H1 _]. destruct (H1 cancelled sched) as [(E & _)|[(res & E & o' & made & left & es & -> & Hro)|(_ & E & _)]]; rewrite E in H; try discriminate.
      injection H as <-. exists made, left, es. exact Hro.
Qed.

Lemma some_run p ranges board dead threads cancelled sched o : usable ranges -> exact_equity p ranges board dead threads cancelled sched = Ret (ROk o) ->
  exists D left e, Permutation (D ++ left) (deals ranges board dead) /\ (2 <= length ranges <= 9)%nat /\ report p ranges board dead D e (o_results o).
Proof.
  intros Hu H. destruct (exact_common p ranges board dead Hu) as (total & work & _ & HP & _ & Hrun).
  destruct (Hrun _ _ _ _ H) as (Hv & made & left & es & [Hp _ Hrep _ _ _ _]). exists (map fst made), (map fst left), (sum_of snd made).
  split; [|split; [apply validate_none in Hv; lia|exact Hrep]]. rewrite <- map_app. etransitivity; [|exact HP]. apply Permutation_map. exact Hp.
Qed.
Lemma full_run p ranges board dead threads sched o : usable ranges -> exact_equity p ranges board dead threads false sched = Ret (ROk o) ->
  ~ In Cancel sched -> (0 < threads)%nat ->
  exists D e, Permutation D (deals ranges board dead) /\ (2 <= length ranges <= 9)%nat /\ report p ranges board dead D e (o_results o).
Proof.
  intros Hu H Hc Ht. destruct (exact_common p ranges board dead Hu) as (total & work & _ & HP & _ & Hrun).
  destruct (Hrun _ _ _ _ H) as (Hv & made & left & es & [Hp Hfull Hrep _ _ _ _]). exists (map fst made), (sum_of snd made).
  destruct Hfull as [-> _]; [split; [reflexivity|]; split; [apply not_cancelled; exact Hc|exact Ht]|]. rewrite app_nil_r in Hp.
  split; [|split; [apply validate_none in Hv; lia|exact Hrep]]. etransitivity; [|exact HP]. apply Permutation_map. exact Hp.
Qed.

(* ------------------------------------------------------------------------- *)
(** * The counters of a full run *)

Lemma deal_length ranges board dead d : In d (deals ranges board dead) -> length d = length ranges.
Proof. intros H. unfold deals in H. apply filter_In in H as [H _]. exact (picks_length _ _ H). Qed.

Lemma masks_spec p ranges board dead threads sched o : usable ranges -> exact_equity p ranges board dead threads false sched = Ret (ROk o) ->
  ~ In Cancel sched -> (0 < threads)%nat ->
  let wbm := r_wins_by_mask (o_results o) in
  length wbm = (2 ^ length ranges)%nat /\
  ((length ranges <= 8)%nat -> forall m, m < 2 ^ N.of_nat (length ranges) -> counter p (nth (N.to_nat m) wbm 0) (won_by ranges board dead m)).
Proof.
  intros Hu H Hc Ht. cbv zeta. destruct (full_run p ranges board dead threads sched o Hu H Hc Ht) as (D & e & HP & _ & Hrep).
  split; [apply (rp_wbm _ _ _ _ _ _ _ Hrep)|]. intros H8 m Hm. pose proof (rp_masks _ _ _ _ _ _ _ Hrep m Hm) as Hmm.
  rewrite (sum_over_perm _ _ _ _ _ HP) in Hmm. unfold won_by. rewrite <- sum_over_total.
  rewrite (sum_over_ext board dead (deals ranges board dead) _ (fun d l => nats_eqb (seen (winners d l)) (players_of (length ranges) m))); [exact Hmm|].
  intros d l Hd _. rewrite (seen_all d l); [reflexivity|]. rewrite (deal_length _ _ _ _ Hd). exact H8.
Qed.

Definition won_by_first_eight (ranges : list (list whand)) (board dead m : N) : N :=
  total_of ranges board dead (fun d l => nats_eqb (first_eight (winners d l)) (players_of (length ranges) m)).
Lemma masks_nine p ranges board dead threads sched o : usable ranges -> exact_equity p ranges board dead threads false sched = Ret (ROk o) ->
  ~ In Cancel sched -> (0 < threads)%nat ->
  forall m, m < 2 ^ N.of_nat (length ranges) -> counter p (nth (N.to_nat m) (r_wins_by_mask (o_results o)) 0) (won_by_first_eight ranges board dead m).
Proof.
  intros Hu H Hc Ht m Hm. destruct (full_run p ranges board dead threads sched o Hu H Hc Ht) as (D & e & HP & _ & Hrep).
  pose proof (rp_masks _ _ _ _ _ _ _ Hrep m Hm) as Hmm. rewrite (sum_over_perm _ _ _ _ _ HP) in Hmm. unfold won_by_first_eight. rewrite <- sum_over_total. exact Hmm.
Qed.

Lemma sum_over_none board dead D : sum_over board dead D (fun _ _ => false) = 0.
Proof.
  unfold sum_over. etransitivity; [symmetry; apply sumf_sum_of|]. apply sumf_zero. intros d _.
  replace (sum_of (fun _ : list N => 0) (boards board dead d)) with 0; [lia|]. symmetry. etransitivity; [symmetry; apply sumf_sum_of|]. apply sumf_zero. reflexivity.
Qed.
Lemma counter_zero p x : counter p x 0 -> x = 0. Proof. destruct p; cbn [counter]; intros ->; reflexivity. Qed.

(* the ninth player never appears *)
Lemma ninth_never p ranges board dead threads cancelled sched o : usable ranges -> exact_equity p ranges board dead threads cancelled sched = Ret (ROk o) ->
  length ranges = 9%nat ->
  nth_error (r_wins (o_results o)) 8 = Some 0 /\ forall m, 256 <= m < 512 -> nth_error (r_wins_by_mask (o_results o)) (N.to_nat m) = Some 0.
Proof.
  intros Hu H H9. destruct (some_run p ranges board dead threads cancelled sched o Hu H) as (D & left & e & _ & _ & Hrep).
  assert (Hm : forall m, 256 <= m < 512 -> nth_error (r_wins_by_mask (o_results o)) (N.to_nat m) = Some 0).
  { intros m Hm. assert (Hl : (N.to_nat m < length (r_wins_by_mask (o_results o)))%nat) by (rewrite (rp_wbm _ _ _ _ _ _ _ Hrep), H9; change (2 ^ 9)%nat with 512%nat; lia).
    rewrite (nth_error_nth' _ 0 Hl). f_equal. apply (counter_zero p).
    assert (Hmn : m < 2 ^ N.of_nat (length ranges)) by (rewrite H9; change (2 ^ N.of_nat 9) with 512; lia).
    pose proof (rp_masks _ _ _ _ _ _ _ Hrep m Hmn) as Hmm.
    rewrite (sum_over_ext board dead D _ (fun _ _ => false)), sum_over_none in Hmm; [exact Hmm|].
    intros d l _ _. destruct (nats_eqb (seen (winners d l)) (players_of (length ranges) m)) eqn:E; [|reflexivity]. exfalso. apply nats_eqb_eq in E.
    assert (Hin : In 8%nat (players_of (length ranges) m)).
    { unfold players_of. apply filter_In. split; [apply in_seq; lia|]. change (N.of_nat 8) with 8. rewrite N.testbit_eqb.
      change (2 ^ 8) with 256. replace (m / 256) with 1; [reflexivity|]. apply (N.div_unique m 256 1 (m - 256)); lia. }
    rewrite <- E in Hin. unfold seen in Hin. apply filter_In in Hin as [_ Hin]. discriminate. }
  split; [|exact Hm].
  assert (Hl : (8 < length (r_wins (o_results o)))%nat) by (rewrite (rp_wins _ _ _ _ _ _ _ Hrep), H9; lia).
  rewrite (nth_error_nth' _ 0 Hl). f_equal. rewrite (rp_single _ _ _ _ _ _ _ Hrep 8%nat ltac:(lia)). change (2 ^ 8)%nat with (N.to_nat 256).
  specialize (Hm 256 ltac:(lia)). apply (nth_error_nth _ _ 0) in Hm. exact Hm.
Qed.

Lemma entry_lookup p ranges board dead D e r i a b k : report p ranges board dead D e r -> (i < length ranges)%nat -> hole a b -> get_card_index p a b = Ret k ->
  nth_error (r_hand_results r) (1326 * i + N.to_nat k) = Some (entry_of p r i a b).
Proof.
  intros Hrep Hi Hab Hk. destruct (idx_spec p a b Hab) as [Ek Hlt]. rewrite Ek in Hk. injection Hk as <-. rewrite Nat2N.id. unfold entry_of.
  change 1326%nat with NUM_HANDS in Hlt |- *. apply nth_error_nth'. rewrite (rp_hands _ _ _ _ _ _ _ Hrep). nia.
Qed.
Lemma hands_spec p ranges board dead threads sched o : usable ranges -> exact_equity p ranges board dead threads false sched = Ret (ROk o) ->
  ~ In Cancel sched -> (0 < threads)%nat ->
  forall i a b k, (i < length ranges)%nat -> hole a b -> get_card_index p a b = Ret k ->
  exists u, nth_error (r_hand_results (o_results o)) (1326 * i + N.to_nat k) = Some u /\
    counter p (u_wins u) (hand_wins ranges board dead i a b) /\ counter p (u_ties u) (hand_ties ranges board dead i a b) /\ counter p (u_total u) (hand_total ranges board dead i a b).
Proof.
  intros Hu H Hc Ht i a b k Hi Hab Hk. destruct (full_run p ranges board dead threads sched o Hu H Hc Ht) as (D & e & HP & _ & Hrep).
  exists (entry_of p (o_results o) i a b). split; [eapply entry_lookup; eassumption|].
  unfold hand_wins, hand_ties, hand_total. rewrite <- !sum_over_total, <- !(sum_over_perm _ _ _ _ _ HP).
  split; [exact (rp_win _ _ _ _ _ _ _ Hrep i a b Hi Hab)|]. split; [exact (rp_tie _ _ _ _ _ _ _ Hrep i a b Hi Hab)|exact (rp_total _ _ _ _ _ _ _ Hrep i a b Hi Hab)].
Qed.

(* ------------------------------------------------------------------------- *)
(** * Two runs *)

Lemma entry_exists p k n : (k < n * NUM_HANDS)%nat -> exists i a b, (i < n)%nat /\ hole a b /\ k = (NUM_HANDS * i + idx p a b)%nat.
Proof.
  intros Hk. destruct (slot_split k n) as (i & j & Hkj & Hi & Hj); [rewrite Nat.mul_comm; exact Hk|].
  destruct (index_onto p (N.of_nat j)) as (a & b & Hab & E); [change NUM_HANDS with 1326%nat in Hj; lia|].
  exists i, a, b. split; [exact Hi|]. split; [exact Hab|]. unfold idx. rewrite E, Nat2N.id. exact Hkj.
Qed.
Lemma nth_map_unit {A} (f : unit_results -> A) us k d : (k < length us)%nat -> nth k (map f us) d = f (unth k us).
Proof. intros H. rewrite (nth_indep _ d (f unit_default)) by (rewrite map_length; exact H). apply map_nth. Qed.

Lemma same_reports p ranges board dead D D' e r r' : report p ranges board dead D e r -> report p ranges board dead D' e r' -> Permutation D D' ->
  r_wins_by_mask r = r_wins_by_mask r' /\ r_wins r = r_wins r' /\ r_eval_count r = r_eval_count r' /\
  map u_wins (r_hand_results r) = map u_wins (r_hand_results r') /\ map u_ties (r_hand_results r) = map u_ties (r_hand_results r') /\
  map u_total (r_hand_results r) = map u_total (r_hand_results r').
Proof.
  intros H H' HP.
  assert (HN : N.of_nat (2 ^ length ranges) = 2 ^ N.of_nat (length ranges)) by (rewrite Nat2N.inj_pow; reflexivity).
  assert (Hm : r_wins_by_mask r = r_wins_by_mask r').
  { apply (nth_ext _ _ 0 0); [rewrite (rp_wbm _ _ _ _ _ _ _ H), (rp_wbm _ _ _ _ _ _ _ H'); reflexivity|]. intros k Hk. rewrite (rp_wbm _ _ _ _ _ _ _ H) in Hk.
    assert (Hk2 : N.of_nat k < 2 ^ N.of_nat (length ranges)) by lia.
    pose proof (rp_masks _ _ _ _ _ _ _ H _ Hk2) as H1. pose proof (rp_masks _ _ _ _ _ _ _ H' _ Hk2) as H2. rewrite Nat2N.id in H1, H2.
    rewrite <- (sum_over_perm _ _ _ _ _ HP) in H2. eapply counter_fun; eassumption. }
  split; [exact Hm|]. split; [|split].
  - apply (nth_ext _ _ 0 0); [rewrite (rp_wins _ _ _ _ _ _ _ H), (rp_wins _ _ _ _ _ _ _ H'); reflexivity|]. intros k Hk. rewrite (rp_wins _ _ _ _ _ _ _ H) in Hk.
    rewrite (rp_single _ _ _ _ _ _ _ H k Hk), (rp_single _ _ _ _ _ _ _ H' k Hk), Hm. reflexivity.
  - eapply counter_fun; [apply (rp_count _ _ _ _ _ _ _ H)|apply (rp_count _ _ _ _ _ _ _ H')].
  - assert (G : forall f, (forall i a b, (i < length ranges)%nat -> hole a b -> f (entry_of p r i a b) = f (entry_of p r' i a b)) ->
      map f (r_hand_results r) = map (f : unit_results -> N) (r_hand_results r')).
    { intros f Hf. apply (nth_ext _ _ 0 0); [rewrite !map_length, (rp_hands _ _ _ _ _ _ _ H), (rp_hands _ _ _ _ _ _ _ H'); reflexivity|].
      intros k Hk. rewrite map_length in Hk. rewrite !nth_map_unit by (try exact Hk; rewrite (rp_hands _ _ _ _ _ _ _ H'), <- (rp_hands _ _ _ _ _ _ _ H); exact Hk).
      rewrite (rp_hands _ _ _ _ _ _ _ H) in Hk. destruct (entry_exists p k _ Hk) as (i & a & b & Hi & Hab & ->). apply Hf; assumption. }
    split; [|split]; apply G; intros i a b Hi Hab.
    + eapply counter_fun; [apply (rp_win _ _ _ _ _ _ _ H); assumption|]. rewrite (sum_over_perm _ _ _ _ _ HP). apply (rp_win _ _ _ _ _ _ _ H'); assumption.
    + eapply counter_fun; [apply (rp_tie _ _ _ _ _ _ _ H); assumption|]. rewrite (sum_over_perm _ _ _ _ _ HP). apply (rp_tie _ _ _ _ _ _ _ H'); assumption.
    + eapply counter_fun; [apply (rp_total _ _ _ _ _ _ _ H); assumption|]. rewrite (sum_over_perm _ _ _ _ _ HP). apply (rp_total _ _ _ _ _ _ _ H'); assumption.
Qed.

Lemma two_runs p ranges board dead : usable ranges -> forall threads threads' sched sched' o o',
  exact_equity p ranges board dead threads false sched = Ret (ROk o) -> ~ In Cancel sched -> (0 < threads)%nat ->
  exact_equity p ranges board dead threads' false sched' = Ret (ROk o') -> ~ In Cancel sched' -> (0 < threads')%nat ->
  let r := o_results o in let r' := o_results o' in
  r_wins_by_mask r = r_wins_by_mask r' /\ r_wins r = r_wins r' /\ r_eval_count r = r_eval_count r' /\
  map u_wins (r_hand_results r) = map u_wins (r_hand_results r') /\ map u_ties (r_hand_results r) = map u_ties (r_hand_results r') /\
  map u_total (r_hand_results r) = map u_total (r_hand_results r').
Proof.
  intros Hu threads threads' sched sched' o o' H Hc Ht H' Hc' Ht'. cbv zeta.
  destruct (exact_common p ranges board dead Hu) as (total & work & _ & HP & _ & Hrun).
  destruct (Hrun _ _ _ _ H) as (_ & made & left & es & [Hp Hfull Hrep _ _ _ _]). destruct (Hrun _ _ _ _ H') as (_ & made' & left' & es' & [Hp' Hfull' Hrep' _ _ _ _]).
  destruct Hfull as [-> _]; [split; [reflexivity|]; split; [apply not_cancelled; exact Hc|exact Ht]|].
  destruct Hfull' as [-> _]; [split; [reflexivity|]; split; [apply not_cancelled; exact Hc'|exact Ht']|]. rewrite app_nil_r in Hp, Hp'.
  assert (HPm : Permutation made made') by (rewrite Hp; symmetry; exact Hp').
  assert (He : sum_of snd made = sum_of snd made') by (etransitivity; [symmetry; apply sumf_sum_of|]; etransitivity; [apply sumf_perm; exact HPm|]; apply sumf_sum_of).
  rewrite <- He in Hrep'. eapply same_reports; [exact Hrep|exact Hrep'|]. apply Permutation_map. exact HPm.
Qed.

(* ------------------------------------------------------------------------- *)
(** * Cancelled runs, and the end of every run *)

Lemma cancelled_run p ranges board dead threads cancelled sched o : usable ranges -> exact_equity p ranges board dead threads cancelled sched = Ret (ROk o) ->
  exists D left, Permutation (D ++ left) (deals ranges board dead) /\ sums_over p ranges board dead D (o_results o).
Proof.
  intros Hu H. destruct (some_run p ranges board dead threads cancelled sched o Hu H) as (D & left & e & HP & _ & Hrep).
  exists D, left. split; [exact HP|]. split; [intros m Hm; exact (rp_masks _ _ _ _ _ _ _ Hrep m Hm)|]. intros i a b k Hi Hab Hk.
  exists (entry_of p (o_results o) i a b). split; [eapply entry_lookup; eassumption|].
  split; [exact (rp_win _ _ _ _ _ _ _ Hrep i a b Hi Hab)|]. split; [exact (rp_tie _ _ _ _ _ _ _ Hrep i a b Hi Hab)|exact (rp_total _ _ _ _ _ _ _ Hrep i a b Hi Hab)].
Qed.

(* what a call can do *)
Lemma call_outcome p ranges board dead threads cancelled sched : usable ranges -> accepted (length ranges) board dead -> board < 2 ^ 64 -> dead < 2 ^ 64 ->
  exact_equity p ranges board dead threads cancelled sched = Ret (RErr ConflictingRanges) \/
  (exists o, exact_equity p ranges board dead threads cancelled sched = Ret (ROk o)) \/
  (p = Debug /\ exact_equity p ranges board dead threads cancelled sched = Fail Overflow /\ ~ weights_fit ranges board) \/
  exact_equity p ranges board dead threads cancelled sched = Fail OutOfFuel /\
    exists tid, (tid < threads)%nat /\ (how_many (is_run tid) sched <= 3 * threads + 4 * N.to_nat (prod_of (fun r => N.of_nat (length r)) ranges))%nat.
Proof.
  intros [Hr Hsize] Ha Hb Hd. apply (accepted_ok _ _ _ Hb Hd) in Ha.
  destruct (exact_ok p ranges board dead Hr Ha Hsize) as [(_ & _ & Hc)|(total & work & Ht & HP & HW & Hrun)]; [left; apply Hc|].
  right. destruct (Hrun threads) as [H1 _]. destruct (H1 cancelled sched) as [(E & tid & Htid & Hle)|[(res & E & o' & made & left & es & -> & Hro)|(Hp & E & HB)]].
  - right. right. split; [exact E|]. exists tid. split; [exact Htid|]. eapply Nat.le_trans; [exact Hle|].
    change (prod_of (fun r : list whand => N.of_nat (length r)) ranges) with (prod_of len ranges). lia.
  - left. exists o'. exact E.
  - right. left. auto.
Qed.
Lemma call_finishes p ranges board dead threads cancelled sched : usable ranges -> accepted (length ranges) board dead -> board < 2 ^ 64 -> dead < 2 ^ 64 ->
  weights_fit ranges board \/ p = Release ->
  (forall tid, (tid < threads)%nat -> (3 * threads + 4 * N.to_nat (prod_of (fun r => N.of_nat (length r)) ranges) < how_many (is_run tid) sched)%nat) ->
  exact_equity p ranges board dead threads cancelled sched = Ret (RErr ConflictingRanges) \/
  exists o, exact_equity p ranges board dead threads cancelled sched = Ret (ROk o).
Proof.
  intros Hu Ha Hb Hd HB Hs. destruct (call_outcome p ranges board dead threads cancelled sched Hu Ha Hb Hd) as [H|[H|[(Hp & _ & Hn)|(_ & tid & Ht & Hle)]]]; auto.
  - exfalso. destruct HB as [HB| ->]; [exact (Hn HB)|discriminate].
  - exfalso. specialize (Hs tid Ht). lia.
Qed.
Lemma call_can_finish p ranges board dead threads cancelled : usable ranges -> accepted (length ranges) board dead -> board < 2 ^ 64 -> dead < 2 ^ 64 ->
  weights_fit ranges board \/ p = Release -> deals ranges board dead <> [] ->
  exists sched o, ~ In Cancel sched /\ exact_equity p ranges board dead threads cancelled sched = Ret (ROk o).
Proof.
  intros [Hr Hsize] Ha Hb Hd HB Hne. apply (accepted_ok _ _ _ Hb Hd) in Ha.
  destruct (exact_ok p ranges board dead Hr Ha Hsize) as [(He & _)|(total & work & Ht & HP & HW & Hrun)]; [contradiction|].
  destruct (Hrun threads) as [_ H2]. destruct (H2 HB cancelled) as (sched & o & Hc & E). exists sched, o. split; [|exact E].
  intros Hin. assert (Hx : existsb is_cancel sched = true) by (apply existsb_exists; exists Cancel; auto). congruence.
Qed.
