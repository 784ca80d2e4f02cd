(* Ranges without any possible deal (C138, C139). *)
From Verif Require Import Base BaseProofs SumFacts ListFacts Ghost Float64 Hand FastDivide Range Combined Sim Approx SpecPoker SpecNames SpecHand SpecEquity SpecResults SpecRun SpecApprox SpecSure
  EnumProofs BoardProofs CombinedProofs PositionProofs MergeProofs MachineProofs SetupProofs ExactProofs CombineRunProofs RunProofs ConvergeRunProofs EquityProofs SureProofs.
From Coq Require Import Permutation.
Local Open Scope N_scope.
#[local] Opaque NUM_HANDS.

Lemma all_default {A} (d : A) l n : length l = n -> (forall i, (i < n)%nat -> nth i l d = d) -> l = repeat d n.
Proof.
  intros Hl H. apply (nth_ext _ _ d d); [rewrite repeat_length; exact Hl|]. intros i Hi. rewrite H by lia. symmetry. apply nth_repeat.
Qed.
Lemma empty_hist p ranges board dead bs r : (2 <= length ranges)%nat -> (length ranges <= 9)%nat -> Forall (counts p ranges board dead) bs -> hist p (length ranges) bs r -> deals ranges board dead = [] ->
  r_wins_by_mask r = repeat 0 (2 ^ length ranges) /\ r_wins r = repeat 0 (length ranges) /\ r_ties r = repeat f_zero (length ranges) /\
  Forall (fun e => f_is_nan e = true) (get_equity (r_wins r) (r_ties r)).
Proof.
  intros H2 H9 HC HH Hd. assert (HM : forall b i, In b bs -> nth i b 0 = 0).
  { intros b i Hb. rewrite Forall_forall in HC. apply (eff_zero p ranges board dead); [exact (HC b Hb)|]. rewrite Hd. intros d l []. }
  assert (HS : forall i, msum bs i = 0) by (intros i; unfold msum; apply sumf_zero; intros b Hb; apply HM; exact Hb).
  assert (HN : forall k, never_wins ranges board dead k) by (intros k d l Hin; rewrite Hd in Hin; destruct Hin).
  assert (E1 : r_wins r = repeat 0 (length ranges)).
  { apply all_default; [exact (h_wins _ _ _ _ HH)|]. intros k Hk. exact (proj1 (never_counters p ranges board dead k bs r HC (HN k) HH Hk)). }
  assert (E2 : r_ties r = repeat f_zero (length ranges)).
  { apply all_default; [exact (h_ties _ _ _ _ HH)|]. intros k Hk. exact (proj2 (never_counters p ranges board dead k bs r HC (HN k) HH Hk)). }
  split; [|split; [exact E1|split; [exact E2|]]].
  - apply all_default; [exact (h_wbm _ _ _ _ HH)|]. intros i Hi. pose proof (h_masks _ _ _ _ HH i Hi) as Ha. rewrite HS in Ha. apply (agr_exact p _ 0 Ha). reflexivity.
  - rewrite E1, E2. clear - H2 H9. generalize dependent (length ranges). intros n H2 H9. do 10 (destruct n; [try lia; vm_compute; repeat constructor|]). lia.
Qed.
Lemma exact_empty p ranges board dead threads cancelled sched o : usable ranges -> deals ranges board dead = [] ->
  exact_equity p ranges board dead threads cancelled sched = Ret (ROk o) -> let r := o_results o in
  r_wins_by_mask r = repeat 0 (2 ^ length ranges) /\ r_wins r = repeat 0 (length ranges) /\ r_ties r = repeat f_zero (length ranges) /\ Forall (fun e => f_is_nan e = true) (r_equities r).
Proof.
  intros Hu Hd H. cbv zeta. destruct (exact_counts _ _ _ _ _ _ _ _ Hu H) as (bs & HH & HC & -> & Hv). apply validate_none in Hv. eapply empty_hist; try eassumption; lia.
Qed.
Lemma approx_empty p ranges board dead threads target cancelled shuf rngs fuel sched o : Forall range_ok ranges -> permutes shuf -> deals ranges board dead = [] ->
  approx_equity p ranges board dead threads target cancelled shuf rngs fuel sched = Ret (ROk o) -> let r := o_results o in
  r_wins_by_mask r = repeat 0 (2 ^ length ranges) /\ r_wins r = repeat 0 (length ranges) /\ r_ties r = repeat f_zero (length ranges) /\ Forall (fun e => f_is_nan e = true) (r_equities r).
Proof.
  intros Hr Hs Hd H. cbv zeta. destruct (approx_counts _ _ _ _ _ _ _ _ _ _ _ _ Hr Hs H) as (bs & HH & HC & -> & Hv). apply validate_none in Hv. eapply empty_hist; try eassumption; lia.
Qed.

(* ------------------------------------------------------------------------- *)
(** * Four players who all need one of three aces *)

Definition with_ace (a : N) : list whand := map (fun c => (a, c, 1)) (nseq 0 42).
Definition one_ace : list whand := with_ace 51 ++ with_ace 50 ++ with_ace 49.
Definition four_aces : list (list whand) := [one_ace; one_ace; one_ace; one_ace].

Lemma one_ace_first h : In h one_ace -> In (first_card h) [51; 50; 49].
Proof.
  unfold one_ace, with_ace. rewrite !in_app_iff, !in_map_iff. intros [(c & <- & _)|[(c & <- & _)|(c & <- & _)]]; cbn; auto.
Qed.
Lemma firsts_distinct d : NoDup (dealt d) -> NoDup (map first_card d).
Proof.
  unfold dealt. induction d as [|h d IH]; intros H; [constructor|]. cbn [flat_map two_cards app] in H. inversion H as [|x l H1 H2]; subst. inversion H2 as [|x l H3 H4]; subst.
  cbn [map]. constructor; [|apply IH; exact H4]. intros Hin. apply H1. right. apply in_map_iff in Hin as (g & E & Hg). apply in_flat_map. exists g. split; [exact Hg|]. left. exact E.
Qed.
Lemma four_none board dead : deals four_aces board dead = [].
Proof.
  apply filter_none. intros d Hd. destruct (possible board dead d) eqn:E; [exfalso|reflexivity]. apply possible_spec in E as [Hnd _].
  assert (HF : Forall2 (fun h r => In h r) d four_aces).
  { clear - Hd. revert d Hd. generalize four_aces. intros rs. induction rs as [|r rs IH]; intros d Hd; cbn [picks] in Hd.
    - destruct Hd as [<-|[]]. constructor.
    - apply in_flat_map in Hd as (h & Hh & Hd). apply in_map_iff in Hd as (d' & <- & Hd). constructor; [exact Hh|apply IH, Hd]. }
  unfold four_aces in HF. inversion HF as [|h1 r1 d1 q1 H1 HF1]; subst. inversion HF1 as [|h2 r2 d2 q2 H2 HF2]; subst. inversion HF2 as [|h3 r3 d3 q3 H3 HF3]; subst.
  inversion HF3 as [|h4 r4 d4 q4 H4 HF4]; subst. inversion HF4; subst. apply one_ace_first in H1, H2, H3, H4.
  assert (HN : NoDup [first_card h1; first_card h2; first_card h3; first_card h4]).
  { exact (firsts_distinct _ Hnd). }
  assert (HI : incl [first_card h1; first_card h2; first_card h3; first_card h4] [51; 50; 49]) by (intros x [<-|[<-|[<-|[<-|[]]]]]; assumption).
  apply (NoDup_incl_length HN) in HI. cbn [length] in HI. lia.
Qed.
Lemma four_ok : usable four_aces.
Proof.
  split; [|vm_compute; reflexivity]. assert (H : range_ok one_ace); [|do 4 (apply Forall_cons; [exact H|]); apply Forall_nil]. split; [|vm_compute; reflexivity].
  apply Forall_forall. intros h Hh. unfold one_ace, with_ace in Hh. rewrite !in_app_iff, !in_map_iff in Hh.
  destruct Hh as [(c & <- & Hc)|[(c & <- & Hc)|(c & <- & Hc)]]; apply nseq_In in Hc; (split; [|reflexivity]); unfold hole, is_card, first_card, second_card; cbn [fst snd]; repeat split; lia.
Qed.
Definition sizes_of (x : outcome (result (list (list combo) * list crange) sim_error)) : option (list N) :=
  match x with Ret (ROk (_, crs)) => Some (map cr_size crs) | _ => None end.
Definition ace_combos : list ccombo := match mapM (ccombo_of Debug) one_ace with Ret l => l | Fail _ => [] end.
Definition ace_range (i : nat) : crange := {| cr_player_count := 1; cr_players := i :: repeat 0%nat 8; cr_combos := ace_combos; cr_size := lenN ace_combos |}.
Lemma ace_combos_ok p : mapM (ccombo_of p) one_ace = Ret ace_combos.
Proof. destruct p; vm_compute; reflexivity. Qed.
Lemma ace_size : lenN ace_combos = 126.
Proof. vm_compute. reflexivity. Qed.
Definition pairs_of (l l' : list ccombo) : N :=
  fold_left (fun size c1 => fold_left (fun size c2 => if N.land (cc_mask c1) (cc_mask c2) =? 0 then size + 1 else size) l' size) l 0.
Lemma join_pairs a b : estimate_join_size a b = pairs_of (cr_combos a) (cr_combos b).
Proof. reflexivity. Qed.
Lemma ace_range_combos i : cr_combos (ace_range i) = ace_combos.
Proof. reflexivity. Qed.
Lemma ace_pairs : pairs_of ace_combos ace_combos = 10332.
Proof. vm_compute. reflexivity. Qed.
Lemma ace_pairs_all i j : estimate_join_size (ace_range i) (ace_range j) = 10332.
Proof. rewrite join_pairs, !ace_range_combos. apply ace_pairs. Qed.
#[local] Opaque ace_combos estimate_join_size one_ace.
Lemma ace_from p i : from_range p one_ace i = Ret (ace_range i).
Proof. unfold from_range. cbn [bind upd cr_players cr_default repeat MAX_PLAYERS]. rewrite (ace_combos_ok p). reflexivity. Qed.
Lemma ace_join p : from_ranges p four_aces = Ret (map ace_range [0; 1; 2; 3]%nat).
Proof.
  unfold from_ranges, four_aces. cbn [length seq combine mapM bind]. rewrite !(ace_from p). cbn [bind length map join_loop].
  assert (E : best_pair (map ace_range [0; 1; 2; 3]%nat) = Ret (10332, 1%nat, 0%nat)).
  { unfold best_pair. cbn [map length seq foldM]. repeat (cbn [bind get nth_error]; rewrite ?ace_pairs_all; try change (10332 <? U64MAX) with true; try change (10332 <? 10332) with false; cbv iota beta). reflexivity. }
  cbn [map] in E. rewrite E. reflexivity.
Qed.
Lemma four_sizes p : sizes_of (combine_ranges p four_aces 0 0) = Some [126; 126; 126; 126].
Proof.
  unfold combine_ranges. rewrite (filter_ranges_ok p 0 0 four_aces (ok_hole _ (proj1 four_ok))).
  assert (E : filtered 0 0 four_aces = four_aces).
  { unfold filtered, four_aces. cbn [map]. assert (E : filter (free 0 0) one_ace = one_ace) by (vm_compute; reflexivity). rewrite E. reflexivity. }
  rewrite E. cbn [bind]. rewrite (ace_join p). cbn [bind map existsb ace_range cr_size]. rewrite ace_size. reflexivity.
Qed.

Lemma exact_combined p (ranges : list (list whand)) board dead threads cancelled sched e : exact_equity p ranges board dead threads cancelled sched = Ret (RErr e) ->
  validate (length ranges) board dead = Some e \/ combine_ranges p ranges board dead = Ret (RErr e).
Proof.
  intros H. unfold exact_equity in H. change (@length (list combo) ranges) with (@length (list whand) ranges) in H. destruct (validate (length ranges) board dead) as [e'|]; [left; injection H as <-; reflexivity|right].
  apply bind_ret in H as (c & Hc & H). destruct c as [[hrs crs]|e'].
  - exfalso. apply bind_ret in H as (m & _ & H). apply bind_ret in H as ([r0 flag] & _ & H). apply bind_ret in H as (dvs & _ & H). apply bind_ret in H as (y0 & _ & H).
    apply bind_ret in H as (y & _ & H). destruct (forallb xdone (xy_threads y)); [|discriminate]. apply bind_ret in H as (r & _ & H). discriminate.
  - injection H as <-. exact Hc.
Qed.
Lemma approx_combined p (ranges : list (list whand)) board dead threads target cancelled shuf rngs fuel sched e : approx_equity p ranges board dead threads target cancelled shuf rngs fuel sched = Ret (RErr e) ->
  validate (length ranges) board dead = Some e \/ combine_ranges p ranges board dead = Ret (RErr e).
Proof.
  intros H. unfold approx_equity in H. change (@length (list combo) ranges) with (@length (list whand) ranges) in H. destruct (validate (length ranges) board dead) as [e'|]; [left; injection H as <-; reflexivity|right].
  apply bind_ret in H as (c & Hc & H). destruct c as [[hrs crs]|e'].
  - exfalso. apply bind_ret in H as (m & _ & H). apply bind_ret in H as ([r0 flag] & _ & H). apply bind_ret in H as (y0 & _ & H).
    apply bind_ret in H as (y & _ & H). destruct (forallb adone (ay_threads y)); [|discriminate]. apply bind_ret in H as (r & _ & H). discriminate.
  - injection H as <-. exact Hc.
Qed.
Lemma no_error p e : combine_ranges p four_aces 0 0 <> Ret (RErr e).
Proof. intros H. pose proof (four_sizes p) as E. rewrite H in E. discriminate. Qed.

Lemma runs_enough k threads tid : (tid < threads)%nat -> how_many (is_run tid) (concat (repeat (map Run (seq 0 threads)) k)) = k.
Proof.
  intros Ht. unfold how_many. induction k as [|k IH]; [reflexivity|]. cbn [repeat concat]. rewrite filter_app, app_length, IH.
  assert (E : length (filter (is_run tid) (map Run (seq 0 threads))) = 1%nat); [|rewrite E; reflexivity].
  clear IH. assert (G : forall n a, length (filter (is_run tid) (map Run (seq a n))) = if ((a <=? tid) && (tid <? a + n))%nat then 1%nat else 0%nat).
  { clear. induction n as [|n IH]; intros a; cbn [seq map filter].
    - destruct (Nat.leb_spec a tid), (Nat.ltb_spec tid (a + 0)); cbn [andb length]; lia || reflexivity.
    - cbn [is_run]. destruct (Nat.eqb_spec a tid) as [->|Hne].
      + cbn [length]. rewrite IH. destruct (Nat.leb_spec (S tid) tid), (Nat.leb_spec tid tid), (Nat.ltb_spec tid (tid + S n)); cbn [andb]; lia.
      + rewrite IH. destruct (Nat.leb_spec (S a) tid), (Nat.leb_spec a tid), (Nat.ltb_spec tid (S a + n)), (Nat.ltb_spec tid (a + S n)); cbn [andb]; lia. }
  rewrite G. destruct (Nat.leb_spec 0 tid), (Nat.ltb_spec tid (0 + threads)); cbn [andb]; lia.
Qed.
Lemma choose_le {A} (l : list A) : forall k, N.of_nat (length (choose k l)) <= N.of_nat (length l) ^ N.of_nat k.
Proof.
  induction l as [|x l IH]; intros [|k]; cbn [choose length]; try (cbn; lia).
  rewrite app_length, map_length. rewrite !Nat2N.inj_succ, N.pow_succ_r', Nat2N.inj_add. pose proof (IH k) as H1. pose proof (IH (S k)) as H2. rewrite Nat2N.inj_succ, N.pow_succ_r' in H2.
  assert (H3 : N.of_nat (length l) ^ N.of_nat k <= N.succ (N.of_nat (length l)) ^ N.of_nat k) by (apply N.pow_le_mono_l; lia). nia.
Qed.
Lemma four_fit : weights_fit four_aces 0.
Proof.
  assert (H : max_boards 0 <= 52 ^ 5).
  { unfold max_boards, boards. rewrite map_length. etransitivity; [apply choose_le|]. vm_compute. discriminate. }
  unfold weights_fit. apply (N.le_lt_trans _ (52 ^ 5 * prod_of range_weight four_aces)); [|vm_compute; reflexivity]. apply N.mul_le_mono_r. apply N.max_lub; [vm_compute; discriminate|exact H].
Qed.
Lemma four_runs p threads cancelled : exists sched o, exact_equity p four_aces 0 0 threads cancelled sched = Ret (ROk o).
Proof.
  set (k := S (3 * threads + 4 * N.to_nat (prod_of (fun r => N.of_nat (length r)) four_aces))). exists (concat (repeat (map Run (seq 0 threads)) k)).
  assert (Ha : accepted (length four_aces) 0 0) by (vm_compute; repeat split; lia || discriminate).
  assert (Hw : weights_fit four_aces 0 \/ p = Release) by (left; exact four_fit).
  destruct (call_finishes p four_aces 0 0 threads cancelled (concat (repeat (map Run (seq 0 threads)) k)) four_ok Ha ltac:(reflexivity) ltac:(reflexivity) Hw) as [H|H].
  - intros tid Ht. rewrite runs_enough by exact Ht. unfold k. lia.
  - exfalso. apply exact_combined in H as [H|H]; [discriminate|]. exact (no_error p _ H).
  - exact H.
Qed.
