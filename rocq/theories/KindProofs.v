(* The results of preflop combinations in runs of ranges given as texts. *)
From Verif Require Import Base BaseProofs SumFacts ListFacts Float64 TStrings Hand Range FastDivide Combined Sim SpecPoker SpecHand SpecNames SpecEquity
  SpecResults SpecRun SpecFinal SpecTable SpecKind CombinedProofs BoardProofs PositionProofs ExactProofs ResultProofs ConsistProofs RangeProofs IndexProofs RunProofs FinalRunProofs ShareProofs TableProofs TableRunProofs.
From Coq Require Import Permutation.
Local Open Scope N_scope.
#[local] Opaque NUM_HANDS NUM_COMBOS.

(* ------------------------------------------------------------------------- *)
(** * All hands, once *)

Lemma pairs_NoDup (f : N -> list N) l : NoDup l -> (forall a, NoDup (f a)) -> NoDup (flat_map (fun a => map (fun b => (a, b)) (f a)) l).
Proof.
  intros Hl Hf. induction Hl as [|a l Hn Hl IH]; [constructor|]. cbn [flat_map]. apply NoDup_app_intro; [|exact IH|].
  - specialize (Hf a). induction Hf as [|b l' Hb Hf IHf]; [constructor|]. cbn [map]. constructor; [|exact IHf]. intros H. apply in_map_iff in H as (x & E & H). injection E as ->. contradiction.
  - intros x Hx Hy. apply in_map_iff in Hx as (b & <- & _). apply in_flat_map in Hy as (a' & Ha' & Hy). apply in_map_iff in Hy as (b' & E & _). injection E as -> ->. contradiction.
Qed.
Lemma all_NoDup : NoDup all_pairs.
Proof. apply pairs_NoDup; [apply nseq_NoDup|intros a; apply nseq_NoDup]. Qed.
Lemma all_in a b : In (a, b) all_pairs <-> a < 52 /\ b < a.
Proof.
  split; [|intros [H1 H2]; apply all_pairs_in; assumption]. intros H. unfold all_pairs in H. apply in_flat_map in H as (x & Hx & H). apply in_map_iff in H as (y & E & Hy). injection E as -> ->.
  apply nseq_In in Hx. apply nseq_In in Hy. lia.
Qed.
Lemma one_of {A} (f : A -> bool) (l : list A) x : NoDup l -> In x l -> f x = true -> (forall y, In y l -> f y = true -> y = x) -> sumf (fun y => if f y then 1 else 0) l = 1.
Proof.
  intros Hn. induction Hn as [|y l Hy Hn IH]; intros Hx Hf Hu; [destruct Hx|]. rewrite sumf_cons. destruct Hx as [->|Hx].
  - rewrite Hf, sumf_zero; [lia|]. intros z Hz. destruct (f z) eqn:E; [|reflexivity]. exfalso. rewrite (Hu z (or_intror Hz) E) in Hz. contradiction.
  - destruct (f y) eqn:E; [exfalso; rewrite (Hu y (or_introl eq_refl) E) in Hy; contradiction|]. rewrite IH; [lia|exact Hx|exact Hf|]. intros z Hz. apply Hu. right. exact Hz.
Qed.

(* a hand of the kind, the higher card first *)
Definition kind_pairs (k : kind) : list (N * N) := filter (fun h => is_kind k (fst h, snd h, 0)) all_pairs.
Lemma kind_swap k a b v w : is_kind k (a, b, v) = is_kind k (b, a, w).
Proof.
  unfold is_kind, first_card, second_card. cbn [fst snd]. destruct k as [r|hi lo|hi lo].
  - apply Bool.andb_comm.
  - rewrite (N.eqb_sym (suit_of a)). f_equal. rewrite Bool.orb_comm. f_equal; apply Bool.andb_comm.
  - rewrite (N.eqb_sym (suit_of a)). f_equal. rewrite Bool.orb_comm. f_equal; apply Bool.andb_comm.
Qed.
Lemma kind_of k a b w : is_kind k (a, b, w) = true <-> of_kind k a b.
Proof.
  unfold is_kind, of_kind, first_card, second_card. cbn [fst snd].
  destruct k as [r|hi lo|hi lo]; rewrite Bool.andb_true_iff, ?Bool.orb_true_iff, ?Bool.andb_true_iff, ?Bool.negb_true_iff, ?N.eqb_neq, ?N.eqb_eq; tauto.
Qed.

(* each deal counts for one hand *)
Definition match_hand (h : N * N) (g : whand) : bool := ((first_card g =? fst h) && (second_card g =? snd h)) || ((first_card g =? snd h) && (second_card g =? fst h)).
Lemma kind_once k (g : whand) : hole (first_card g) (second_card g) -> sumf (fun h => if match_hand h g then 1 else 0) (kind_pairs k) = if is_kind k g then 1 else 0.
Proof.
  intros (H1 & H2 & H3). unfold is_card in H1, H2. destruct g as [[x y] w]. change (first_card (x, y, w)) with x in *. change (second_card (x, y, w)) with y in *.
  assert (HU : forall h, In h (kind_pairs k) -> match_hand h (x, y, w) = true -> h = (N.max x y, N.min x y)).
  { intros [a b] Hh Hm. apply filter_In in Hh as [Hh _]. apply all_in in Hh. unfold match_hand in Hm. cbn [fst snd] in Hm. change (first_card (x, y, w)) with x in Hm. change (second_card (x, y, w)) with y in Hm.
    rewrite Bool.orb_true_iff, !Bool.andb_true_iff, !N.eqb_eq in Hm. f_equal; lia. }
  assert (HK : is_kind k (N.max x y, N.min x y, 0) = is_kind k (x, y, w)).
  { destruct (N.lt_ge_cases x y) as [L|L]; [rewrite N.max_r, N.min_l by lia; apply kind_swap|rewrite N.max_l, N.min_r by lia; reflexivity]. }
  destruct (is_kind k (x, y, w)) eqn:E.
  - apply (one_of _ _ (N.max x y, N.min x y)); [apply NoDup_filter, all_NoDup| |  |exact HU].
    + apply filter_In. split; [apply all_in; lia|exact HK].
    + unfold match_hand. cbn [fst snd]. change (first_card (x, y, w)) with x. change (second_card (x, y, w)) with y. rewrite Bool.orb_true_iff, !Bool.andb_true_iff, !N.eqb_eq. lia.
  - apply sumf_zero. intros h Hh. destruct (match_hand h (x, y, w)) eqn:Em; [|reflexivity]. exfalso. pose proof (HU h Hh Em) as ->. apply filter_In in Hh as [_ Hh]. cbn [fst snd] in Hh. congruence.
Qed.

Lemma hand_of_deal ranges board dead d i : Forall range_ok ranges -> In d (deals ranges board dead) -> (i < length ranges)%nat -> hole (first_card (holding d i)) (second_card (holding d i)).
Proof.
  intros Hr Hd Hi. assert (HH : Forall (Forall hole_hand) ranges). { eapply Forall_impl; [|exact Hr]. intros r [Hr' _]. eapply Forall_impl; [|exact Hr']. intros h Hh. exact (proj1 Hh). }
  destruct (deals_shape ranges board dead d HH Hd) as [HL HF]. rewrite Forall_forall in HF. apply (HF (holding d i)). unfold holding. apply nth_In. rewrite HL. exact Hi.
Qed.

Lemma kind_sum ranges board dead i k (what : list whand -> list N -> bool) : Forall range_ok ranges -> (i < length ranges)%nat ->
  sumf (fun h => total_of ranges board dead (fun d l => holds i (fst h) (snd h) d && what d l)) (kind_pairs k) = total_of ranges board dead (fun d l => is_kind k (holding d i) && what d l).
Proof.
  intros Hr Hi. rewrite (sumf_ext _ (fun h => sumf (fun d => deal_weight d * sumf (fun l => if holds i (fst h) (snd h) d && what d l then 1 else 0) (boards board dead d)) (deals ranges board dead))) by (intros h _; apply total_sumf).
  rewrite sumf_swap, total_sumf. apply sumf_ext. intros d Hd. rewrite sumf_mul. f_equal. rewrite sumf_swap. apply sumf_ext. intros l _.
  destruct (what d l); [|rewrite Bool.andb_false_r; apply sumf_zero; intros h _; rewrite Bool.andb_false_r; reflexivity].
  rewrite Bool.andb_true_r, <- (kind_once k (holding d i) (hand_of_deal _ _ _ _ _ Hr Hd Hi)). apply sumf_ext. intros h _. rewrite Bool.andb_true_r. reflexivity.
Qed.

(* ------------------------------------------------------------------------- *)
(** * The positions of the hands of a kind *)

Lemma pair_hole h : In h all_pairs -> hole (fst h) (snd h).
Proof. destruct h as [a b]. intros H. apply all_in in H. unfold hole, is_card. cbn [fst snd]. lia. Qed.
Lemma NoDup_map_on {A B} (f : A -> B) l : NoDup l -> (forall x y, In x l -> In y l -> f x = f y -> x = y) -> NoDup (map f l).
Proof.
  intros Hn. induction Hn as [|x l Hx Hn IH]; intros Hf; [constructor|]. cbn [map]. constructor.
  - intros H. apply in_map_iff in H as (y & E & Hy). apply Hx. rewrite <- (Hf y x (or_intror Hy) (or_introl eq_refl) E). exact Hy.
  - apply IH. intros y z Hy Hz. apply Hf; right; assumption.
Qed.
Definition place_of (h : N * N) : nat := idx Debug (fst h) (snd h).
Lemma kind_places k c : nth_error kinds c = Some k -> Permutation (map place_of (kind_pairs k)) (hands_in c).
Proof.
  intros Hk. apply NoDup_Permutation.
  - apply NoDup_map_on; [apply NoDup_filter, all_NoDup|]. intros [a b] [a' b'] H1 H2 E. apply filter_In in H1 as [H1 _]. apply filter_In in H2 as [H2 _].
    pose proof (pair_hole _ H1) as P1. pose proof (pair_hole _ H2) as P2. apply all_in in H1. apply all_in in H2. unfold place_of in E. cbn [fst snd] in *.
    destruct (idx_spec Debug a b P1) as [E1 _]. destruct (idx_spec Debug a' b' P2) as [E2 _]. rewrite <- E in E2.
    destruct (index_injective _ _ _ _ _ _ _ P1 P2 E1 E2) as [[-> ->]|[-> ->]]; [reflexivity|lia].
  - apply NoDup_filter, seq_NoDup.
  - intros j. unfold hands_in. rewrite in_map_iff, filter_In, in_seq, N.eqb_eq. split.
    + intros ([a b] & <- & H). apply filter_In in H as [H1 H2]. pose proof (pair_hole _ H1) as P1. cbn [fst snd] in *. destruct (idx_spec Debug a b P1) as [E1 L1]. unfold place_of. cbn [fst snd].
      split; [lia|]. apply kind_of in H2. apply (index_layout Debug a b _ k c P1 E1 Hk) in H2. subst c. apply eq_sym, N2Nat.id.
    + intros [[_ Hj] Hb]. destruct (index_onto Debug (N.of_nat j) ltac:(lia)) as (a & b & P & E).
      assert (HK : of_kind k a b) by (apply (index_layout Debug a b _ k c P E Hk); rewrite Hb; symmetry; apply Nat2N.id).
      assert (HI : idx Debug a b = j) by (unfold idx; rewrite E; apply Nat2N.id). destruct (index_total Debug a b P) as (x & _ & Ex & Ey). assert (HI' : idx Debug b a = j) by (unfold idx; rewrite Ey; rewrite E in Ex; injection Ex as <-; apply Nat2N.id).
      destruct P as (P1 & P2 & P3). unfold is_card in P1, P2. destruct (N.lt_ge_cases b a) as [L|L].
      * exists (a, b). split; [exact HI|]. apply filter_In. split; [apply all_in; lia|]. apply (kind_of k a b 0). exact HK.
      * exists (b, a). split; [exact HI'|]. apply filter_In. split; [apply all_in; lia|]. cbn [fst snd]. rewrite (kind_swap k b a 0 0). apply kind_of. exact HK.
Qed.

(* ------------------------------------------------------------------------- *)
(** * The run *)

Lemma picks_at (ranges : list (list whand)) : forall d i x, In d (picks ranges) -> (i < length ranges)%nat -> In (nth i d x) (nth i ranges []).
Proof.
  induction ranges as [|r rs IH]; intros d i x Hd Hi; [cbn in Hi; lia|]. cbn [picks] in Hd. apply in_flat_map in Hd as (h & Hh & Hd). apply in_map_iff in Hd as (d' & <- & Hd).
  destruct i as [|i]; [exact Hh|]. cbn [nth]. apply IH; [exact Hd|cbn in Hi; lia].
Qed.
Lemma nobody_holds ranges board dead i a b : (i < length ranges)%nat ->
  ~ ((exists h, In h (range_at ranges i) /\ same_hand a b h) /\ on_table board dead a = false /\ on_table board dead b = false) -> hand_total ranges board dead i a b = 0.
Proof.
  intros Hi Hn. unfold hand_total. rewrite total_sumf. apply sumf_zero. intros d Hd. rewrite sumf_zero; [lia|]. intros l _. destruct (holds i a b d) eqn:E; [|reflexivity]. exfalso. apply Hn.
  pose proof (deal_length _ _ _ _ Hd) as HL. unfold deals in Hd. apply filter_In in Hd as [Hd Hp]. unfold possible in Hp. apply Bool.andb_true_iff in Hp as [_ Hp]. rewrite forallb_forall in Hp.
  assert (Hin : In (holding d i) d) by (unfold holding; apply nth_In; lia).
  assert (HT : forall c, In c (two_cards (holding d i)) -> on_table board dead c = false). { intros c Hc. apply Bool.negb_true_iff, Hp. unfold dealt. apply in_flat_map. exists (holding d i). split; assumption. }
  unfold holds in E. rewrite Bool.orb_true_iff, !Bool.andb_true_iff, !N.eqb_eq in E. split.
  - exists (holding d i). split; [apply (picks_at ranges d i _ Hd Hi)|exact E].
  - destruct E as [[<- <-]|[<- <-]]; split; apply HT; unfold two_cards; cbn; auto.
Qed.

Section Run.
  Context (ranges : list (list whand)) (board dead : N) (threads : nat) (sched : list event) (o : observed).
  Hypothesis Hu : usable ranges.
  Hypothesis Hw : weights_fit ranges board.
  Hypothesis H : exact_equity Debug ranges board dead threads false sched = Ret (ROk o).
  Hypothesis Hc : ~ In Cancel sched.
  Hypothesis Ht : (0 < threads)%nat.
  Context (i : nat).
  Hypothesis Hi : (i < length ranges)%nat.

  Lemma pair_entry h : In h all_pairs -> let u := hand_entry (o_results o) i (place_of h) in
    u_wins u = hand_wins ranges board dead i (fst h) (snd h) /\ u_ties u = hand_ties ranges board dead i (fst h) (snd h) /\ u_total u = hand_total ranges board dead i (fst h) (snd h) /\
    (dealt_hand u = false -> u_wins u = 0 /\ u_ties u = 0 /\ u_total u = 0).
  Proof.
    intros Hh u. pose proof (pair_hole h Hh) as P. destruct (idx_spec Debug _ _ P) as [E _].
    destruct (hands_spec Debug ranges board dead threads sched o Hu H Hc Ht i _ _ _ Hi P E) as (u1 & Hn1 & W1 & W2 & W3). rewrite Nat2N.id in Hn1.
    destruct (run_entry Debug ranges board dead threads false sched o Hu H i _ _ _ Hi P E) as (u2 & Hn2 & V1 & _ & _). rewrite Nat2N.id in Hn2.
    assert (E1 : u1 = u) by (unfold u, hand_entry, place_of; symmetry; apply nth_error_nth; exact Hn1). assert (E2 : u2 = u) by congruence. subst u1 u2.
    split; [exact W1|]. split; [exact W2|]. split; [exact W3|]. intros HF.
    assert (HZ : u_total u = 0).
    { unfold dealt_hand in HF. destruct (u_valid u) eqn:Ev; [cbn [andb] in HF; apply N.ltb_ge in HF; lia|]. cbn in W3. rewrite W3. apply nobody_holds; [exact Hi|]. intros HV. apply V1 in HV. discriminate. }
    destruct (consistent Debug ranges board dead threads false sched o Hu H (or_introl eq_refl)) as (_ & HC & _). specialize (HC u (nth_error_In _ _ Hn1)). lia.
  Qed.

  Lemma kind_entry c k : nth_error kinds c = Some k -> exists u, nth_error (r_combo_results (o_results o)) (169 * i + c) = Some u /\
    u_wins u = kind_wins ranges board dead i k /\ u_ties u = kind_ties ranges board dead i k /\ u_total u = kind_total ranges board dead i k.
  Proof.
    intros Hk. assert (Hc169 : (c < 169)%nat) by (change 169%nat with (length kinds); apply nth_error_Some; congruence).
    destruct (run_combos Debug ranges board dead threads false sched o Hu H (or_introl eq_refl) i c Hi Hc169) as (u & Hn & (S1 & S2 & S3) & _). exists u. split; [exact Hn|].
    assert (HS : forall (f : unit_results -> N) (g : N -> N -> N), (forall h, In h all_pairs -> let v := hand_entry (o_results o) i (place_of h) in f v = g (fst h) (snd h) /\ (dealt_hand v = false -> f v = 0)) ->
      sum_of (fun j => f (hand_entry (o_results o) i j)) (filter (fun j => dealt_hand (hand_entry (o_results o) i j)) (hands_in c)) = sumf (fun h => g (fst h) (snd h)) (kind_pairs k)).
    { intros f g HG. rewrite <- sumf_sum_of, sumf_filter, <- (sumf_perm _ _ _ (kind_places k c Hk)), sumf_map. apply sumf_ext. intros h Hh. apply filter_In in Hh as [Hh _]. destruct (HG h Hh) as [G1 G2].
      destruct (dealt_hand (hand_entry (o_results o) i (place_of h))) eqn:E; [exact G1|]. rewrite <- G1. symmetry. apply G2. reflexivity. }
    assert (T3 : sum_of (fun j => u_total (hand_entry (o_results o) i j)) (filter (fun j => dealt_hand (hand_entry (o_results o) i j)) (hands_in c)) = kind_total ranges board dead i k).
    { rewrite (HS u_total (hand_total ranges board dead i)) by (intros h Hh; destruct (pair_entry h Hh) as (_ & _ & G1 & G2); split; [exact G1|intros E; apply G2; exact E]).
      unfold kind_total, hand_total. pose proof (kind_sum ranges board dead i k (fun _ _ => true) (proj1 Hu) Hi) as HX. cbn beta in HX.
      rewrite !total_sumf. rewrite total_sumf in HX. etransitivity; [|etransitivity; [exact HX|]].
      - apply sumf_ext. intros h _. rewrite !total_sumf. apply sumf_ext. intros d _. f_equal. apply sumf_ext. intros l _. rewrite Bool.andb_true_r. reflexivity.
      - apply sumf_ext. intros d _. f_equal. apply sumf_ext. intros l _. rewrite Bool.andb_true_r. reflexivity. }
    assert (B : kind_total ranges board dead i k < 2 ^ 64).
    { unfold kind_total. rewrite <- sum_over_total. apply (sum_over_bound ranges board dead (deals ranges board dead) []); [rewrite app_nil_r; apply Permutation_refl|exact Hw]. }
    rewrite T3 in S1, S2, S3. unfold scaled in S1, S2, S3. apply N.ltb_lt in B. rewrite B in S1, S2, S3. rewrite S1, S2, S3. split; [|split; [|reflexivity]].
    - rewrite (HS u_wins (hand_wins ranges board dead i)) by (intros h Hh; destruct (pair_entry h Hh) as (G1 & _ & _ & G2); split; [exact G1|intros E; apply G2; exact E]).
      apply (kind_sum ranges board dead i k (fun d l => nats_eqb (winners d l) [i]) (proj1 Hu) Hi).
    - rewrite (HS u_ties (hand_ties ranges board dead i)) by (intros h Hh; destruct (pair_entry h Hh) as (_ & G1 & _ & G2); split; [exact G1|intros E; apply G2; exact E]).
      unfold kind_ties. rewrite <- (kind_sum ranges board dead i k (fun d l => existsb (Nat.eqb i) (winners d l) && (2 <=? length (winners d l))%nat) (proj1 Hu) Hi).
      apply sumf_ext. intros h _. unfold hand_ties. rewrite !total_sumf. apply sumf_ext. intros d _. f_equal. apply sumf_ext. intros l _. rewrite Bool.andb_assoc. reflexivity.
  Qed.
End Run.

Lemma text_combo lower p texts (ranges : list (list whand)) board dead q threads sched o : from_strings lower p texts = Ret ranges -> small_table (length texts) board ->
  exact_equity q ranges board dead threads false sched = Ret (ROk o) -> ~ In Cancel sched -> (0 < threads)%nat ->
  forall i k, (i < length texts)%nat -> In k kinds -> exists u, get_combo_result q (r_combo_results (o_results o)) (N.of_nat i) (kind_name k) = Ret (ROk u) /\
    u_wins u = kind_wins ranges board dead i k /\ u_ties u = kind_ties ranges board dead i k /\ u_total u = kind_total ranges board dead i k.
Proof.
  intros HT Hs H Hc Ht i k Hi Hk. pose proof (small_le _ _ Hs) as H3. assert (H6 : (length texts <= 6)%nat) by lia.
  pose proof (text_usable _ _ _ _ HT H6) as Hu. pose proof (text_fit _ _ _ _ _ HT Hs) as Hw. destruct (read_light _ _ _ _ HT) as (EL & _).
  pose proof (exact_debug q ranges board dead threads false sched o Hu (or_intror Hw) H) as HD. rewrite <- EL in Hi. apply In_nth_error in Hk as (c & Hk).
  destruct (kind_entry ranges board dead threads sched o Hu Hw HD Hc Ht i Hi c k Hk) as (u & Hn & HE).
  assert (HL : length (r_combo_results (o_results o)) = (length ranges * 169)%nat).
  { rewrite (tb_combos _ _ _ _ _ (run_tables _ _ _ _ _ _ _ _ Hu HD)). rewrite (flat_map_const _ 169); [rewrite seq_length; reflexivity|]. intros x. rewrite map_length, seq_length. reflexivity. }
  destruct (combo_lookup q (r_combo_results (o_results o)) i c k Hk) as (u' & Hn' & HG); [rewrite HL; lia|rewrite HL; lia|].
  assert (u' = u) by congruence. subst u'. exists u. split; [exact HG|exact HE].
Qed.
