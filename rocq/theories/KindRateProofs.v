(* The equities of hands and preflop combinations when two ranges are given as texts. *)
From Verif Require Import Base BaseProofs SumFacts ListFacts Float64 TStrings Hand Range FastDivide Combined Sim SpecPoker SpecHand SpecNames SpecEquity SpecRange
  SpecResults SpecRun SpecFinal SpecTable SpecKind SpecShare SpecRates CombinedProofs BoardProofs PositionProofs ExactProofs ResultProofs ConsistProofs RangeProofs IndexProofs RunProofs FinalProofs FinalRunProofs
  ShareProofs TableProofs TableRunProofs TableRateProofs KindProofs PropRange.
From Coq Require Import Permutation.
Local Open Scope N_scope.
#[local] Opaque NUM_HANDS NUM_COMBOS.

(* ------------------------------------------------------------------------- *)
(** * How many boards there are *)

Definition fact (k : nat) : N := prod_of N.of_nat (seq 1 k).
Lemma prod_app {A} (f : A -> N) l1 l2 : prod_of f (l1 ++ l2) = prod_of f l1 * prod_of f l2.
Proof. unfold prod_of. induction l1 as [|x l1 IH]; cbn [app fold_right]; [lia|]. rewrite IH. lia. Qed.
Lemma fact_S k : fact (S k) = fact k * N.of_nat (S k).
Proof. unfold fact. rewrite seq_S, prod_app. cbn [prod_of fold_right Nat.add]. lia. Qed.
Lemma power_step n k : n ^ N.of_nat (S k) + N.of_nat (S k) * n ^ N.of_nat k <= (n + 1) ^ N.of_nat (S k).
Proof.
  induction k as [|k IH]; [change (N.of_nat 1) with 1; change (N.of_nat 0) with 0; rewrite !N.pow_1_r, N.pow_0_r; lia|]. rewrite (Nat2N.inj_succ (S k)), !N.pow_succ_r'. rewrite (Nat2N.inj_succ k), !N.pow_succ_r' in *.
  generalize dependent (n ^ N.of_nat k). generalize dependent ((n + 1) ^ N.of_nat k). intros a b H. nia.
Qed.
Lemma choose_fact {A} (l : list A) : forall k, fact k * N.of_nat (length (choose k l)) <= N.of_nat (length l) ^ N.of_nat k.
Proof.
  induction l as [|x l IH]; intros [|k]; try (cbn; lia). cbn [choose length]. rewrite app_length, map_length, Nat2N.inj_add.
  replace (N.of_nat (S (length l))) with (N.of_nat (length l) + 1) by lia. etransitivity; [|apply power_step]. pose proof (IH k) as H1. pose proof (IH (S k)) as H2. rewrite fact_S in *. nia.
Qed.
Lemma few_boards board dead d : N.of_nat (length (boards board dead d)) <= 3168430.
Proof.
  rewrite boards_choose. remember (5 - length (mask_cards board))%nat as k. assert (Hk : (k <= 5)%nat) by lia.
  assert (HU : N.of_nat (length (unseen board dead d)) <= 52).
  { unfold unseen. match goal with |- context [filter ?f ?l] => pose proof (filter_length_le f l) as HF end. rewrite nseq_length in HF. lia. }
  pose proof (choose_fact (unseen board dead d) k) as HC. pose proof (N.pow_le_mono_l _ _ (N.of_nat k) HU) as HP. clear Heqk HU.
  assert (HX : fact k * N.of_nat (length (choose k (unseen board dead d))) <= 52 ^ N.of_nat k) by (etransitivity; [exact HC|exact HP]). clear HC HP.
  generalize dependent (N.of_nat (length (choose k (unseen board dead d)))). intros L HX. clear board dead d.
  destruct k as [|[|[|[|[|[|k]]]]]]; [..|lia].
  - change (1 * L <= 1) in HX. lia.
  - change (1 * L <= 52) in HX. lia.
  - change (2 * L <= 2704) in HX. lia.
  - change (6 * L <= 140608) in HX. lia.
  - change (24 * L <= 7311616) in HX. lia.
  - change (120 * L <= 380204032) in HX. lia.
Qed.

(* ------------------------------------------------------------------------- *)
(** * The weight of a combination in a range *)

Lemma kind_few k : In k kinds -> (length (kind_pairs k) <= 12)%nat.
Proof.
  intros Hk. apply In_nth_error in Hk as (c & Hk). assert (Hc : (c < 169)%nat) by (change 169%nat with (length kinds); apply nth_error_Some; congruence).
  rewrite <- (map_length place_of). rewrite (Permutation_length (kind_places k c Hk)), (hands_in_ok c Hc), seq_length. unfold combo_len. destruct (c <? 13)%nat, (c <? 91)%nat; lia.
Qed.
Definition light (r : list whand) : Prop := (forall a b w, In (a, b, w) r -> is_card a /\ is_card b /\ b < a /\ w <= 100) /\ NoDup (map fst r).
Lemma sum_light (r : list whand) : (forall a b w, In (a, b, w) r -> w <= 100) -> sumf weight r <= 100 * N.of_nat (length r).
Proof.
  induction r as [|[[a b] w] r IH]; intros H; [cbn; lia|]. rewrite sumf_cons. cbn [length]. specialize (IH (fun a b w Hin => H a b w (or_intror Hin))). pose proof (H a b w (or_introl eq_refl)). change (weight (a, b, w)) with w. lia.
Qed.
Lemma NoDup_fst_filter (f : whand -> bool) r : NoDup (map fst r) -> NoDup (map fst (filter f r)).
Proof.
  induction r as [|h r IH]; cbn [map filter]; intros H; [constructor|]. inversion H as [|h' r' Hn Hd]; subst. destruct (f h); [|auto]. cbn [map]. constructor; [|auto].
  intros Hin. apply Hn. apply in_map_iff in Hin as (x & E & Hx). apply filter_In in Hx as [Hx _]. rewrite <- E. apply in_map. exact Hx.
Qed.
Lemma light_part (r : list whand) (f : whand -> bool) (l : list (N * N)) : light r -> (forall a b w, In (a, b, w) r -> f (a, b, w) = true -> In (a, b) l) ->
  sumf (fun h => if f h then weight h else 0) r <= 100 * N.of_nat (length l).
Proof.
  intros [H1 H2] Hf. rewrite <- sumf_filter. etransitivity; [apply sum_light; intros a b w Hin; apply filter_In in Hin as [Hin _]; apply (H1 _ _ _ Hin)|].
  assert (HL : (length (map fst (filter f r)) <= length l)%nat). 
  { apply NoDup_incl_length; [apply NoDup_fst_filter; exact H2|]. intros [a b] Hin. apply in_map_iff in Hin as ([[a' b'] w] & E & Hin). cbn in E. injection E as -> ->. apply filter_In in Hin as [Hin Hfh]. apply (Hf _ _ _ Hin Hfh). }
  rewrite map_length in HL. apply N.mul_le_mono_l. clear - HL. unfold whand in *. lia.
Qed.
Lemma light_all (r : list whand) : light r -> sumf weight r <= 132600.
Proof.
  intros H. change 132600 with (100 * N.of_nat 1326). rewrite <- all_pairs_length. etransitivity; [|apply (light_part r (fun _ => true) all_pairs H)]; [reflexivity|].
  intros a b w Hin _. destruct (proj1 H _ _ _ Hin) as (Ha & _ & Hb & _). apply all_pairs_in; assumption.
Qed.
Lemma light_kind (r : list whand) k : light r -> In k kinds -> sumf (fun h => if is_kind k h then weight h else 0) r <= 1200.
Proof.
  intros H Hk. etransitivity; [apply (light_part r (is_kind k) (kind_pairs k) H)|].
  - intros a b w Hin Hf. destruct (proj1 H _ _ _ Hin) as (Ha & _ & Hb & _). apply filter_In. split; [apply all_pairs_in; assumption|]. cbn [fst snd]. rewrite (kind_swap k a b 0 0), (kind_swap k b a 0 w). exact Hf.
  - pose proof (kind_few k Hk) as HF. lia.
Qed.

Lemma two_deals (r0 r1 : list whand) board dead (f : whand -> bool) i : (i < 2)%nat -> Forall light [r0; r1] -> 
  (forall r, light r -> sumf (fun h => if f h then weight h else 0) r <= 1200) ->
  sumf (fun d => if f (holding d i) then deal_weight d else 0) (deals [r0; r1] board dead) <= 1200 * 132600.
Proof.
  intros Hi HL Hf. inversion HL as [|x l L0 HL' E1]; subst. inversion HL' as [|x l L1 _ E1]; subst. clear HL HL'.
  unfold deals. etransitivity; [apply sum_filter_le|]. cbn [picks]. rewrite sumf_flat_map.
  rewrite (sumf_ext _ (fun x => sumf (fun y => if f (holding [x; y] i) then weight x * weight y else 0) r1)).
  2:{ intros x _. rewrite sumf_map, sumf_flat_map. apply sumf_ext. intros y _. cbn [map]. rewrite sumf_cons. cbn [sumf map fold_right]. unfold deal_weight. cbn [fold_right]. rewrite N.mul_1_r, N.add_0_r. reflexivity. }
  destruct i as [|[|i]]; [| |lia].
  - rewrite (sumf_ext _ (fun x => sumf weight r1 * (if f x then weight x else 0))).
    2:{ intros x _. change (holding [x; _] 0) with x. destruct (f x); [rewrite sumf_mul; lia|rewrite sumf_zero; [lia|reflexivity]]. }
    rewrite sumf_mul, N.mul_comm. apply N.mul_le_mono; [apply Hf, L0|apply light_all, L1].
  - rewrite (sumf_ext _ (fun x => sumf (fun y => if f y then weight y else 0) r1 * weight x)).
    2:{ intros x _. rewrite N.mul_comm, <- sumf_mul. apply sumf_ext. intros y _. change (holding [x; y] 1) with y. destruct (f y); lia. }
    rewrite sumf_mul. apply N.mul_le_mono; [apply Hf, L1|apply light_all, L0].
Qed.
Lemma two_total (ranges : list (list whand)) board dead (f : whand -> bool) i : length ranges = 2%nat -> (i < 2)%nat -> Forall light ranges ->
  (forall r, light r -> sumf (fun h => if f h then weight h else 0) r <= 1200) -> total_of ranges board dead (fun d _ => f (holding d i)) <= 2 ^ 49.
Proof.
  intros H2 Hi HL Hf. destruct ranges as [|r0 [|r1 [|r2 rs]]]; cbn in H2; try discriminate. rewrite total_sumf.
  apply N.le_trans with (3168430 * (1200 * 132600)); [|vm_compute; discriminate]. etransitivity; [|apply N.mul_le_mono_l; apply (two_deals r0 r1 board dead f i Hi HL Hf)].
  rewrite <- sumf_mul. apply sumf_le. intros d _. destruct (f (holding d i)); [|rewrite sumf_zero; [lia|reflexivity]].
  pose proof (few_boards board dead d) as HB. assert (H1 : sumf (fun _ : list N => 1) (boards board dead d) <= N.of_nat (length (boards board dead d))) by (apply sum_one_le; intros; lia).
  rewrite N.mul_comm. apply N.mul_le_mono_r. lia.
Qed.
Lemma read_lights lower p texts (ranges : list (list whand)) : from_strings lower p texts = Ret ranges -> Forall light ranges.
Proof.
  intros H. apply mapM_Forall2 in H. induction H as [|t r texts ranges Ht Hr IH]; constructor; [|exact IH]. destruct (C22_well_formed _ _ _ _ Ht) as (H1 & H2 & _). split; assumption.
Qed.

(* ------------------------------------------------------------------------- *)
(** * The run *)

Lemma text_hand_rates lower p texts (ranges : list (list whand)) board dead q threads sched o : from_strings lower p texts = Ret ranges -> length texts = 2%nat ->
  exact_equity q ranges board dead threads false sched = Ret (ROk o) -> ~ In Cancel sched -> (0 < threads)%nat ->
  forall i a b, (i < 2)%nat -> hole a b -> name_order a b -> let wins := hand_wins ranges board dead i a b in let ties := hand_ties ranges board dead i a b in let total := hand_total ranges board dead i a b in
  0 < total -> exists u, get_hand_result q (r_hand_results (o_results o)) (N.of_nat i) (hand_name a b) = Ret (ROk u) /\
    closest (u_equity u) (ratio (2 * wins + ties) (2 * total)) /\ closest (u_winrate u) (ratio wins total) /\ closest (u_tierate u) (ratio ties total).
Proof.
  intros HT H2 H Hc Ht i a b Hi Hab Ho wins ties total H0. assert (Hs : small_table (length texts) board) by (left; lia). assert (H6 : (length texts <= 6)%nat) by lia.
  pose proof (text_usable _ _ _ _ HT H6) as Hu. pose proof (text_fit _ _ _ _ _ HT Hs) as Hw. destruct (read_light _ _ _ _ HT) as (EL & _). assert (HL2 : length ranges = 2%nat) by lia.
  assert (H49 : total <= 2 ^ 49).
  { apply (two_total ranges board dead (fun h => ((first_card h =? a) && (second_card h =? b)) || ((first_card h =? b) && (second_card h =? a))) i HL2 Hi (read_lights _ _ _ _ HT)).
    intros r Hr. etransitivity; [apply (light_part r _ [(N.max a b, N.min a b)] Hr)|vm_compute; discriminate]. intros x y w Hin Hm. destruct (proj1 Hr _ _ _ Hin) as (_ & _ & Hlt & _). left.
    change (first_card (x, y, w)) with x in Hm. change (second_card (x, y, w)) with y in Hm. rewrite Bool.orb_true_iff, !Bool.andb_true_iff, !N.eqb_eq in Hm. f_equal; lia. }
  pose proof (exact_debug q ranges board dead threads false sched o Hu (or_intror Hw) H) as HD. pose proof (tb_hands _ _ _ _ _ (run_tables _ _ _ _ _ _ _ _ Hu HD)) as HL.
  assert (Hi' : (i < length ranges)%nat) by lia.
  destruct (hand_lookup q (r_hand_results (o_results o)) i a b Hab Ho) as (k & u & Hk & Hn & Hg); [rewrite HL; lia|rewrite HL; lia|]. exists u. split; [exact Hg|].
  assert (HV : (exists h, In h (range_at ranges i) /\ same_hand a b h) /\ on_table board dead a = false /\ on_table board dead b = false).
  { destruct (run_entry Debug ranges board dead threads false sched o Hu HD i a b k Hi' Hab (name_index q a b k Hab Ho Hk)) as (u2 & _ & V1 & _). destruct (u_valid u2) eqn:Ev; [apply V1; reflexivity|].
    exfalso. enough (HZ : hand_total ranges board dead i a b = 0) by (unfold total in H0; lia). apply nobody_holds; [exact Hi'|]. intros HX. apply V1 in HX. discriminate. }
  destruct HV as (V1 & V2 & V3).
  destruct (true_hand q ranges board dead threads sched o Hu (or_intror Hw) H Hc Ht HL2 i a b k Hi Hab Hk V1 V2 V3 H0 H49) as (u' & Hn' & HR). assert (u' = u) by congruence. subst u'. exact HR.
Qed.

Lemma text_combo_rates lower p texts (ranges : list (list whand)) board dead q threads sched o : from_strings lower p texts = Ret ranges -> length texts = 2%nat ->
  exact_equity q ranges board dead threads false sched = Ret (ROk o) -> ~ In Cancel sched -> (0 < threads)%nat ->
  forall i k, (i < 2)%nat -> In k kinds -> let wins := kind_wins ranges board dead i k in let ties := kind_ties ranges board dead i k in let total := kind_total ranges board dead i k in
  0 < total -> exists u, get_combo_result q (r_combo_results (o_results o)) (N.of_nat i) (kind_name k) = Ret (ROk u) /\
    closest (u_equity u) (ratio (2 * wins + ties) (2 * total)) /\ closest (u_winrate u) (ratio wins total) /\ closest (u_tierate u) (ratio ties total).
Proof.
  intros HT H2 H Hc Ht i k Hi Hk wins ties total H0. assert (Hs : small_table (length texts) board) by (left; lia). assert (H6 : (length texts <= 6)%nat) by lia.
  pose proof (text_usable _ _ _ _ HT H6) as Hu. pose proof (text_fit _ _ _ _ _ HT Hs) as Hw. destruct (read_light _ _ _ _ HT) as (EL & _). assert (HL2 : length ranges = 2%nat) by lia.
  assert (H49 : total <= 2 ^ 49) by (apply (two_total ranges board dead (is_kind k) i HL2 Hi (read_lights _ _ _ _ HT)); intros r Hr; apply light_kind; assumption).
  pose proof (exact_debug q ranges board dead threads false sched o Hu (or_intror Hw) H) as HD. assert (Hi' : (i < length ranges)%nat) by lia. apply In_nth_error in Hk as (c & Hk).
  destruct (kind_entry ranges board dead threads sched o Hu Hw HD Hc Ht i Hi' c k Hk) as (u & Hn & W & T & TT).
  assert (HL : length (r_combo_results (o_results o)) = (length ranges * 169)%nat).
  { rewrite (tb_combos _ _ _ _ _ (run_tables _ _ _ _ _ _ _ _ Hu HD)). rewrite (flat_map_const _ 169); [rewrite seq_length; reflexivity|]. intros x. rewrite map_length, seq_length. reflexivity. }
  destruct (combo_lookup q (r_combo_results (o_results o)) i c k Hk) as (u' & Hn' & HG); [rewrite HL; lia|rewrite HL; lia|].
  assert (u' = u) by congruence. subst u'. exists u. split; [exact HG|].
  destruct (exact_rates Debug ranges board dead threads false sched o Hu (or_introl eq_refl) HD) as (_ & HR & _). specialize (HR u (nth_error_In _ _ Hn)).
  fold wins in W. fold ties in T. fold total in TT. rewrite TT in HR. specialize (HR H49). unfold rates in HR. rewrite TT, W, T, HL2 in HR. destruct (N.eqb_spec total 0) as [E0|_]; [lia|]. destruct HR as (R1 & R2 & _ & R3). auto.
Qed.
