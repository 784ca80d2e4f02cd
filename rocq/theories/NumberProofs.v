(* Equities are numbers when every hand weighs at least 2 and something was counted. *)
From Coq Require Import Floats.SpecFloat QArith Lqa Permutation.
From Verif Require Import Base BaseProofs SumFacts Ghost Float64 FloatProofs FloatSumProofs EquityFloatProofs Hand FastDivide Range Combined Sim Approx SpecPoker ListFacts
  SpecNames SpecHand SpecRange SpecEquity SpecResults SpecRun SpecApprox SpecShare SpecConflict EnumProofs ShowdownProofs BoardProofs CombinedProofs PositionProofs MergeProofs
  MachineProofs SetupProofs ExactProofs ResultProofs CombineRunProofs RunProofs ConvergeRunProofs EquityProofs ShareProofs SureProofs EmptyProofs ConflictProofs.
Local Open Scope N_scope.
#[local] Opaque NUM_HANDS.

(* ------------------------------------------------------------------------- *)
(** * Ties that are not lost *)

Lemma add_not_zero f g : tie_ok f -> (exists w, upto_B 64 g w) -> f_add f g = f_zero -> f = f_zero /\ g = f_zero.
Proof.
  intros (v & Hv) (w & Hw) E. destruct (add_upto 118 64 f g v w ltac:(lia) ltac:(lia) ltac:(lia) Hv Hw) as (z & [[[_ Hz]|[Hz _]] _] & H1 & H2 & _).
  - destruct Hv as [[[-> _]|[_ Hv]] _]; [|exfalso; lra]. destruct Hw as [[[-> _]|[_ Hw]] _]; [split; reflexivity|exfalso; lra].
  - rewrite E in Hz. apply num_pos in Hz as Hp. destruct Hz as (m & e & Ef & _). discriminate.
Qed.
Definition lost (b : list N) (k i : nat) : Prop :=
  N.testbit (N.of_nat i) (N.of_nat k) && negb (count_ones (N.of_nat i) =? 1) = true -> nth i b 0 / count_ones (N.of_nat i) = 0.
Lemma div_small i (b : list N) : nth i b 0 < 2 ^ 64 -> nth i b 0 / count_ones (N.of_nat i) < 2 ^ 64.
Proof.
  intros Hb. eapply N.le_lt_trans; [|exact Hb]. destruct (N.eq_dec (count_ones (N.of_nat i)) 0) as [E|E]; [rewrite E; destruct (nth i b 0); cbn; lia|].
  apply N.div_le_upper_bound; [exact E|]. nia.
Qed.
Lemma step_ok b k t i : nth i b 0 < 2 ^ 64 -> tie_ok t -> tie_ok (tie_step b k t i) /\ (tie_step b k t i = f_zero -> t = f_zero /\ lost b k i).
Proof.
  intros Hb Ht. unfold tie_step, lost. destruct (_ && _) eqn:E; [|split; [exact Ht|intros E0; split; [exact E0|discriminate]]].
  destruct (of_N_upto _ (div_small i b Hb)) as (w & Hw & Hw1). split.
  - destruct Ht as (v & Hv). exact (add_small _ _ _ _ Hv Hw).
  - intros E0. apply add_not_zero in E0 as [E1 E2]; [|exact Ht|exists w; exact Hw]. split; [exact E1|]. intros _.
    destruct (N.eq_dec (nth i b 0 / count_ones (N.of_nat i)) 0) as [Ez|Ez]; [exact Ez|exfalso]. specialize (Hw1 Ez). rewrite E2 in Hw. destruct Hw as [[[_ Hw]|[Hw _]] _]; [lra|].
    destruct Hw as (m & e & Ef & _). discriminate.
Qed.
Lemma fold_ok b k : forall l t, (forall i, In i l -> nth i b 0 < 2 ^ 64) -> tie_ok t ->
  tie_ok (fold_left (tie_step b k) l t) /\ (fold_left (tie_step b k) l t = f_zero -> t = f_zero /\ forall i, In i l -> lost b k i).
Proof.
  induction l as [|i l IH]; intros t Hl Ht; cbn [fold_left]; [split; [exact Ht|intros E; split; [exact E|intros i []]]|].
  destruct (step_ok b k t i (Hl i (or_introl eq_refl)) Ht) as [H1 H2]. destruct (IH (tie_step b k t i) (fun j Hj => Hl j (or_intror Hj)) H1) as [H3 H4]. split; [exact H3|].
  intros E. apply H4 in E as [E1 E2]. apply H2 in E1 as [E1 E3]. split; [exact E1|]. intros j [<-|Hj]; [exact E3|apply E2; exact Hj].
Qed.
Lemma total_lost n k bs : Forall (fun b => forall i, (i < 2 ^ n)%nat -> nth i b 0 < 2 ^ 64) bs -> tie_total n k bs = f_zero ->
  forall b i, In b bs -> (i < 2 ^ n)%nat -> lost b k i.
Proof.
  intros HF. unfold tie_total. assert (H0 : tie_ok f_zero) by (eexists; apply upto_zero).
  enough (G : forall t, tie_ok t -> fold_left (fun t b => fold_left (tie_step b k) (seq 0 (2 ^ n)) t) bs t = f_zero -> t = f_zero /\ forall b i, In b bs -> (i < 2 ^ n)%nat -> lost b k i).
  { intros E. exact (proj2 (G f_zero H0 E)). }
  clear H0. induction HF as [|b bs Hb _ IH]; intros t Ht E; cbn [fold_left] in E; [split; [exact E|intros b i []]|].
  destruct (fold_ok b k (seq 0 (2 ^ n)) t) as [H1 H2]; [intros i Hi; apply in_seq in Hi; apply Hb; lia|exact Ht|].
  apply (IH _ H1) in E as [E1 E2]. apply H2 in E1 as [E1 E3]. split; [exact E1|]. intros b' i [<-|Hb'] Hi; [apply E3; apply in_seq; lia|apply E2; assumption].
Qed.

(* ------------------------------------------------------------------------- *)
(** * Masks with one bit *)

Lemma one_bit i k : (i < 512)%nat -> (k < 9)%nat -> N.testbit (N.of_nat i) (N.of_nat k) = true -> count_ones (N.of_nat i) = 1 -> i = (2 ^ k)%nat.
Proof.
  intros Hi Hk Hb Hc.
  assert (H : forallb (fun i => forallb (fun k => negb (N.testbit (N.of_nat i) (N.of_nat k) && (count_ones (N.of_nat i) =? 1)) || (i =? 2 ^ k)%nat) (seq 0 9)) (seq 0 512) = true) by (vm_compute; reflexivity).
  rewrite forallb_forall in H. specialize (H i ltac:(apply in_seq; lia)). rewrite forallb_forall in H. specialize (H k ltac:(apply in_seq; lia)). rewrite Hb, Hc in H. cbn in H. apply Nat.eqb_eq. exact H.
Qed.
Lemma some_bit n i : (0 < i < 2 ^ n)%nat -> exists k, (k < n)%nat /\ N.testbit (N.of_nat i) (N.of_nat k) = true.
Proof.
  intros Hi. exists (N.to_nat (N.log2 (N.of_nat i))). rewrite N2Nat.id. split; [|apply N.bit_log2; lia].
  assert (H : N.log2 (N.of_nat i) < N.of_nat n); [|lia]. apply N.log2_lt_pow2; [lia|]. change 2 with (N.of_nat 2). rewrite <- Nat2N.inj_pow. lia.
Qed.

(* ------------------------------------------------------------------------- *)
(** * Runs *)

Lemma heavy_deal ranges board dead d : heavy ranges -> In d (deals ranges board dead) -> N.of_nat (length ranges) <= deal_weight d.
Proof.
  intros Hh Hd. apply filter_In in Hd as [Hd _]. apply in_picks_of in Hd. enough (H : 2 ^ N.of_nat (length ranges) <= deal_weight d) by (pose proof (N.pow_gt_lin_r 2 (N.of_nat (length ranges))); lia).
  unfold heavy in Hh. induction Hd as [|h r d ranges Hin Hd IH]; [cbn; lia|]. inversion Hh as [|x l Hr Hrs]; subst. specialize (IH Hrs). rewrite Forall_forall in Hr. specialize (Hr h Hin).
  cbn [length deal_weight fold_right] in *. fold (deal_weight d). rewrite Nat2N.inj_succ, N.pow_succ_r'. apply N.mul_le_mono; assumption.
Qed.
Lemma heavy_entry ranges board dead b i : heavy ranges -> counts Debug ranges board dead b -> nth i b 0 = 0 \/ N.of_nat (length ranges) <= nth i b 0.
Proof.
  intros Hh (L & HL & Hag). specialize (Hag i). cbn [agr] in Hag. rewrite Hag. clear Hag b. induction HL as [|s L [Hd _] _ IH]; [left; reflexivity|]. rewrite sumf_cons.
  pose proof (heavy_deal ranges board dead (fst s) Hh Hd) as HW. destruct (N.eq_dec (eff (fst s) (slot_of Debug (fst s)) (OMask i) (snd s)) 0) as [E|E]; [rewrite E, N.mul_0_r; exact IH|].
  right. nia.
Qed.
Lemma heavy_hist ranges board dead bs r : heavy ranges -> (length ranges <= 9)%nat -> Forall (counts Debug ranges board dead) bs -> hist Debug (length ranges) bs r -> 0 < pots (r_wins_by_mask r) ->
  Forall within_one (get_equity (r_wins r) (r_ties r)).
Proof.
  intros Hh H9 HC HH Hp. destruct (hist_range Debug (length ranges) bs r H9 HH) as [(HW & HT & _)|H]; [exfalso|exact H]. destruct HH as [H1 H2 H3 H4 H5 H6 H7 H8]. set (n := length ranges) in *.
  assert (Hi : exists i, (0 < i < 2 ^ n)%nat /\ nth i (r_wins_by_mask r) 0 <> 0).
  { unfold pots in Hp. destruct (r_wins_by_mask r) as [|x wbm]; [cbn in Hp; lia|]. cbn [tl] in Hp.
    assert (G : exists i, (i < length wbm)%nat /\ nth i wbm 0 <> 0).
    { clear - Hp. induction wbm as [|y wbm IH]; [cbn in Hp; lia|]. cbn [sum_of fold_right] in Hp. fold (sum_of (fun x : N => x) wbm) in Hp. destruct (N.eq_dec y 0) as [->|Hy].
      - destruct IH as (i & Hi & Hn); [lia|]. exists (S i). cbn [length nth]. split; [lia|exact Hn].
      - exists 0%nat. cbn [length nth]. split; [lia|exact Hy]. }
    destruct G as (i & Hi & Hn). exists (S i). cbn [nth length] in *. split; [lia|exact Hn]. }
  destruct Hi as (i & Hi & Hne). pose proof (H5 i ltac:(lia)) as Ha. cbn [agr] in Ha. rewrite Ha in Hne.
  destruct (some_bit n i Hi) as (k & Hk & Hb).
  assert (Hlt : (i < 512)%nat) by (apply (Nat.lt_le_trans _ _ _ (proj2 Hi)); change 512%nat with (2 ^ 9)%nat; apply Nat.pow_le_mono_r; lia).
  destruct (N.eq_dec (count_ones (N.of_nat i)) 1) as [Ec|Ec].
  - rewrite (one_bit i k Hlt ltac:(lia) Hb Ec) in Hne. specialize (H6 k Hk). cbn [agr] in H6. rewrite <- H6 in Hne. rewrite Forall_forall in HW. apply Hne. apply HW. apply nth_In. lia.
  - assert (Hx : exists b, In b bs /\ nth i b 0 <> 0).
    { clear - Hne. unfold msum in Hne. induction bs as [|b bs IH]; [cbn in Hne; lia|]. rewrite sumf_cons in Hne. destruct (N.eq_dec (nth i b 0) 0) as [E|E].
      - destruct IH as (b' & Hb & Hn); [lia|]. exists b'. split; [right; exact Hb|exact Hn].
      - exists b. split; [left; reflexivity|exact E]. }
    destruct Hx as (b & Hbs & Hnz). rewrite Forall_forall in HC, HT. destruct (heavy_entry ranges board dead b i Hh (HC b Hbs)) as [E|E]; [contradiction|]. fold n in E.
    assert (Ez : tie_total n k bs = f_zero) by (rewrite <- (H7 k Hk); apply HT; apply nth_In; lia).
    pose proof (total_lost n k bs H8 Ez b i Hbs (proj2 Hi)) as Hlost. unfold lost in Hlost. rewrite Hb in Hlost. apply N.eqb_neq in Ec. rewrite Ec in Hlost. specialize (Hlost eq_refl). cbn [negb andb] in Hlost.
    assert (Hcn : count_ones (N.of_nat i) <= N.of_nat n).
    { destruct (masks_fact n i H9 (proj2 Hi)) as [Em _]. rewrite <- Em. unfold players_of. pose proof (filter_length_le (fun k => N.testbit (N.of_nat i) (N.of_nat k)) (seq 0 n)) as HF. rewrite seq_length in HF. lia. }
    apply N.div_small_iff in Hlost; [lia|]. intros E0. rewrite E0 in Ec. pose proof (count_range n i H9 (proj2 Hi) (bit_nonzero _ _ Hb)) as Hcr. lia.
Qed.

Lemma heavy_exact p ranges board dead threads cancelled sched o : usable ranges -> p = Debug \/ weights_fit ranges board -> heavy ranges ->
  exact_equity p ranges board dead threads cancelled sched = Ret (ROk o) -> 0 < pots (r_wins_by_mask (o_results o)) -> Forall within_one (r_equities (o_results o)).
Proof.
  intros Hu Hw Hh H Hp. apply exact_debug in H; [|exact Hu|exact Hw]. destruct (exact_counts _ _ _ _ _ _ _ _ Hu H) as (bs & HH & HC & HE & Hv). rewrite HE. apply validate_none in Hv.
  apply (heavy_hist ranges board dead bs); try assumption. lia.
Qed.
Lemma heavy_approx p ranges board dead threads target cancelled shuf rngs fuel sched o : Forall range_ok ranges -> permutes shuf -> p = Debug \/ N.of_nat (length sched) * heaviest ranges < 2 ^ 64 -> heavy ranges ->
  approx_equity p ranges board dead threads target cancelled shuf rngs fuel sched = Ret (ROk o) -> 0 < pots (r_wins_by_mask (o_results o)) -> Forall within_one (r_equities (o_results o)).
Proof.
  intros Hr Hs Hw Hh H Hp. apply approx_debug in H; try assumption. destruct (approx_counts _ _ _ _ _ _ _ _ _ _ _ _ Hr Hs H) as (bs & HH & HC & HE & Hv). rewrite HE. apply validate_none in Hv.
  apply (heavy_hist ranges board dead bs); try assumption. lia.
Qed.

(* ------------------------------------------------------------------------- *)
(** * Finished runs *)

Lemma mask_cards_ones m : N.of_nat (length (mask_cards m)) <= ones m.
Proof.
  unfold mask_cards, ones. change (nseq 0 64) with (nseq 0 (52 + 12)). rewrite nseq_app, filter_app, app_length. lia.
Qed.
Lemma filter_split {A} (f : A -> bool) l : (length (filter f l) + length (filter (fun x => negb (f x)) l) = length l)%nat.
Proof. induction l as [|x l IH]; [reflexivity|]. cbn [filter length]. destruct (f x); cbn [negb length]; lia. Qed.
Definition in_sight (board dead : N) (d : list whand) (c : N) : bool := on_table board dead c || existsb (N.eqb c) (dealt d).
Lemma in_mask m c : In c (mask_cards m) <-> In c (nseq 0 52) /\ N.testbit m c = true.
Proof. unfold mask_cards. apply filter_In. Qed.
Lemma seen_count board dead d : (length (filter (in_sight board dead d) (nseq 0 52)) <= length (mask_cards board) + (length (mask_cards dead) + length (dealt d)))%nat.
Proof.
  rewrite <- !app_length. apply NoDup_incl_length; [apply NoDup_filter, nseq_NoDup|]. intros c Hc. apply filter_In in Hc as [Hc Hs]. unfold in_sight, on_table in Hs. rewrite !in_app_iff, !in_mask. apply orb_true_iff in Hs as [Hs|Hs].
  - apply orb_true_iff in Hs as [Hs|Hs]; [left|right; left]; split; assumption.
  - right. right. apply existsb_exists in Hs as (x & Hx & Ex). apply N.eqb_eq in Ex. subst x. exact Hx.
Qed.
Lemma unseen_count board dead d : (length (filter (in_sight board dead d) (nseq 0 52)) + length (unseen board dead d) = 52)%nat.
Proof.
  rewrite <- (nseq_length 0 52) at 2. rewrite <- (filter_split (in_sight board dead d) (nseq 0 52)). f_equal. unfold unseen. f_equal. apply filter_ext. intros c. unfold in_sight. symmetry. apply negb_orb.
Qed.
Lemma dealt_length d : length (dealt d) = (2 * length d)%nat.
Proof. unfold dealt. induction d as [|h d IH]; [reflexivity|]. cbn [flat_map two_cards app length]. rewrite IH. lia. Qed.
Lemma room n u v x y z w : 2 * N.of_nat n + u + 5 <= 52 -> N.of_nat x <= v -> N.of_nat y <= u -> (z <= x + (y + 2 * n))%nat -> (z + w = 52)%nat -> (5 - x <= w)%nat.
Proof. intros. lia. Qed.
Lemma map_choose {A B} (f : list A -> B) k l : (k <= length l)%nat -> map f (choose k l) <> [].
Proof. intros H E. apply map_eq_nil in E. exact (choose_nonempty l k H E). Qed.
Lemma enough_unseen n board dead d : accepted n board dead -> length d = n -> (5 - length (mask_cards board) <= length (unseen board dead d))%nat.
Proof.
  intros (_ & Hb & Hd) Hl. pose proof (seen_count board dead d) as HS. pose proof (unseen_count board dead d) as HU. rewrite dealt_length, Hl in HS.
  eapply room; [exact Hd|exact (mask_cards_ones board)|exact (mask_cards_ones dead)|exact HS|exact HU].
Qed.
Lemma board_exists n board dead d : accepted n board dead -> length d = n -> boards board dead d <> [].
Proof. intros Ha Hl. exact (map_choose _ _ _ (enough_unseen n board dead d Ha Hl)). Qed.
Lemma heavy_pots ranges board dead : accepted (length ranges) board dead -> heavy ranges -> deals ranges board dead <> [] -> 0 < dealt_pots ranges board dead.
Proof.
  intros Ha Hh Hd. destruct (deals ranges board dead) as [|d D] eqn:E; [contradiction|]. assert (Hin : In d (deals ranges board dead)) by (rewrite E; left; reflexivity).
  pose proof (heavy_deal _ _ _ _ Hh Hin) as HW. pose proof (board_exists _ _ _ d Ha (deal_length _ _ _ _ Hin)) as HB. destruct Ha as ((H2 & _) & _).
  unfold dealt_pots, total_of. rewrite E. cbn [sum_of fold_right]. destruct (boards board dead d) as [|l L] eqn:EB; [contradiction|]. cbn [sum_of fold_right]. nia.
Qed.
Lemma heavy_finished p ranges board dead threads sched o : usable ranges -> (length ranges <= 8)%nat -> p = Debug \/ weights_fit ranges board -> board < 2 ^ 64 -> dead < 2 ^ 64 -> heavy ranges ->
  exact_equity p ranges board dead threads false sched = Ret (ROk o) -> ~ In Cancel sched -> (0 < threads)%nat -> deals ranges board dead <> [] -> Forall within_one (r_equities (o_results o)).
Proof.
  intros Hu H8 Hw Hb Hd Hh H Hc Ht Hne. apply (heavy_exact p ranges board dead threads false sched); try assumption.
  pose proof (exact_debug _ _ _ _ _ _ _ _ Hu Hw H) as HD. destruct (masks_spec _ _ _ _ _ _ _ Hu HD Hc Ht) as [HL HM]. specialize (HM H8). cbn [counter] in HM.
  destruct (exact_counts _ _ _ _ _ _ _ _ Hu H) as (_ & _ & _ & _ & Hv). pose proof Hv as Ha. apply (accepted_ok _ _ _ Hb Hd) in Ha. apply validate_none in Hv.
  rewrite (true_pots ranges board dead _ ltac:(lia) HL HM). apply heavy_pots; assumption.
Qed.
Lemma heavy_three p ranges board dead threads sched o : usable ranges -> (length ranges <= 3)%nat -> (length ranges = 3%nat -> Forall no_repeats ranges) -> p = Debug \/ weights_fit ranges board -> board < 2 ^ 64 -> dead < 2 ^ 64 -> heavy ranges ->
  exact_equity p ranges board dead threads false sched = Ret (ROk o) -> ~ In Cancel sched -> (0 < threads)%nat -> Forall within_one (r_equities (o_results o)).
Proof.
  intros Hu H3 HN Hw Hb Hd Hh H Hc Ht. apply (heavy_finished p ranges board dead threads sched); try assumption; [lia|]. intros E.
  destruct (exact_counts _ _ _ _ _ _ _ _ Hu H) as (_ & _ & _ & _ & Hv). apply (accepted_ok _ _ _ Hb Hd) in Hv.
  destruct (equity_conflict p ranges board dead (proj1 Hu) Hb Hd Hv H3 HN) as [HX _]. rewrite (proj2 (HX threads false sched) E) in H. discriminate.
Qed.
