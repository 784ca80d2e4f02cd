(* The order of the two cards of a hand, symmetric suits, dead cards on the board (C135-C137). *)
From Verif Require Import Base BaseProofs SumFacts ListFacts Float64 Hand Range FastDivide Combined Sim SpecPoker SpecNames SpecHand SpecEquity SpecResults SpecRun SpecSymmetry SpecTurn
  PokerFacts EnumProofs BoardProofs CombinedProofs PositionProofs MergeProofs SetupProofs RunProofs ConsistProofs SeatProofs SymmetryProofs.
From Coq Require Import Permutation.
Local Open Scope N_scope.

Lemma sorted_two h : Permutation (two_cards (sorted_hand h)) (two_cards h).
Proof.
  unfold two_cards, sorted_hand. cbn [first_card second_card fst snd]. destruct (N.le_ge_cases (first_card h) (second_card h)) as [H|H].
  - rewrite N.max_r, N.min_l by exact H. apply perm_swap.
  - rewrite N.max_l, N.min_r by exact H. reflexivity.
Qed.
Lemma dealt_sorted d : Permutation (dealt (map sorted_hand d)) (dealt d).
Proof.
  unfold dealt. induction d as [|h d IH]; [reflexivity|]. cbn [map flat_map]. apply Permutation_app; [apply sorted_two|exact IH].
Qed.
Lemma possible_dealt board dead d d' : Permutation (dealt d) (dealt d') -> possible board dead d = possible board dead d'.
Proof.
  intros H. assert (E : forall a b, Permutation (dealt a) (dealt b) -> possible board dead a = true -> possible board dead b = true).
  { clear. intros a b HP. rewrite !possible_spec. intros [H1 H2]. split.
    - eapply Permutation_NoDup; [exact HP|exact H1].
    - intros c Hc. apply H2. eapply Permutation_in; [symmetry; exact HP|exact Hc]. }
  destruct (possible board dead d) eqn:E1, (possible board dead d') eqn:E2; try reflexivity; exfalso.
  - rewrite (E _ _ H E1) in E2. discriminate.
  - rewrite (E _ _ (Permutation_sym H) E2) in E1. discriminate.
Qed.
Lemma existsb_dealt c l l' : Permutation l l' -> existsb (N.eqb c) l = existsb (N.eqb c) l'.
Proof.
  intros H. destruct (existsb (N.eqb c) l) eqn:E1, (existsb (N.eqb c) l') eqn:E2; try reflexivity; exfalso.
  - apply existsb_exists in E1 as (x & Hx & Ex). assert (E : existsb (N.eqb c) l' = true) by (apply existsb_exists; exists x; split; [eapply Permutation_in; eassumption|exact Ex]). congruence.
  - apply existsb_exists in E2 as (x & Hx & Ex). assert (E : existsb (N.eqb c) l = true) by (apply existsb_exists; exists x; split; [eapply Permutation_in; [symmetry; exact H|exact Hx]|exact Ex]). congruence.
Qed.
Lemma boards_dealt board dead d d' : Permutation (dealt d) (dealt d') -> boards board dead d = boards board dead d'.
Proof.
  intros H. unfold boards. assert (E : unseen board dead d = unseen board dead d'); [|rewrite E; reflexivity]. unfold unseen. apply filter_ext. intros c. rewrite (existsb_dealt c _ _ H). reflexivity.
Qed.
Lemma holding_sorted d i : (i < length d)%nat -> holding (map sorted_hand d) i = sorted_hand (holding d i).
Proof. intros Hi. unfold holding. rewrite (nth_indep _ _ (sorted_hand (0, 0, 0))) by (rewrite map_length; exact Hi). apply map_nth. Qed.
Lemma winners_sorted d l : winners (map sorted_hand d) l = winners d l.
Proof.
  unfold winners. rewrite map_length. apply filter_ext_in. intros i Hi. apply in_seq in Hi. rewrite holding_sorted by lia.
  assert (G : forall h, best (two_cards (sorted_hand h) ++ l) = best (two_cards h ++ l)) by (intros h; apply best_perm, Permutation_app_tail, sorted_two).
  rewrite G. generalize (best (two_cards (holding d i) ++ l)). intros x. clear - G. induction d as [|h d IH]; [reflexivity|]. cbn [map forallb]. rewrite IH, G. reflexivity.
Qed.
Lemma holds_sorted d i a b : (i < length d)%nat -> holds i a b (map sorted_hand d) = holds i a b d.
Proof.
  intros Hi. unfold holds. cbv zeta. rewrite holding_sorted by exact Hi. generalize (holding d i). intros h. unfold sorted_hand. cbn [first_card second_card fst snd].
  destruct (N.le_ge_cases (first_card h) (second_card h)) as [H|H].
  - rewrite N.max_r, N.min_l by exact H. unfold first_card, second_card. cbn [fst snd]. destruct (fst (fst h) =? a), (fst (fst h) =? b), (snd (fst h) =? a), (snd (fst h) =? b); reflexivity.
  - rewrite N.max_l, N.min_r by exact H. reflexivity.
Qed.
Lemma picks_map {A B} (g : A -> B) ls : picks (map (map g) ls) = map (map g) (picks ls).
Proof.
  induction ls as [|r rs IH]; [reflexivity|]. cbn [map picks]. rewrite IH. induction r as [|h r IHr]; [reflexivity|].
  cbn [map flat_map]. rewrite map_app, IHr. f_equal. rewrite !map_map. apply map_ext. reflexivity.
Qed.
Lemma weight_sorted d : deal_weight (map sorted_hand d) = deal_weight d.
Proof. unfold deal_weight. induction d as [|h d IH]; [reflexivity|]. cbn [map fold_right]. rewrite IH. reflexivity. Qed.
Lemma total_sorted ranges board dead what : (forall d l, length d = length ranges -> what (map sorted_hand d) l = what d l) ->
  total_of (map (map sorted_hand) ranges) board dead what = total_of ranges board dead what.
Proof.
  intros Hw. rewrite !total_gain, picks_map, sumf_map. apply sumf_ext. intros d Hd. unfold gain.
  rewrite (possible_dealt board dead _ _ (dealt_sorted d)), weight_sorted, (boards_dealt board dead _ _ (dealt_sorted d)).
  destruct (possible board dead d); [|reflexivity]. f_equal. apply sumf_ext. intros l _. rewrite Hw; [reflexivity|]. exact (picks_length _ _ Hd).
Qed.
Lemma event_sorted n c d l : has_figure n c -> length d = n -> event_of n c (map sorted_hand d) l = event_of n c d l.
Proof.
  intros Hc Hl. destruct c as [m|i|i a b|i a b|i a b]; cbn [event_of has_figure] in *; unfold wins_with, ties_with; rewrite ?winners_sorted; try reflexivity;
    destruct Hc as [Hi _]; rewrite holds_sorted by lia; reflexivity.
Qed.

Lemma same_length r r' : same_hands r r' -> length r = length r'.
Proof. intros H. apply Permutation_length in H. rewrite !map_length in H. exact H. Qed.
Lemma sorted_ok h : hole (first_card (sorted_hand h)) (second_card (sorted_hand h)) <-> hole (first_card h) (second_card h).
Proof.
  unfold sorted_hand. cbn [first_card second_card fst snd]. unfold hole. destruct (N.le_ge_cases (first_card h) (second_card h)) as [H|H].
  - rewrite N.max_r, N.min_l by exact H. intuition congruence.
  - rewrite N.max_l, N.min_r by exact H. reflexivity.
Qed.
Lemma same_ok r r' : same_hands r r' -> range_ok r -> range_ok r'.
Proof.
  intros H [H1 H2]. split; [|rewrite <- (same_length _ _ H); exact H2]. apply Forall_forall. intros h Hh. apply (in_map sorted_hand) in Hh.
  eapply Permutation_in in Hh; [|symmetry; exact H]. apply in_map_iff in Hh as (h' & E & Hh). rewrite Forall_forall in H1. destruct (H1 h' Hh) as [H3 H4].
  split; [apply sorted_ok; rewrite <- E; apply sorted_ok; exact H3|]. change (weight h) with (weight (sorted_hand h)). rewrite <- E. exact H4.
Qed.
Lemma same_usable ranges ranges' : Forall2 same_hands ranges ranges' -> usable ranges -> usable ranges'.
Proof.
  intros H Hu. eapply usable_sizes; [exact Hu| |].
  - destruct Hu as [Hr _]. revert Hr. induction H as [|r r' rs rs' H1 H2 IH]; intros Hr; [constructor|]. inversion Hr as [|? ? Hr1 Hr2]; subst. constructor; [eapply same_ok; eassumption|apply IH; exact Hr2].
  - clear - H. induction H as [|r r' rs rs' H1 H2 IH]; constructor; [|exact IH]. rewrite (same_length _ _ H1). apply Nat.le_refl.
Qed.
Lemma total_same ranges ranges' board dead what : Forall2 same_hands ranges ranges' -> (forall d l, length d = length ranges -> what (map sorted_hand d) l = what d l) ->
  total_of ranges' board dead what = total_of ranges board dead what.
Proof.
  intros H Hw. rewrite <- (total_sorted ranges board dead what Hw). rewrite <- (total_sorted ranges' board dead what) by (rewrite <- (Forall2_length _ _ _ H); exact Hw).
  apply total_order. clear - H. induction H as [|r r' rs rs' H1 H2 IH]; constructor; assumption.
Qed.

(* C135 *)
Lemma order_of_cards p ranges ranges' board dead o o' : usable ranges -> Forall2 same_hands ranges ranges' ->
  completes p ranges board dead o -> completes p ranges' board dead o' -> forall c, has_figure (length ranges) c -> figure_of p o' c = figure_of p o c.
Proof.
  intros Hu HP H H' c Hc. pose proof (same_usable _ _ HP Hu) as Hu'. assert (Hl : length ranges' = length ranges) by (symmetry; exact (Forall2_length _ _ _ HP)).
  destruct (read_figure p ranges board dead o c Hu H Hc) as (x & E & Hx). destruct (read_figure p ranges' board dead o' c Hu' H' ltac:(rewrite Hl; exact Hc)) as (x' & E' & Hx').
  rewrite Hl, (total_same _ _ _ _ _ HP) in Hx' by (intros d l Hd; apply event_sorted; assumption). rewrite E, E'. f_equal. eapply counter_fun; eassumption.
Qed.

(* C136 *)
Lemma alike_figures p f ranges board dead o : usable ranges -> suits_alike f ranges board dead -> completes p ranges board dead o ->
  forall c, has_figure (length ranges) c -> figure_of p o (rename_figure f c) = figure_of p o c.
Proof.
  intros Hu (Hf & Hb & Hd & HP) H c Hc.
  assert (Hh : forall a b, hole a b -> hole (rename_suits f a) (rename_suits f b)).
  { intros a b (Ha & Hb' & Hab). split; [apply rs_card; assumption|]. split; [apply rs_card; assumption|]. intros E. apply Hab. eapply rs_inj; eassumption. }
  assert (Hc' : has_figure (length ranges) (rename_figure f c)).
  { destruct c as [m|i|i a b|i a b|i a b]; cbn [has_figure rename_figure] in *; try exact Hc; destruct Hc as [Hi Hab]; (split; [exact Hi|apply Hh; exact Hab]). }
  destruct (read_figure p ranges board dead o c Hu H Hc) as (x & E & Hx). destruct (read_figure p ranges board dead o (rename_figure f c) Hu H Hc') as (x' & E' & Hx').
  assert (HP' : Forall2 same_hands ranges (map (map (rename_hand f)) ranges)).
  { clear - HP. induction HP as [|r rs H1 H2 IH]; [constructor|]. cbn [map]. constructor; [apply Permutation_sym; exact H1|exact IH]. }
  rewrite <- (total_same _ _ _ _ _ HP') in Hx' by (intros d l Hdl; apply event_sorted; assumption).
  rewrite (total_renamed f Hf board board dead dead Hb Hd ranges (event_of (length ranges) c)) in Hx'.
  - rewrite E, E'. f_equal. eapply counter_fun; eassumption.
  - destruct Hu as [Hr _]. eapply Forall_impl; [|exact Hr]. intros r [H1 _]. eapply Forall_impl; [|exact H1]. intros h [H3 _]. exact H3.
  - intros d l l' HPl. destruct c as [m|i|i a b|i a b|i a b]; cbn [event_of rename_figure]; unfold wins_with, ties_with; rewrite ?(winners_perm d l l' HPl); reflexivity.
  - intros d l Hdl. destruct c as [m|i|i a b|i a b|i a b]; cbn [event_of rename_figure has_figure] in *; unfold wins_with, ties_with; rewrite ?(winners_renamed f Hf d l); try reflexivity;
      destruct Hc as [Hi _]; rewrite (holds_renamed f Hf d i a b) by lia; reflexivity.
Qed.

(* C137 *)
Section Table.
  Variables board dead board' dead' : N.
  Hypothesis Ht : same_table board dead board' dead'.
  Lemma mask_same : mask_cards board' = mask_cards board.
  Proof. unfold mask_cards. apply filter_ext_in. intros c Hc. apply nseq_In in Hc. apply (proj1 (Ht c ltac:(lia))). Qed.
  Lemma possible_same d : Forall (fun c => c < 52) (dealt d) -> possible board' dead' d = possible board dead d.
  Proof.
    intros Hd. unfold possible. f_equal. apply forallb_ext_in. intros c Hc. rewrite Forall_forall in Hd. now rewrite (proj2 (Ht c (Hd c Hc))).
  Qed.
  Lemma boards_same d : boards board' dead' d = boards board dead d.
  Proof.
    unfold boards. rewrite mask_same. assert (E : unseen board' dead' d = unseen board dead d); [|rewrite E; reflexivity]. unfold unseen. apply filter_ext_in. intros c Hc. apply nseq_In in Hc. now rewrite (proj2 (Ht c ltac:(lia))).
  Qed.
  Lemma total_table ranges what : Forall range_ok ranges -> total_of ranges board' dead' what = total_of ranges board dead what.
  Proof.
    intros Hr. rewrite !total_gain. apply sumf_ext. intros d Hd. unfold gain. rewrite boards_same, possible_same; [reflexivity|].
    clear - Hr Hd. revert d Hd. induction Hr as [|r rs [Hr _] Hrs IH]; intros d Hd; cbn [picks] in Hd; [destruct Hd as [<-|[]]; constructor|].
    apply in_flat_map in Hd as (h & Hh & Hd). apply in_map_iff in Hd as (d' & <- & Hd). rewrite Forall_forall in Hr. destruct (Hr h Hh) as [(H1 & H2 & _) _].
    unfold dealt. cbn [flat_map]. apply Forall_app. split; [repeat constructor; assumption|apply IH, Hd].
  Qed.
End Table.
Lemma table_figures p ranges board dead board' dead' o o' : usable ranges -> same_table board dead board' dead' ->
  completes p ranges board dead o -> completes p ranges board' dead' o' -> forall c, has_figure (length ranges) c -> figure_of p o' c = figure_of p o c.
Proof.
  intros Hu Ht H H' c Hc. destruct (read_figure p ranges board dead o c Hu H Hc) as (x & E & Hx). destruct (read_figure p ranges board' dead' o' c Hu H' Hc) as (x' & E' & Hx').
  rewrite (total_table _ _ _ _ Ht) in Hx' by apply Hu. rewrite E, E'. f_equal. eapply counter_fun; eassumption.
Qed.

(* ------------------------------------------------------------------------- *)
(** * A symmetric example: spades and hearts swapped *)

Definition flip (s : N) : N := match s with 0 => 1 | 1 => 0 | _ => s end.
Definition flip_ranges : list (list whand) := [[(51, 48, 1); (51, 49, 1)]; [(45, 44, 3); (40, 36, 2); (41, 37, 2)]].
Definition flip_board : N := 2 ^ 2 + 2 ^ 23 + 2 ^ 30 + 2 ^ 39 + 2 ^ 46.
Lemma mask_check f m m' : forallb (fun c => Bool.eqb (N.testbit m' (rename_suits f c)) (N.testbit m c)) (nseq 0 52) = true -> renamed_mask f m m'.
Proof. intros H c Hc. rewrite forallb_forall in H. apply eqb_prop, H, nseq_In. lia. Qed.
Lemma flip_alike : suits_alike flip flip_ranges flip_board 0.
Proof.
  split; [|split; [apply mask_check; vm_compute; reflexivity|split; [apply mask_check; vm_compute; reflexivity|]]].
  - unfold suit_permutation. split.
    + intros s Hs. assert (E : s = 0 \/ s = 1 \/ s = 2 \/ s = 3) by lia. destruct E as [E|[E|[E|E]]]; subst; reflexivity.
    + intros s t Hs Ht. assert (E : s = 0 \/ s = 1 \/ s = 2 \/ s = 3) by lia. assert (E' : t = 0 \/ t = 1 \/ t = 2 \/ t = 3) by lia.
      destruct E as [E|[E|[E|E]]], E' as [E'|[E'|[E'|E']]]; subst; vm_compute; intros G; congruence || reflexivity || discriminate.
  - constructor; [|constructor; [|constructor]].
    + apply perm_swap.
    + vm_compute. apply perm_skip, perm_swap.
Qed.
Lemma flip_usable : usable flip_ranges.
Proof. split; [|reflexivity]. repeat constructor; cbn; lia || discriminate. Qed.
