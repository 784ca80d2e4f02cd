(* The counters of a board are those of the boards with one more card, added up. *)
From Coq Require Import Permutation.
From Verif Require Import Base BaseProofs SumFacts ListFacts Ghost Float64 Hand FastDivide Range Combined Sim SpecPoker SpecNames SpecHand SpecEquity SpecResults SpecRun SpecStreet
  EnumProofs ShowdownProofs BoardProofs CombinedProofs SetupProofs ExactProofs ResultProofs CombineRunProofs RunProofs ConsistProofs ShareProofs SureProofs IndexProofs.
Local Open Scope N_scope.
#[local] Opaque NUM_HANDS.

(* ------------------------------------------------------------------------- *)
(** * Choosing one card first *)

Definition without (c : N) (l : list N) : list N := filter (fun x => negb (x =? c)) l.
Lemma without_out c l : ~ In c l -> without c l = l.
Proof.
  intros H. unfold without. induction l as [|x l IH]; [reflexivity|]. cbn [filter]. destruct (N.eqb_spec x c) as [->|Hx]; [exfalso; apply H; left; reflexivity|]. cbn [negb]. f_equal. apply IH. intros Hi. apply H. right. exact Hi.
Qed.
Lemma without_cons c x l : x <> c -> without c (x :: l) = x :: without c l.
Proof. intros H. unfold without. cbn [filter]. destruct (N.eqb_spec x c) as [->|Hx]; [contradiction|reflexivity]. Qed.
Lemma one_first (U : list N) : NoDup U -> forall r (h : list N -> N), (forall a b, Permutation a b -> h a = h b) ->
  sumf (fun c => sumf (fun cs => h (c :: cs)) (choose r (without c U))) U = N.of_nat (S r) * sumf h (choose (S r) U).
Proof.
  induction 1 as [|x U Hx HU IH]; intros r h Hh; [cbn [choose]; rewrite !sumf_nil; lia|].
  rewrite sumf_cons. assert (E0 : without x (x :: U) = U) by (unfold without; cbn [filter]; rewrite N.eqb_refl; cbn [negb]; apply (without_out x U Hx)). rewrite E0.
  rewrite (sumf_ext (fun c => sumf (fun cs => h (c :: cs)) (choose r (without c (x :: U)))) (fun c => sumf (fun cs => h (c :: cs)) (choose r (x :: without c U)))) by (intros c Hc; rewrite without_cons; [reflexivity|intros ->; contradiction]).
  rewrite (choose_cons (S r)) by lia. rewrite sumf_app, sumf_map. replace (S r - 1)%nat with r by lia.
  destruct r as [|r].
  - rewrite !choose_0. rewrite sum_choose_1, !sumf_cons, !sumf_nil. rewrite (sumf_ext _ (fun c => h [c])) by (intros c _; rewrite choose_0, sumf_cons, sumf_nil; lia). change (N.of_nat 1) with 1. lia.
  - rewrite (sumf_ext _ (fun c => sumf (fun cs => h (x :: c :: cs)) (choose r (without c U)) + sumf (fun cs => h (c :: cs)) (choose (S r) (without c U)))).
    2: { intros c _. rewrite (choose_cons (S r)) by lia. rewrite sumf_app, sumf_map. replace (S r - 1)%nat with r by lia. f_equal. apply sumf_ext. intros cs _. apply Hh. constructor. }
    rewrite sumf_add. rewrite (IH r (fun cs => h (x :: cs))) by (intros a b Hab; apply Hh; constructor; exact Hab). rewrite (IH (S r) h Hh). lia.
Qed.
Lemma fewer_chosen {A} (f : A -> bool) (U : list A) : forall r (h : list A -> N), sumf h (choose r (filter f U)) <= sumf h (choose r U).
Proof.
  induction U as [|x U IH]; intros r h; [apply N.le_refl|]. cbn [filter]. destruct r as [|r]; [rewrite !choose_0; apply N.le_refl|]. rewrite (choose_cons (S r) x U) by lia. rewrite sumf_app. replace (S r - 1)%nat with r by lia.
  destruct (f x).
  - rewrite choose_cons by lia. rewrite sumf_app, !sumf_map. replace (S r - 1)%nat with r by lia. apply N.add_le_mono; [apply (IH r (fun cs => h (x :: cs)))|apply IH].
  - specialize (IH (S r) h). lia.
Qed.

(* ------------------------------------------------------------------------- *)
(** * One more card on the board *)

Lemma with_card_bit board c x : N.testbit (with_card board c) x = N.testbit board x || (x =? c).
Proof. unfold with_card. rewrite N.lor_spec, N.pow2_bits_eqb, (N.eqb_sym c x). reflexivity. Qed.
Lemma table_card board dead c x : on_table (with_card board c) dead x = on_table board dead x || (x =? c).
Proof. unfold on_table. rewrite with_card_bit. destruct (N.testbit board x), (N.testbit dead x), (x =? c); reflexivity. Qed.
Lemma forallb_and {A} (f g : A -> bool) l : forallb (fun x => f x && g x) l = forallb f l && forallb g l.
Proof. induction l as [|x l IH]; [reflexivity|]. cbn [forallb]. rewrite IH. destruct (f x), (g x), (forallb f l); reflexivity. Qed.
Lemma forallb_not c l : forallb (fun x => negb (x =? c)) l = negb (existsb (N.eqb c) l).
Proof. induction l as [|x l IH]; [reflexivity|]. cbn [forallb existsb]. rewrite IH, negb_orb, (N.eqb_sym c x). reflexivity. Qed.
Lemma forallb_same {A} (f g : A -> bool) l : (forall x, f x = g x) -> forallb f l = forallb g l.
Proof. intros H. induction l as [|x l IH]; [reflexivity|]. cbn [forallb]. rewrite H, IH. reflexivity. Qed.
Lemma possible_card board dead c d : possible (with_card board c) dead d = possible board dead d && negb (existsb (N.eqb c) (dealt d)).
Proof.
  unfold possible. rewrite (forallb_same _ (fun x => negb (on_table board dead x) && negb (x =? c))) by (intros x; rewrite table_card, negb_orb; reflexivity).
  rewrite forallb_and, forallb_not. apply andb_assoc.
Qed.
Lemma unseen_card board dead c d : unseen (with_card board c) dead d = without c (unseen board dead d).
Proof.
  unfold unseen, without. rewrite filter_filter. apply filter_ext. intros x. rewrite table_card, negb_orb. destruct (on_table board dead x), (x =? c), (existsb _ _); reflexivity.
Qed.
Lemma unseen_play board dead d : unseen board dead d = filter (fun c => negb (existsb (N.eqb c) (dealt d))) (in_play board dead).
Proof. unfold unseen, in_play. rewrite filter_filter. reflexivity. Qed.
Lemma unseen_NoDup board dead d : NoDup (unseen board dead d).
Proof. apply NoDup_filter, nseq_NoDup. Qed.
Lemma filter_one (f g : N -> bool) c L : NoDup L -> In c L -> f c = false -> (forall x, g x = f x || (x =? c)) -> Permutation (filter g L) (c :: filter f L).
Proof.
  intros HN HI Hf Hg. apply NoDup_Permutation; [apply NoDup_filter; exact HN|constructor; [|apply NoDup_filter; exact HN]|].
  - intros H. apply filter_In in H as [_ H]. congruence.
  - intros x. cbn [In]. rewrite !filter_In, Hg, orb_true_iff, N.eqb_eq. split.
    + intros [H1 [H2|H2]]; [right; split; assumption|left; congruence].
    + intros [<-|[H1 H2]]; [split; [exact HI|right; reflexivity]|split; [exact H1|left; exact H2]].
Qed.
Lemma mask_card board c : c < 52 -> N.testbit board c = false -> Permutation (mask_cards (with_card board c)) (c :: mask_cards board).
Proof. intros Hc Hb. exact (filter_one (N.testbit board) (N.testbit (with_card board c)) c (nseq 0 52) (nseq_NoDup 0 52) (proj2 (nseq_In 0 52 c) (conj (N.le_0_l c) Hc)) Hb (with_card_bit board c)). Qed.

Lemma sum_card (M M' U : list N) c (what : list N -> N) : Permutation M' (c :: M) -> (length M < 5)%nat -> (forall a b, Permutation a b -> what a = what b) ->
  sumf what (map (app M') (choose (5 - length M') U)) = sumf (fun cs => what (M ++ c :: cs)) (choose (4 - length M) U).
Proof.
  intros HP Hk Hw. rewrite sumf_map, (Permutation_length HP). cbn [length]. replace (5 - S (length M))%nat with (4 - length M)%nat by lia.
  apply sumf_ext. intros cs _. apply Hw. apply Permutation_trans with ((c :: M) ++ cs); [apply Permutation_app_tail; exact HP|]. apply Permutation_middle.
Qed.
Lemma in_play_in board dead c : In c (in_play board dead) <-> In c (nseq 0 52) /\ negb (on_table board dead c) = true.
Proof. exact (filter_In (fun c => negb (on_table board dead c)) c (nseq 0 52)). Qed.
Lemma play_card board dead c : In c (in_play board dead) -> c < 52 /\ N.testbit board c = false.
Proof.
  intros H. destruct (proj1 (in_play_in board dead c) H) as [Hc Hb]. split; [exact (proj2 (proj1 (nseq_In 0 52 c) Hc))|]. unfold on_table in Hb. apply negb_true_iff, orb_false_iff in Hb as [Hb _]. exact Hb.
Qed.
Lemma boards_card board dead c d (what : list N -> N) : In c (in_play board dead) -> (length (mask_cards board) < 5)%nat -> (forall a b, Permutation a b -> what a = what b) ->
  sumf what (boards (with_card board c) dead d) = sumf (fun cs => what (mask_cards board ++ c :: cs)) (choose (4 - length (mask_cards board)) (without c (unseen board dead d))).
Proof.
  intros Hc Hk Hw. destruct (play_card board dead c Hc) as [H1 H2]. rewrite boards_eq, unseen_card. exact (sum_card _ _ _ c what (mask_card board c H1 H2) Hk Hw).
Qed.

Lemma total_next ranges board dead what : (length (mask_cards board) < 5)%nat -> (forall d a b, Permutation a b -> what d a = what d b) ->
  sumf (fun c => total_of ranges (with_card board c) dead what) (in_play board dead) = N.of_nat (5 - length (mask_cards board)) * total_of ranges board dead what.
Proof.
  intros Hk Hw. rewrite total_sumf, <- sumf_mul. set (g := fun d l => if what d l then 1 else 0 : N).
  assert (Hg : forall d a b, Permutation a b -> g d a = g d b) by (intros d a b Hab; unfold g; rewrite (Hw d a b Hab); reflexivity).
  rewrite (sumf_ext _ (fun c => sumf (fun d => if possible board dead d then if negb (existsb (N.eqb c) (dealt d)) then deal_weight d * sumf (g d) (boards (with_card board c) dead d) else 0 else 0) (picks ranges))).
  2: { intros c _. rewrite total_sumf. unfold deals. rewrite sumf_filter. apply sumf_ext. intros d _. rewrite possible_card. destruct (possible board dead d), (negb _); reflexivity. }
  rewrite sumf_swap. unfold deals. rewrite sumf_filter. apply sumf_ext. intros d _. destruct (possible board dead d); [|apply sumf_zero; reflexivity].
  rewrite <- sumf_filter, <- unseen_play. rewrite (sumf_ext _ (fun c => deal_weight d * sumf (fun cs => g d (mask_cards board ++ c :: cs)) (choose (4 - length (mask_cards board)) (without c (unseen board dead d))))).
  2: { intros c Hc. rewrite unseen_play in Hc. apply filter_In in Hc as [Hc _]. rewrite (boards_card board dead c d (g d) Hc Hk (Hg d)). reflexivity. }
  rewrite sumf_mul. rewrite (one_first _ (unseen_NoDup board dead d) (4 - length (mask_cards board)) (fun cs => g d (mask_cards board ++ cs))) by (intros a b Hab; apply Hg, Permutation_app_head; exact Hab).
  replace (S (4 - length (mask_cards board)))%nat with (5 - length (mask_cards board))%nat by lia. rewrite boards_eq, sumf_map. unfold g. rewrite !N.mul_assoc, (N.mul_comm (deal_weight d)). reflexivity.
Qed.

(* ------------------------------------------------------------------------- *)
(** * More dead cards *)

Lemma total_dead ranges board dead dead' what : within dead dead' -> total_of ranges board dead' what <= total_of ranges board dead what.
Proof.
  intros Hd. assert (HT : forall x, on_table board dead x = true -> on_table board dead' x = true).
  { intros x Hx. unfold on_table in *. apply orb_true_iff in Hx as [Hx|Hx]; apply orb_true_iff; [left; exact Hx|right; apply Hd; exact Hx]. }
  rewrite !total_sumf. unfold deals. rewrite !sumf_filter. apply sumf_le. intros d _.
  assert (HU : unseen board dead' d = filter (fun c => negb (on_table board dead' c)) (unseen board dead d)).
  { unfold unseen. rewrite filter_filter. apply filter_ext. intros x. specialize (HT x). destruct (on_table board dead x), (on_table board dead' x), (existsb _ _); try reflexivity; discriminate (HT eq_refl). }
  destruct (possible board dead' d) eqn:E; [|apply N.le_0_l].
  assert (E' : possible board dead d = true).
  { unfold possible in *. apply andb_true_iff in E as [E1 E2]. apply andb_true_iff. split; [exact E1|]. rewrite forallb_forall in *. intros x Hx. specialize (E2 x Hx). apply negb_true_iff in E2. apply negb_true_iff.
    destruct (on_table board dead x) eqn:Ex; [rewrite (HT x Ex) in E2; discriminate|reflexivity]. }
  rewrite E'. apply N.mul_le_mono_l. rewrite !boards_eq, HU, !sumf_map. apply fewer_chosen.
Qed.

(* ------------------------------------------------------------------------- *)
(** * What runs report *)

Lemma any_build p a b k : hole a b -> get_card_index p a b = Ret k -> get_card_index Debug a b = Ret k.
Proof.
  intros H Hk. destruct (hole_position a b H) as [n [Hn|Hn]]; pose proof (entry_nth _ _ _ Hn) as He.
  - rewrite (e_index _ _ _ He) in *. exact Hk.
  - rewrite (e_index' _ _ _ He) in *. exact Hk.
Qed.
Lemma none_dealt ranges board dead what : deals ranges board dead = [] -> total_of ranges board dead what = 0.
Proof. intros H. rewrite total_sumf, H. reflexivity. Qed.
Lemma reported_total p ranges board dead count x what : usable ranges -> reported p ranges board dead count x ->
  (forall threads sched o, exact_equity Debug ranges board dead threads false sched = Ret (ROk o) -> ~ In Cancel sched -> (0 < threads)%nat -> count (o_results o) = total_of ranges board dead what) ->
  x = total_of ranges board dead what.
Proof.
  intros Hu (Hf & threads & sched & Ht & Hc & [(o & H & ->)|[H ->]]) HC.
  - apply (exact_debug _ _ _ _ _ _ _ _ Hu Hf) in H. exact (HC threads sched o H Hc Ht).
  - symmetry. apply none_dealt. destruct (equity_conflict_sound p ranges board dead (proj1 Hu)) as [HE _]. exact (HE threads false sched H).
Qed.
Lemma reported_mask p ranges board dead m x : usable ranges -> (length ranges <= 8)%nat -> m < 2 ^ N.of_nat (length ranges) ->
  reported p ranges board dead (mask_count m) x -> x = won_by ranges board dead m.
Proof.
  intros Hu H8 Hm H. apply (reported_total _ _ _ _ _ _ _ Hu H). intros threads sched o E Hc Ht. destruct (masks_spec _ _ _ _ _ _ _ Hu E Hc Ht) as [_ HM]. exact (HM H8 m Hm).
Qed.

(* the three counters of a starting hand and what they count *)
Definition hand_counters : list ((unit_results -> N) * (nat -> N -> N -> list whand -> list N -> bool)) :=
  [(u_wins, fun i a b d l => holds i a b d && nats_eqb (winners d l) [i]);
   (u_ties, fun i a b d l => holds i a b d && existsb (Nat.eqb i) (winners d l) && (2 <=? length (winners d l))%nat);
   (u_total, fun i a b d l => holds i a b d)].
Lemma hand_perm field what : In (field, what) hand_counters -> forall i a b d l l', Permutation l l' -> what i a b d l = what i a b d l'.
Proof.
  intros H i a b d l l' HP. unfold hand_counters in H. cbn [In] in H. destruct H as [E|[E|[E|[]]]]; injection E as _ <-; rewrite ?(winners_order d l l' HP); reflexivity.
Qed.
Lemma reported_hand p ranges board dead field what i a b k x : usable ranges -> In (field, what) hand_counters -> (i < length ranges)%nat -> hole a b -> get_card_index p a b = Ret k ->
  reported p ranges board dead (hand_count field i k) x -> x = total_of ranges board dead (what i a b).
Proof.
  intros Hu HI Hi Hab Hk H. apply (any_build _ _ _ _ Hab) in Hk. apply (reported_total _ _ _ _ _ _ _ Hu H). intros threads sched o E Hc Ht.
  destruct (hands_spec _ _ _ _ _ _ _ Hu E Hc Ht i a b k Hi Hab Hk) as (u & Eu & H1 & H2 & H3). unfold hand_count. rewrite Eu.
  unfold hand_counters in HI. cbn [In] in HI. destruct HI as [EI|[EI|[EI|[]]]]; injection EI as <- <-; assumption.
Qed.
Lemma counter_field field : In field [u_wins; u_ties; u_total] -> exists what, In (field, what) hand_counters.
Proof. cbn [In]. intros [<-|[<-|[<-|[]]]]; eexists; unfold hand_counters; cbn [In]; eauto. Qed.

Lemma next_masks p ranges board dead m x f : usable ranges -> (length ranges <= 8)%nat -> (length (mask_cards board) < 5)%nat -> m < 2 ^ N.of_nat (length ranges) ->
  reported p ranges board dead (mask_count m) x -> (forall c, In c (in_play board dead) -> reported p ranges (with_card board c) dead (mask_count m) (f c)) ->
  sum_of f (in_play board dead) = N.of_nat (5 - length (mask_cards board)) * x.
Proof.
  intros Hu H8 Hk Hm Hx Hf. rewrite (reported_mask _ _ _ _ _ _ Hu H8 Hm Hx). unfold won_by. rewrite <- (total_next ranges board dead _ Hk) by (intros d a b HP; rewrite (winners_order d a b HP); reflexivity).
  transitivity (sumf f (in_play board dead)); [symmetry; apply sumf_sum_of|]. apply sumf_ext. intros c Hc. exact (reported_mask _ _ _ _ _ _ Hu H8 Hm (Hf c Hc)).
Qed.
Lemma next_hands p ranges board dead field i a b k x f : usable ranges -> In field [u_wins; u_ties; u_total] -> (length (mask_cards board) < 5)%nat -> (i < length ranges)%nat -> hole a b -> get_card_index p a b = Ret k ->
  reported p ranges board dead (hand_count field i k) x -> (forall c, In c (in_play board dead) -> reported p ranges (with_card board c) dead (hand_count field i k) (f c)) ->
  sum_of f (in_play board dead) = N.of_nat (5 - length (mask_cards board)) * x.
Proof.
  intros Hu HI Hk Hi Hab Hg Hx Hf. destruct (counter_field field HI) as (what & HW). rewrite (reported_hand _ _ _ _ _ _ _ _ _ _ _ Hu HW Hi Hab Hg Hx).
  rewrite <- (total_next ranges board dead _ Hk) by (intros d l l' HP; exact (hand_perm _ _ HW i a b d l l' HP)).
  transitivity (sumf f (in_play board dead)); [symmetry; apply sumf_sum_of|]. apply sumf_ext. intros c Hc. exact (reported_hand _ _ _ _ _ _ _ _ _ _ _ Hu HW Hi Hab Hg (Hf c Hc)).
Qed.
Lemma dead_masks p ranges board dead dead' m x y : usable ranges -> (length ranges <= 8)%nat -> m < 2 ^ N.of_nat (length ranges) -> within dead dead' ->
  reported p ranges board dead (mask_count m) x -> reported p ranges board dead' (mask_count m) y -> y <= x.
Proof.
  intros Hu H8 Hm Hd Hx Hy. rewrite (reported_mask _ _ _ _ _ _ Hu H8 Hm Hx), (reported_mask _ _ _ _ _ _ Hu H8 Hm Hy). apply total_dead. exact Hd.
Qed.
Lemma dead_hands p ranges board dead dead' field i a b k x y : usable ranges -> In field [u_wins; u_ties; u_total] -> (i < length ranges)%nat -> hole a b -> get_card_index p a b = Ret k -> within dead dead' ->
  reported p ranges board dead (hand_count field i k) x -> reported p ranges board dead' (hand_count field i k) y -> y <= x.
Proof.
  intros Hu HI Hi Hab Hg Hd Hx Hy. destruct (counter_field field HI) as (what & HW).
  rewrite (reported_hand _ _ _ _ _ _ _ _ _ _ _ Hu HW Hi Hab Hg Hx), (reported_hand _ _ _ _ _ _ _ _ _ _ _ Hu HW Hi Hab Hg Hy). apply total_dead. exact Hd.
Qed.
