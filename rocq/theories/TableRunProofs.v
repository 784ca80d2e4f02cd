(* Runs of ranges given as texts, and the entries asked for by name. *)
From Verif Require Import Base BaseProofs SumFacts ListFacts Float64 TStrings Hand Range FastDivide Combined Sim Approx SpecPoker SpecHand SpecNames SpecEquity
  SpecResults SpecRun SpecApprox SpecRange SpecConflict SpecFinal SpecTable RangeProofs IndexProofs RunProofs ConflictProofs FinalRunProofs TableRateProofs ShareProofs TableProofs PropConflict.
Local Open Scope N_scope.

#[local] Opaque NUM_HANDS NUM_COMBOS.

Lemma text_repeats lower p texts (ranges : list (list whand)) : from_strings lower p texts = Ret ranges -> Forall no_repeats ranges.
Proof.
  intros H. apply mapM_Forall2 in H. induction H as [|t r texts ranges Ht Hr IH]; constructor; [exact (C140_text _ _ _ _ Ht)|exact IH].
Qed.
Lemma small_le n board : small_table n board -> (n <= 3)%nat.
Proof. intros [H|[H _]]; lia. Qed.

Lemma text_returns lower p texts (ranges : list (list whand)) board dead : from_strings lower p texts = Ret ranges -> small_table (length texts) board ->
  board < 2 ^ 64 -> dead < 2 ^ 64 -> accepted (length texts) board dead ->
  forall q threads cancelled sched, (forall tid, (tid < threads)%nat -> (3 * threads + 4 * N.to_nat (prod_of (fun r => N.of_nat (length r)) ranges) < how_many (is_run tid) sched)%nat) ->
  exact_equity q ranges board dead threads cancelled sched = Ret (RErr ConflictingRanges) /\ deals ranges board dead = [] \/
  (exists o, exact_equity q ranges board dead threads cancelled sched = Ret (ROk o)) /\ deals ranges board dead <> [].
Proof.
  intros HT Hs Hb Hd Ha q threads cancelled sched Hf. pose proof (small_le _ _ Hs) as H3. assert (H6 : (length texts <= 6)%nat) by lia.
  pose proof (text_usable _ _ _ _ HT H6) as Hu. pose proof (text_fit _ _ _ _ _ HT Hs) as Hw. destruct (read_light _ _ _ _ HT) as (EL & _). rewrite <- EL in Ha.
  assert (H3' : (length ranges <= 3)%nat) by lia.
  destruct (equity_conflict q ranges board dead (proj1 Hu) Hb Hd Ha H3' (fun _ => text_repeats _ _ _ _ HT)) as [HC _]. destruct (HC threads cancelled sched) as [HC1 HC2].
  destruct (call_finishes q ranges board dead threads cancelled sched Hu Ha Hb Hd (or_introl Hw) Hf) as [E|[o E]].
  - left. split; [exact E|]. apply HC1. exact E.
  - right. split; [exists o; exact E|]. intros E0. specialize (HC2 E0). rewrite E in HC2. discriminate HC2.
Qed.

(* the names find the same positions in both builds *)
Lemma name_index p a b i : hole a b -> name_order a b -> get_card_index p a b = Ret i -> get_card_index Debug a b = Ret i.
Proof.
  intros H Ho Hi. destruct (hand_name_found p a b H Ho) as (i1 & H1 & M1). destruct (hand_name_found Debug a b H Ho) as (i2 & H2 & M2). assert (i1 = i) by congruence. subst i1.
  rewrite M1 in M2. injection M2 as E. apply N2Nat.inj in E. congruence.
Qed.

Lemma one_entry (r : list whand) a b h : no_repeats r -> In h r -> same_hand a b h -> exists l1 l2, r = l1 ++ h :: l2 /\ forall h', In h' l2 -> ~ same_hand a b h'.
Proof.
  intros Hn Hin Hs. induction Hn as [|x r Hx Hn IH]; [destruct Hin|]. destruct Hin as [->|Hin].
  - exists [], r. split; [reflexivity|]. intros h' H' Hs'. rewrite Forall_forall in Hx. apply (Hx h' H'). unfold same_two, same_hand in *. intuition congruence.
  - destruct (IH Hin) as (l1 & l2 & -> & H2). exists (x :: l1), l2. split; [reflexivity|exact H2].
Qed.

Lemma text_by_name lower p texts (ranges : list (list whand)) board dead q threads sched o : from_strings lower p texts = Ret ranges -> small_table (length texts) board ->
  exact_equity q ranges board dead threads false sched = Ret (ROk o) -> ~ In Cancel sched -> (0 < threads)%nat ->
  (forall m, m < 2 ^ N.of_nat (length texts) -> nth (N.to_nat m) (r_wins_by_mask (o_results o)) 0 = won_by ranges board dead m) /\
  forall i a b, (i < length texts)%nat -> hole a b -> name_order a b ->
    exists u, get_hand_result q (r_hand_results (o_results o)) (N.of_nat i) (hand_name a b) = Ret (ROk u) /\ entry_told ranges board dead i a b u.
Proof.
  intros HT Hs H Hc Ht. pose proof (small_le _ _ Hs) as H3. assert (H6 : (length texts <= 6)%nat) by lia.
  pose proof (text_usable _ _ _ _ HT H6) as Hu. pose proof (text_fit _ _ _ _ _ HT Hs) as Hw. destruct (read_light _ _ _ _ HT) as (EL & _).
  pose proof (exact_debug q ranges board dead threads false sched o Hu (or_intror Hw) H) as HD. split.
  - intros m Hm. rewrite <- EL in Hm. destruct (masks_spec _ _ _ _ _ _ _ Hu HD Hc Ht) as [_ HM]. apply HM; [lia|exact Hm].
  - intros i a b Hi Hab Ho. rewrite <- EL in Hi. pose proof (tb_hands _ _ _ _ _ (run_tables _ _ _ _ _ _ _ _ Hu HD)) as HL.
    destruct (hand_lookup q (r_hand_results (o_results o)) i a b Hab Ho) as (k & u & Hk & Hn & Hg); [rewrite HL; lia|rewrite HL; lia|].
    exists u. split; [exact Hg|]. apply (name_index q a b k Hab Ho) in Hk.
    destruct (hands_spec Debug ranges board dead threads sched o Hu HD Hc Ht i a b k Hi Hab Hk) as (u1 & Hn1 & W1 & W2 & W3). assert (u1 = u) by congruence. subst u1.
    destruct (run_entry Debug ranges board dead threads false sched o Hu HD i a b k Hi Hab Hk) as (u2 & Hn2 & V1 & _ & V3). assert (u2 = u) by congruence. subst u2.
    split; [exact W1|]. split; [exact W2|]. split; [exact W3|]. split; [exact V1|]. intros h Hin Hsame Hv.
    assert (HN : no_repeats (range_at ranges i)). { pose proof (text_repeats _ _ _ _ HT) as HR. rewrite Forall_forall in HR. apply HR. unfold range_at. apply nth_In. exact Hi. }
    destruct (one_entry _ a b h HN Hin Hsame) as (l1 & l2 & El & H2). exact (V3 l1 h l2 El Hsame H2 Hv).
Qed.

(* ------------------------------------------------------------------------- *)
(** * Players who are not there *)

(* [size] entries for each of [n] players *)
Definition looked_up {A} p (l : list A) (size : nat) (player : N) (k : nat) : outcome (result A lookup_error) :=
  base <- mul_ 64 p (N.of_nat size) player ;; i <- add_ 64 p base (N.of_nat k) ;; u <- get l (N.to_nat i) ;; Ret (ROk u).
Lemma looked_up_beyond {A} p (l : list A) size n player k : length l = (n * size)%nat -> N.of_nat n <= player -> (k < size)%nat ->
  p = Debug \/ N.of_nat size * player + N.of_nat k < 2 ^ 64 -> looked_up p l size player k = Fail IndexOOB \/ p = Debug /\ looked_up p l size player k = Fail Overflow.
Proof.
  intros Hl Hp Hk Hb. unfold looked_up, mul_, add_. destruct (N.ltb_spec (N.of_nat size * player) (2 ^ 64)).
  - cbn [bind]. destruct (N.ltb_spec (N.of_nat size * player + N.of_nat k) (2 ^ 64)).
    + cbn [bind]. left. unfold get. replace (nth_error l (N.to_nat (N.of_nat size * player + N.of_nat k))) with (@None A); [reflexivity|]. symmetry. apply nth_error_None. rewrite Hl. nia.
    + right. destruct Hb as [->|Hb]; [split; reflexivity|lia].
  - right. destruct Hb as [->|Hb]; [split; reflexivity|lia].
Qed.
Lemma absent_hand p hr n player a b : length hr = (n * 1326)%nat -> N.of_nat n <= player -> p = Debug \/ player <= 2 ^ 53 -> hole a b -> name_order a b ->
  get_hand_result p hr player (hand_name a b) = Fail IndexOOB \/ p = Debug /\ get_hand_result p hr player (hand_name a b) = Fail Overflow.
Proof.
  intros Hl Hp Hb Hab Ho. destruct (hand_name_found p a b Hab Ho) as (i & Hi & Hm). unfold get_hand_result. rewrite Hm.
  destruct (index_total p a b Hab) as (i' & Hlt & Hi' & _). rewrite Hi in Hi'. injection Hi' as <-.
  apply (looked_up_beyond p hr NUM_HANDS n player (N.to_nat i)); [exact Hl|exact Hp|change NUM_HANDS with 1326%nat; lia|].
  destruct Hb as [->|Hb]; [left; reflexivity|right]. change NUM_HANDS with 1326%nat. lia.
Qed.
Lemma absent_combo p cr n player j k : length cr = (n * 169)%nat -> N.of_nat n <= player -> p = Debug \/ player <= 2 ^ 53 -> nth_error kinds j = Some k ->
  get_combo_result p cr player (kind_name k) = Fail IndexOOB \/ p = Debug /\ get_combo_result p cr player (kind_name k) = Fail Overflow.
Proof.
  intros Hl Hp Hb Hk. assert (Hj : (j < 169)%nat). { assert (Hj : (j < length kinds)%nat) by (apply nth_error_Some; congruence). exact Hj. }
  unfold get_combo_result. rewrite (map_get_some _ (kind_name k) combo_names_NoDup j); [|rewrite combo_names, nth_error_map, Hk; reflexivity].
  apply (looked_up_beyond p cr NUM_COMBOS n player j); [exact Hl|exact Hp|exact Hj|]. destruct Hb as [->|Hb]; [left; reflexivity|right]. change NUM_COMBOS with 169%nat. lia.
Qed.
(* 2^63 * 1326 is a multiple of 2^64 *)
Lemma wrapped_hand hr text : get_hand_result Release hr (2 ^ 63) text = get_hand_result Release hr 0 text.
Proof. unfold get_hand_result. destruct (map_get INDEX_TO_HAND text) as [k|]; reflexivity. Qed.
Lemma wrapped_found ranges board dead threads cancelled sched o : usable ranges -> exact_equity Release ranges board dead threads cancelled sched = Ret (ROk o) -> (0 < length ranges)%nat ->
  exists u, get_hand_result Release (r_hand_results (o_results o)) (2 ^ 63) (hand_name 51 46) = Ret (ROk u).
Proof.
  intros Hu H Hn. pose proof (tb_hands _ _ _ _ _ (run_tables _ _ _ _ _ _ _ _ Hu H)) as HL. rewrite wrapped_hand.
  assert (Hh : hole 51 46) by (repeat split; discriminate). assert (Ho : name_order 51 46) by (left; reflexivity).
  destruct (hand_name_found Release 51 46 Hh Ho) as (i & Hi & Hm). unfold get_hand_result. rewrite Hm. destruct (index_total Release 51 46 Hh) as (i' & Hlt & Hi' & _). rewrite Hi in Hi'. injection Hi' as <-.
  change (mul_ 64 Release (N.of_nat NUM_HANDS) 0) with (Ret 0). cbn [bind]. unfold add_. destruct (N.ltb_spec (0 + N.of_nat (N.to_nat i)) (2 ^ 64)); [|lia]. cbn [bind]. unfold get.
  destruct (nth_error _ _) as [u|] eqn:E; [exists u; reflexivity|]. apply nth_error_None in E. rewrite HL in E. lia.
Qed.

Lemma absent_exact p ranges board dead threads cancelled sched o player a b : usable ranges ->
  exact_equity p ranges board dead threads cancelled sched = Ret (ROk o) -> N.of_nat (length ranges) <= player -> p = Debug \/ player <= 2 ^ 53 -> hole a b -> name_order a b ->
  let answer := get_hand_result p (r_hand_results (o_results o)) player (hand_name a b) in answer = Fail IndexOOB \/ p = Debug /\ answer = Fail Overflow.
Proof.
  intros Hu H Hp Hb Hab Ho. exact (absent_hand p _ _ player a b (tb_hands _ _ _ _ _ (run_tables _ _ _ _ _ _ _ _ Hu H)) Hp Hb Hab Ho).
Qed.
Lemma flat_map_const {A B} (f : A -> list B) k l : (forall x, length (f x) = k) -> length (flat_map f l) = (length l * k)%nat.
Proof. intros H. induction l as [|x l IH]; [reflexivity|]. cbn [flat_map length]. rewrite app_length, H, IH. reflexivity. Qed.
Lemma absent_exact_combo p ranges board dead threads cancelled sched o player j k : usable ranges ->
  exact_equity p ranges board dead threads cancelled sched = Ret (ROk o) -> N.of_nat (length ranges) <= player -> p = Debug \/ player <= 2 ^ 53 -> nth_error kinds j = Some k ->
  let answer := get_combo_result p (r_combo_results (o_results o)) player (kind_name k) in answer = Fail IndexOOB \/ p = Debug /\ answer = Fail Overflow.
Proof.
  intros Hu H Hp Hb Hk. cbv zeta. apply (absent_combo p _ (length ranges) player j k); try assumption. rewrite (tb_combos _ _ _ _ _ (run_tables _ _ _ _ _ _ _ _ Hu H)).
  rewrite (flat_map_const _ 169); [rewrite seq_length; reflexivity|]. intros x. rewrite map_length, seq_length. reflexivity.
Qed.
Lemma absent_approx p ranges board dead threads target cancelled shuf rngs fuel sched o player a b : Forall range_ok ranges -> permutes shuf ->
  approx_equity p ranges board dead threads target cancelled shuf rngs fuel sched = Ret (ROk o) -> N.of_nat (length ranges) <= player -> p = Debug \/ player <= 2 ^ 53 -> hole a b -> name_order a b ->
  let answer := get_hand_result p (r_hand_results (o_results o)) player (hand_name a b) in answer = Fail IndexOOB \/ p = Debug /\ answer = Fail Overflow.
Proof.
  intros Hr Hs H Hp Hb Hab Ho. exact (absent_hand p _ _ player a b (tb_hands _ _ _ _ _ (approx_tables _ _ _ _ _ _ _ _ _ _ _ _ Hr Hs H)) Hp Hb Hab Ho).
Qed.
