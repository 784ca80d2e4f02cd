(* The evaluator agrees with the rules of poker: lifting of the checks of EvalCheck.v. *)
From Verif Require Import Base BaseProofs Hand SpecPoker ListFacts PokerFacts EvalCheck HandProofs.
From Coq Require Import Permutation FMapPositive.
Local Open Scope N_scope.

(* ------------------------------------------------------------------------- *)
(** * Strengths as numbers *)

Definition wf (n : nat) (s : list N) : Prop := (length s <= n)%nat /\ Forall (fun x => x < 13) s.

Lemma wf_tail n x s : wf (S n) (x :: s) -> x < 13 /\ wf n s.
Proof. intros [H1 H2]. inversion H2; subst. cbn in H1. repeat split; try assumption; lia. Qed.

Lemma pow14 n : 14 ^ N.of_nat (S n) = 14 * 14 ^ N.of_nat n.
Proof. rewrite Nat2N.inj_succ, N.pow_succ_r'. reflexivity. Qed.

Lemma code_lt n : forall s, wf n s -> code n s < 14 ^ N.of_nat n.
Proof.
  induction n as [|n IH]; intros s Hs; [reflexivity|].
  destruct s as [|x s]; cbn [code].
  - apply N.neq_0_lt_0, N.pow_nonzero; discriminate.
  - apply wf_tail in Hs as [Hx Hs]. specialize (IH s Hs). rewrite pow14.
    revert IH. generalize (14 ^ N.of_nat n) (code n s). intros P c Hc. nia.
Qed.

Lemma code_lex n : forall a b, wf n a -> wf n b -> N.compare (code n a) (code n b) = lex a b.
Proof.
  induction n as [|n IH]; intros a b Ha Hb.
  - destruct Ha as [Ha _], Hb as [Hb _]. destruct a, b; cbn in *; try lia. reflexivity.
  - destruct a as [|x a], b as [|y b]; cbn [code lex].
    + reflexivity.
    + apply N.compare_lt_iff. assert (0 < 14 ^ N.of_nat n) by (apply N.neq_0_lt_0, N.pow_nonzero; discriminate).
      revert H. generalize (14 ^ N.of_nat n). intros P HP. nia.
    + apply N.compare_gt_iff. assert (0 < 14 ^ N.of_nat n) by (apply N.neq_0_lt_0, N.pow_nonzero; discriminate).
      revert H. generalize (14 ^ N.of_nat n). intros P HP. nia.
    + apply wf_tail in Ha as [Hx Ha]. apply wf_tail in Hb as [Hy Hb].
      pose proof (code_lt n a Ha) as H1. pose proof (code_lt n b Hb) as H2. specialize (IH a b Ha Hb).
      revert H1 H2 IH. generalize (14 ^ N.of_nat n) (code n a) (code n b). intros P ca cb H1 H2 IH.
      destruct (N.compare_spec x y) as [E|E|E].
      * subst y. rewrite <- IH. destruct (N.compare_spec ca cb) as [E|E|E].
        -- apply N.compare_eq_iff. lia.
        -- apply N.compare_lt_iff. lia.
        -- apply N.compare_gt_iff. lia.
      * apply N.compare_lt_iff. nia.
      * apply N.compare_gt_iff. nia.
Qed.

Lemma wf_lmax n ls : Forall (wf n) ls -> wf n (lmax ls).
Proof.
  intros H. destruct ls as [|x ls]; [split; [apply Nat.le_0_l|constructor]|].
  rewrite Forall_forall in H. apply H, lmax_in. discriminate.
Qed.

Lemma code_lmax n ls : Forall (wf n) ls -> code n (lmax ls) = fold_right N.max 0 (map (code n) ls).
Proof.
  induction ls as [|x ls IH]; intros H; [destruct n; reflexivity|].
  inversion H; subst. cbn [map fold_right]. rewrite <- IH by assumption.
  change (lmax (x :: ls)) with (lex_max x (lmax ls)). unfold lex_max.
  rewrite <- (code_lex n) by (assumption || apply wf_lmax; assumption).
  destruct (N.compare_spec (code n x) (code n (lmax ls))); lia.
Qed.

Lemma code_head s : wf 6 s -> s <> [] -> code 6 s / 14 ^ 5 = hd 0 s + 1.
Proof.
  intros Hs Hne. destruct s as [|x s]; [congruence|]. cbn [hd].
  change (code 6 (x :: s)) with ((x + 1) * 14 ^ N.of_nat 5 + code 5 s).
  apply wf_tail in Hs as [_ Hs]. apply code_lt in Hs.
  change (N.of_nat 5) with 5 in *. symmetry. apply N.div_unique with (code 5 s); [assumption|]. lia.
Qed.

(* ------------------------------------------------------------------------- *)
(** * The checks *)

Lemma tables_ok_spec m nf fl vs : tables_ok m nf fl vs = true ->
  nf_ok m nf = true /\ fl_ok m fl = true /\ increasing m 0 vs = true.
Proof.
  unfold tables_ok. intros H. apply andb_prop in H as [H H3]. apply andb_prop in H as [H1 H2].
  exact (conj H1 (conj H2 H3)).
Qed.
Lemma checks : memo_ok false memo_nf small_lists = true /\ memo_ok true memo_fl flush_fives = true /\
  nf_ok values all_lists = true /\ fl_ok values flush_lists = true /\ increasing values 0 all_values = true.
Proof.
  destruct (andb_prop _ _ eval_check_true) as [H H3]. destruct (andb_prop _ _ H) as [H1 H2].
  exact (conj H1 (conj H2 (tables_ok_spec values _ _ _ H3))).
Qed.
Lemma nf_ok_spec m ls l : nf_ok m ls = true -> In l ls ->
  (if (2 <=? length l)%nat
   then entered m (nf_value (rank_sum l)) (best_code memo_nf l)
   else match nf_value (rank_sum l) with Ret _ => true | Fail _ => false end) = true.
Proof. intros H Hl. exact (forallb_In _ ls H l Hl). Qed.
Lemma fl_ok_spec m ls l : fl_ok m ls = true -> In l ls ->
  entered m (fl_value (rank_bits l)) (best_code memo_fl l) = true.
Proof. intros H Hl. exact (forallb_In _ ls H l Hl). Qed.
(* nothing below may evaluate these *)
#[local] Opaque values memo_nf memo_fl.

Lemma memo_spec f m ls l : memo_ok f m ls = true -> In l ls ->
  look m l = code 6 (strength_ranks f l) /\ wf 6 (strength_ranks f l).
Proof.
  unfold memo_ok. intros H Hl. apply forallb_In with (x := l) in H; [|assumption].
  unfold look. destruct (PositiveMap.find _ m) as [c|]; [|discriminate].
  cbv zeta in H. apply andb_prop in H as [H H3]. apply andb_prop in H as [H1 H2].
  apply N.eqb_eq in H1. apply Nat.leb_le in H2. split; [assumption|]. split; [assumption|].
  apply Forall_forall. intros x Hx. apply forallb_In with (x := x) in H3; [|assumption].
  apply N.ltb_lt. assumption.
Qed.

Lemma best_code_spec f m ls l : memo_ok f m ls = true ->
  (forall s, In s (choose (Nat.min 5 (length l)) l) -> In s ls) ->
  best_code m l = code 6 (best_ranks f l) /\ wf 6 (best_ranks f l).
Proof.
  intros Hm Hsub. unfold best_code, best_ranks.
  assert (Hwf : Forall (wf 6) (map (strength_ranks f) (choose (Nat.min 5 (length l)) l))).
  { apply Forall_forall. intros s Hs. apply in_map_iff in Hs as (t & <- & Ht).
    apply (memo_spec f m ls); auto. }
  split; [|apply wf_lmax; assumption].
  rewrite code_lmax by assumption. f_equal. rewrite map_map. apply map_ext_in.
  intros s Hs. apply (memo_spec f m ls); auto.
Qed.

(* ------------------------------------------------------------------------- *)
(** * Coverage of the checked lists *)

Lemma multis_intro (f : N -> nat) : forall rs n, (forall r, In r rs -> (f r <= 4)%nat) ->
  (length (flat_map (fun r => repeat r (f r)) rs) <= n)%nat ->
  In (flat_map (fun r => repeat r (f r)) rs) (multis rs n).
Proof.
  induction rs as [|r rs IH]; intros n Hf Hl; [left; reflexivity|].
  cbn [flat_map multis] in *. rewrite app_length, repeat_length in Hl.
  apply in_flat_map. exists (f r). split.
  - apply in_seq. pose proof (Hf r (or_introl eq_refl)). lia.
  - apply in_map. apply IH; [intros x Hx; apply Hf; right; assumption|]. lia.
Qed.

Lemma multis_choose : forall rs n l k m s, In l (multis rs n) -> In s (choose k l) -> (k <= m)%nat ->
  In s (multis rs m).
Proof.
  induction rs as [|r rs IH]; intros n l k m s Hl Hs Hk.
  - cbn in Hl. destruct Hl as [<-|[]]. destruct k; cbn in Hs; [|destruct Hs]. exact Hs.
  - cbn [multis] in Hl. apply in_flat_map in Hl as (j & Hj & Hl). apply in_seq in Hj.
    apply in_map_iff in Hl as (l' & <- & Hl').
    apply choose_app in Hs as (i & s1 & s2 & -> & Hi & H1 & H2).
    apply choose_repeat in H1 as [-> Hij].
    cbn [multis]. apply in_flat_map. exists i. split; [apply in_seq; lia|].
    apply in_map. apply (IH (n - j)%nat l' (k - i)%nat); try assumption. lia.
Qed.

Definition canon (l : list N) : list N := flat_map (fun r => repeat r (occurs r l)) all_ranks.

Lemma all_ranks_NoDup : NoDup all_ranks.
Proof. repeat constructor; cbn; intuition discriminate. Qed.
Lemma all_ranks_In r : In r all_ranks <-> r < 13.
Proof.
  split.
  - intros H. cbn in H. repeat (destruct H as [<-|H]; [reflexivity|]). destruct H.
  - intros H. assert (Hm : In r (nseq 0 13)) by (apply nseq_In; lia).
    cbn in Hm. cbn. tauto.
Qed.

Lemma canon_perm l : Forall (fun r => r < 13) l -> Permutation l (canon l).
Proof.
  intros H. apply (Permutation_count_occ N.eq_dec). intros x. unfold canon.
  rewrite count_occ_flat_repeat by apply all_ranks_NoDup.
  destruct (in_dec N.eq_dec x all_ranks) as [Hin|Hin]; [reflexivity|].
  apply count_occ_not_In. intros Hx. apply Hin, all_ranks_In.
  rewrite Forall_forall in H. auto.
Qed.
Lemma canon_in l n : Forall (fun r => r < 13) l -> (forall r, (occurs r l <= 4)%nat) ->
  (length l <= n)%nat -> In (canon l) (multis all_ranks n).
Proof.
  intros Hr Ho Hl. apply multis_intro; [intros r _; apply Ho|].
  fold (canon l). rewrite <- (Permutation_length (canon_perm l Hr)). assumption.
Qed.

Lemma choose_choose {A} (L : list A) : forall n l k s,
  In l (choose n L) -> In s (choose k l) -> In s (choose k L).
Proof.
  induction L as [|x L IH]; intros n l k s Hl Hs.
  - destruct n; cbn in Hl; [|destruct Hl]. destruct Hl as [<-|[]]. assumption.
  - destruct n as [|n].
    + rewrite choose_0 in Hl. destruct Hl as [<-|[]]. destruct k; cbn in Hs; [|destruct Hs].
      rewrite choose_0. assumption.
    + cbn in Hl. destruct k as [|k]; [rewrite choose_0 in *; assumption|].
      cbn. apply in_or_app. apply in_app_or in Hl as [Hl|Hl].
      * apply in_map_iff in Hl as (t & <- & Ht). cbn in Hs. apply in_app_or in Hs as [Hs|Hs].
        -- left. apply in_map_iff in Hs as (u & <- & Hu). apply in_map. eauto.
        -- right. eauto.
      * right. eauto.
Qed.

(* ------------------------------------------------------------------------- *)
(** * Values *)

Definition valued (v : N) (s : list N) : Prop :=
  v < 40000 /\ v / 4096 = code 6 s / 14 ^ 5 /\ wf 6 s /\
  PositiveMap.find (N.succ_pos v) values = Some (code 6 s).

Lemma entered_spec m o c : entered m o c = true -> exists v, o = Ret v /\ v < 40000 /\
  v / 4096 = c / 14 ^ 5 /\ PositiveMap.find (N.succ_pos v) m = Some c.
Proof.
  unfold entered. destruct o as [v|]; [|discriminate]. intros H.
  apply andb_prop in H as [H H3]. apply andb_prop in H as [H1 H2].
  apply N.ltb_lt in H1. apply N.eqb_eq in H2. exists v. repeat split; try assumption.
  destruct (PositiveMap.find (N.succ_pos v) m); [|discriminate]. apply N.eqb_eq in H3. congruence.
Qed.

Lemma nf_spec l : Forall (fun r => r < 13) l -> (forall r, (occurs r l <= 4)%nat) ->
  (length l <= 7)%nat ->
  exists v, nf_value (rank_sum l) = Ret v /\ ((2 <= length l)%nat -> valued v (best_ranks false l)).
Proof.
  intros Hr Ho Hl.
  pose proof (canon_perm l Hr) as Hp. pose proof (canon_in l 7 Hr Ho Hl) as Hin.
  rewrite (rank_sum_perm _ _ Hp), (best_ranks_perm false _ _ Hp), (Permutation_length Hp).
  revert Hin. generalize (canon l). clear l Hr Ho Hl Hp. intros l Hin.
  destruct checks as (Hm & _ & Hnf & _ & _).
  apply nf_ok_spec with (l := l) in Hnf; [|exact Hin].
  destruct (Nat.leb_spec 2 (length l)) as [H2|H2].
  - destruct (best_code_spec false memo_nf small_lists l Hm) as [Hc Hwf].
    { intros s Hs. apply (multis_choose all_ranks 7 l (Nat.min 5 (length l)) 5); try assumption. lia. }
    rewrite Hc in Hnf. apply entered_spec in Hnf as (v & Hv & H3 & H4 & H5).
    exists v. split; [assumption|]. intros _. repeat split; try assumption; apply Hwf.
  - destruct (nf_value (rank_sum l)) as [v|]; [|discriminate]. exists v. split; [reflexivity|]. lia.
Qed.

Lemma flush_in ds : NoDup ds -> Forall (fun r => r < 13) ds -> (5 <= length ds <= 7)%nat ->
  exists l, Permutation ds l /\ In l flush_lists /\ In l (choose (length l) all_ranks).
Proof.
  intros Hn Hr Hl. exists (filter (fun r => if in_dec N.eq_dec r ds then true else false) all_ranks).
  set (l := filter _ _).
  assert (Hp : Permutation ds l).
  { apply NoDup_Permutation; [assumption|apply NoDup_filter, all_ranks_NoDup|].
    intros x. unfold l. rewrite filter_In, all_ranks_In. destruct (in_dec N.eq_dec x ds) as [H|H].
    - rewrite Forall_forall in Hr. split; auto.
    - split; [contradiction|]. intros [_ E]. discriminate. }
  pose proof (choose_filter (fun r => if in_dec N.eq_dec r ds then true else false) all_ranks) as Hc.
  fold l in Hc. split; [assumption|]. split; [|assumption].
  pose proof (Permutation_length Hp) as E. rewrite !in_app_iff.
  assert (H : length l = 5%nat \/ length l = 6%nat \/ length l = 7%nat) by lia.
  destruct H as [H|[H|H]]; rewrite H in Hc; tauto.
Qed.

Lemma fl_spec ds : NoDup ds -> Forall (fun r => r < 13) ds -> (5 <= length ds <= 7)%nat ->
  exists v, fl_value (rank_bits ds) = Ret v /\ valued v (best_ranks true ds).
Proof.
  intros Hn Hr Hl. destruct (flush_in ds Hn Hr Hl) as (l & Hp & Hin & Hch).
  rewrite (rank_bits_perm _ _ Hp), (best_ranks_perm true _ _ Hp).
  assert (Hl' : (5 <= length l)%nat) by (rewrite <- (Permutation_length Hp); lia). clear ds Hn Hr Hl Hp.
  destruct checks as (_ & Hm & _ & Hfl & _).
  apply fl_ok_spec with (l := l) in Hfl; [|exact Hin].
  destruct (best_code_spec true memo_fl flush_fives l Hm) as [Hc Hwf].
  { intros s Hs. apply (choose_choose all_ranks (length l) l); [assumption|].
    rewrite Nat.min_l in Hs by assumption. assumption. }
  rewrite Hc in Hfl. apply entered_spec in Hfl as (v & Hv & H3 & H4 & H5).
  exists v. split; [assumption|]. repeat split; try assumption; apply Hwf.
Qed.

Lemma increasing_spec m : forall n a prev, increasing m prev (nseq a n) = true ->
  forall v c, a <= v < a + N.of_nat n -> PositiveMap.find (N.succ_pos v) m = Some c ->
  prev < c /\ forall w d, v < w < a + N.of_nat n -> PositiveMap.find (N.succ_pos w) m = Some d -> c < d.
Proof.
  induction n as [|n IH]; intros a prev H v c Hv Hc; [lia|].
  cbn [nseq increasing] in H.
  destruct (N.eq_dec a v) as [->|Hne].
  - rewrite Hc in H. apply andb_prop in H as [H1 H]. apply N.ltb_lt in H1. split; [assumption|].
    intros w d Hw Hd. apply (IH _ _ H w d); [lia|assumption].
  - destruct (PositiveMap.find (N.succ_pos a) m) as [e|].
    + apply andb_prop in H as [H1 H]. apply N.ltb_lt in H1.
      destruct (IH _ _ H v c) as [H2 H3]; [lia|assumption|]. split; [lia|].
      intros w d Hw Hd. apply (H3 w d); [lia|assumption].
    + destruct (IH _ _ H v c) as [H2 H3]; [lia|assumption|]. split; [assumption|].
      intros w d Hw Hd. apply (H3 w d); [lia|assumption].
Qed.

Lemma valued_lt v w s t : valued v s -> valued w t -> v < w -> lex s t = Lt.
Proof.
  intros (Hv & _ & Hws & Hs) (Hw & _ & Hwt & Ht) Hlt.
  rewrite <- (code_lex 6) by assumption. apply N.compare_lt_iff.
  destruct checks as (_ & _ & _ & _ & Hinc).
  destruct (increasing_spec values (N.to_nat 40000) 0 0 Hinc v (code 6 s)) as [_ H].
  - rewrite N2Nat.id. lia.
  - assumption.
  - apply (H w); [rewrite N2Nat.id; lia|assumption].
Qed.

Lemma valued_compare v w s t : valued v s -> valued w t -> N.compare v w = lex s t.
Proof.
  intros Hv Hw. destruct (N.compare_spec v w) as [E|E|E].
  - subst w. destruct Hv as (_ & _ & Hws & Hs), Hw as (_ & _ & Hwt & Ht).
    rewrite <- (code_lex 6) by assumption. symmetry. apply N.compare_eq_iff. congruence.
  - symmetry. eapply valued_lt; eassumption.
  - rewrite lex_opp. rewrite (valued_lt w v t s Hw Hv E). reflexivity.
Qed.

Lemma valued_category v s : valued v s -> s <> [] -> v / 4096 = hd 0 s + 1.
Proof. intros (_ & H & Hw & _) Hne. rewrite H. apply code_head; assumption. Qed.

(* ------------------------------------------------------------------------- *)
(** * best through ranks *)

Lemma best_flush l i : cards l -> (length l <= 7)%nat -> (5 <= nsuit i l)%nat ->
  best l = best_ranks true (map rank_of (suited i l)).
Proof.
  intros [Hn Hc] Hl Hi.
  assert (Hle : (nsuit i l <= length l)%nat) by apply filter_length_le.
  unfold best. fold (lmax (map strength (choose (Nat.min 5 (length l)) l))).
  rewrite Nat.min_l by lia.
  unfold best_ranks. rewrite map_length, choose_map, map_map.
  fold (nsuit i l). rewrite Nat.min_l by assumption.
  assert (Hstr : forall h, In h (choose 5 (suited i l)) -> strength h = strength_ranks true (map rank_of h)).
  { intros h Hh. unfold strength. replace (is_flush h) with true; [reflexivity|].
    symmetry. apply is_flush_spec. split; [eapply choose_length; eassumption|].
    pose proof (choose_incl _ _ _ Hh) as Hin. pose proof (choose_length _ _ _ Hh) as Hlen.
    exists i. split.
    - destruct h as [|c h]; [discriminate|]. specialize (Hin c (or_introl eq_refl)).
      apply suited_spec in Hin as [_ <-]. apply suit_lt.
    - unfold nsuit, suited. rewrite filter_all; [assumption|]. apply forallb_forall. intros c Hcc.
      apply Hin, suited_spec in Hcc as [_ E]. apply N.eqb_eq. assumption. }
  assert (Hne : choose 5 (suited i l) <> []) by (apply choose_nonempty; assumption).
  set (m := lmax (map (fun h => strength_ranks true (map rank_of h)) (choose 5 (suited i l)))).
  assert (Hm : In m (map (fun h => strength_ranks true (map rank_of h)) (choose 5 (suited i l)))).
  { apply lmax_in. intros E. apply map_eq_nil in E. contradiction. }
  apply lmax_unique.
  - apply in_map_iff in Hm as (h & <- & Hh). apply in_map_iff. exists h. split; [auto|].
    eapply choose_of_filter; exact Hh.
  - intros x Hx. apply in_map_iff in Hx as (h & <- & Hh).
    pose proof (choose_length _ _ _ Hh) as Hlen.
    destruct (forallb (fun c => suit_of c =? i) h) eqn:Hall.
    + pose proof (choose_filter_in _ _ _ _ Hh Hall) as Hh'. fold (suited i l) in Hh'.
      rewrite (Hstr h Hh'). apply lmax_ub. apply in_map_iff. exists h. auto.
    + assert (Hnf : is_flush h = false).
      { apply not_true_iff_false. intros Hf. apply is_flush_spec in Hf as (_ & j & Hj & Hj5).
        destruct (N.eq_dec j i) as [->|Hji].
        - assert (Hff : is_flush h = true) by (apply is_flush_spec; split; [assumption|exists i; auto]).
          clear Hff. unfold nsuit, suited in Hj5. rewrite <- Hlen in Hj5.
          assert (Hx : forall l : list N, length (filter (fun c => suit_of c =? i) l) = length l ->
                       forallb (fun c => suit_of c =? i) l = true).
          { clear. induction l as [|c l IH]; [reflexivity|]. cbn. destruct (suit_of c =? i); cbn.
            - intros H. apply IH. lia.
            - intros H. pose proof (filter_length_le (fun c => suit_of c =? i) l). lia. }
          rewrite (Hx h Hj5) in Hall. discriminate.
        - pose proof (nsuit_choose j _ _ _ Hh) as Hjl. pose proof (nsuit_sum l) as Hsum.
          assert (Hi4 : i < 4).
          { destruct (suited i l) as [|c u] eqn:E.
            - unfold nsuit in Hi. rewrite E in Hi. cbn in Hi. lia.
            - assert (Hcin : In c (suited i l)) by (rewrite E; left; reflexivity).
              apply suited_spec in Hcin as [_ <-]. apply suit_lt. }
          assert (Hi' : i = 0 \/ i = 1 \/ i = 2 \/ i = 3) by lia.
          assert (Hj' : j = 0 \/ j = 1 \/ j = 2 \/ j = 3) by lia.
          destruct Hi' as [->|[->|[->| ->]]], Hj' as [->|[->|[->| ->]]]; try congruence; lia. }
      pose proof (choose_left_out _ _ _ i Hh) as Hlo.
      pose proof (weak_without_flush h i (choose_NoDup _ _ _ Hn Hh) Hlen) as Hweak.
      unfold strength. rewrite Hnf.
      specialize (Hweak ltac:(lia)).
      apply in_map_iff in Hm as (g & <- & Hg).
      pose proof (strong_with_flush (map rank_of g)) as Hstrong.
      destruct (strength_ranks false (map rank_of h)) as [|x xs]; [destruct Hweak|].
      destruct (strength_ranks true (map rank_of g)) as [|y ys]; [destruct Hstrong|].
      unfold lle. cbn [lex]. assert (Hxy : x < y) by lia. apply N.compare_lt_iff in Hxy. rewrite Hxy.
      discriminate.
Qed.

Lemma best_nonempty l : best l <> [].
Proof.
  unfold best. fold (lmax (map strength (choose (Nat.min 5 (length l)) l))). intros E.
  assert (Hin : In (lmax (map strength (choose (Nat.min 5 (length l)) l)))
                   (map strength (choose (Nat.min 5 (length l)) l))).
  { apply lmax_in. intros H. apply map_eq_nil in H. revert H. apply choose_nonempty. lia. }
  rewrite E in Hin. apply in_map_iff in Hin as (h & Hh & _).
  unfold strength, strength_ranks in Hh. destruct (straight_top _); [|discriminate].
  destruct (is_flush h); discriminate.
Qed.

(* ------------------------------------------------------------------------- *)
(** * evaluate *)

Lemma ranks_ok l : cards l ->
  Forall (fun r => r < 13) (map rank_of l) /\ forall r, (occurs r (map rank_of l) <= 4)%nat.
Proof.
  intros [Hn Hc]. split.
  - apply Forall_map. eapply Forall_impl; [|exact Hc]. intros c. apply rank_lt.
  - intros r. apply occurs_rank_le4. assumption.
Qed.

Lemma evaluate_without_flush_of b l h : cards l -> b = base \/ b = 0 -> (length l <= 7)%nat -> hand_of b l h ->
  exists v, evaluate_without_flush h = Ret v /\
            ((2 <= length l)%nat -> valued v (best_ranks false (map rank_of l))).
Proof.
  intros Hc Hb Hl Hh. destruct (ranks_ok l Hc) as [Hr Ho].
  destruct (nf_spec (map rank_of l) Hr Ho) as (v & Hv & Hval); [rewrite map_length; assumption|].
  exists v. rewrite map_length in Hval. split; [|assumption].
  unfold evaluate_without_flush. cbv zeta. rewrite (get_rank_key_of b l h); [exact Hv|..]; auto; try lia.
Qed.

Lemma evaluate_of l h : cards l -> (length l <= 7)%nat -> hand_of base l h ->
  exists v, evaluate h = Ret v /\ ((2 <= length l)%nat -> valued v (best l)).
Proof.
  intros Hc Hl Hh.
  assert (Hf : fits l) by (apply fits_of_length; lia).
  unfold evaluate. rewrite (has_flush_of l h) by (assumption || lia).
  destruct (flush_of l) as [i|] eqn:Ei.
  - destruct (flush_of_some l i Ei) as [Hi4 Hi].
    rewrite (get_flush_key_of l h) with (i := i); try assumption; [|lia|apply Hc].
    rewrite (best_flush l i Hc Hl Hi).
    destruct (fl_spec (map rank_of (suited i l))) as (v & Hv & Hval).
    + apply suit_ranks_NoDup with i; [apply NoDup_filter, Hc|].
      apply Forall_forall. intros c Hcc. apply suited_spec in Hcc. tauto.
    + apply Forall_map. apply Forall_forall. intros c Hcc. apply suited_spec in Hcc as [Hcc _].
      apply rank_lt. destruct Hc as [_ Hc]. rewrite Forall_forall in Hc. auto.
    + rewrite map_length. fold (nsuit i l). pose proof (filter_length_le (fun c => suit_of c =? i) l) as Hle.
      unfold nsuit, suited in *. lia.
    + exists v. split; [exact Hv|]. intros _. assumption.
  - rewrite (best_no_flush l) by (apply flush_of_none; assumption).
    apply (evaluate_without_flush_of base l h); auto.
Qed.
