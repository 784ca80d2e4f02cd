(* Proofs about the range parser: it returns on every text, and reads well-formed terms. *)
From Verif Require Import Base BaseProofs Hand Range SpecPoker SpecNames SpecText SpecRange PokerFacts IndexProofs TextProofs RangeProofs.
From Coq Require Import Sorted.
Local Open Scope N_scope.

Lemma skipn_get {A} (cs : list A) i c rest : skipn i cs = c :: rest -> get cs i = Ret c /\ skipn (S i) cs = rest.
Proof.
  revert i. induction cs as [|x cs IH]; intros i H; [destruct i; discriminate H|].
  destruct i as [|i]; cbn [skipn] in H.
  - injection H as -> ->. split; reflexivity.
  - destruct (IH i H) as [H1 H2]. split; [exact H1|]. exact H2.
Qed.

(* ------------------------------------------------------------------------- *)
(** * The cursor never passes the final blank *)

Definition live (cs : list char) (i n : nat) : Prop := exists rest, skipn i cs = rest ++ [32] /\ length rest = n.

Lemma live_get cs i n : live cs i n -> exists c, get cs i = Ret c /\ (c <> 32 -> exists n', n = S n' /\ live cs (S i) n').
Proof.
  intros (rest & H & Hl). destruct rest as [|c rest]; cbn [app] in H; apply skipn_get in H as [H1 H2].
  - exists 32. split; [exact H1|]. intros E; exfalso; apply E; reflexivity.
  - exists c. split; [exact H1|]. intros _. destruct n as [|n]; [discriminate Hl|]. exists n. split; [reflexivity|].
    exists rest. split; [exact H2|]. now injection Hl.
Qed.

Lemma char_to_rank_blank : char_to_rank 32 = U8MAX. Proof. reflexivity. Qed.
Lemma char_to_suit_blank : char_to_suit 32 = U8MAX. Proof. reflexivity. Qed.

Lemma parse_char_live cs i n a : char_of_ascii a <> 32 -> live cs i n ->
  exists b i' n', parse_char cs i a = Ret (b, i') /\ live cs i' n' /\ (n' <= n)%nat /\ (b = true -> (n' < n)%nat).
Proof.
  intros Ha H. destruct (live_get _ _ _ H) as (c & Hg & Hs). unfold parse_char. rewrite Hg. cbn [bind].
  unfold is_char. destruct (N.eqb_spec c (char_of_ascii a)) as [E|E].
  - destruct Hs as (n' & -> & Hn'); [congruence|]. exists true, (S i), n'. auto with arith.
  - exists false, i, n. repeat split; auto. discriminate.
Qed.

Lemma parse_rank_live cs i n : live cs i n ->
  exists b r i' n', parse_rank cs i = Ret (b, r, i') /\ live cs i' n' /\ (n' <= n)%nat /\
    (b = true -> (n' < n)%nat /\ r < 13).
Proof.
  intros H. destruct (live_get _ _ _ H) as (c & Hg & Hs). unfold parse_rank. rewrite Hg. cbn [bind]. cbv zeta.
  destruct (char_to_rank_cases c) as [(r & Hr & E & _)|(E & _)]; rewrite E.
  - replace (r =? U8MAX) with false by (symmetry; apply N.eqb_neq; unfold U8MAX; lia).
    destruct Hs as (n' & -> & Hn'); [intros ->; rewrite char_to_rank_blank in E; unfold U8MAX in E; lia|].
    exists true, r, (S i), n'. auto with arith.
  - rewrite N.eqb_refl. exists false, U8MAX, i, n. repeat split; auto; discriminate.
Qed.

Lemma parse_suit_live cs i n : live cs i n ->
  exists b s i' n', parse_suit cs i = Ret (b, s, i') /\ live cs i' n' /\ (n' <= n)%nat /\ (b = true -> s < 4).
Proof.
  intros H. destruct (live_get _ _ _ H) as (c & Hg & Hs). unfold parse_suit. rewrite Hg. cbn [bind]. cbv zeta.
  destruct (char_to_suit_cases c) as [(r & Hr & E & _)|(E & _)]; rewrite E.
  - replace (r =? U8MAX) with false by (symmetry; apply N.eqb_neq; unfold U8MAX; lia).
    destruct Hs as (n' & -> & Hn'); [intros ->; rewrite char_to_suit_blank in E; unfold U8MAX in E; lia|].
    exists true, r, (S i), n'. auto with arith.
  - rewrite N.eqb_refl. exists false, U8MAX, i, n. repeat split; auto; discriminate.
Qed.

(* either returns with the property P, or is a checked build stopped by an overflow *)
Definition runs {A} (p : profile) (m : outcome A) (P : A -> Prop) : Prop :=
  (exists a, m = Ret a /\ P a) \/ (p = Debug /\ m = Fail Overflow).

Lemma runs_ret {A} p (m : outcome A) a (P : A -> Prop) : m = Ret a -> P a -> runs p m P.
Proof. intros E H. left. eauto. Qed.
Lemma runs_bind {A B} p (m : outcome A) (k : A -> outcome B) (P : A -> Prop) (Q : B -> Prop) :
  runs p m P -> (forall a, P a -> runs p (k a) Q) -> runs p (bind m k) Q.
Proof.
  intros [(a & -> & H)|[-> ->]] K; [exact (K a H)|]. right. auto.
Qed.
Lemma add_runs w p a b : runs p (add_ w p a b) (fun _ => True).
Proof. unfold add_, on_overflow, runs. destruct (a + b <? 2 ^ w); [left; eauto|]. destruct p; [right; auto|left; eauto]. Qed.
Lemma mul_runs w p a b : runs p (mul_ w p a b) (fun _ => True).
Proof. unfold mul_, on_overflow, runs. destruct (a * b <? 2 ^ w); [left; eauto|]. destruct p; [right; auto|left; eauto]. Qed.

Definition live_le (cs : list char) (n : nat) (i' : nat) : Prop := exists n', live cs i' n' /\ (n' <= n)%nat.

Lemma to_digit_blank : to_digit 32 = None. Proof. reflexivity. Qed.

Lemma parse_weight_loop_runs p cs backtrack : forall fuel i n number weight,
  live cs i n -> (n < fuel)%nat -> weight <= 100 ->
  forall nb, live cs backtrack nb -> (n <= nb)%nat ->
  runs p (parse_weight_loop p fuel cs backtrack i number weight) (fun '(w, i') => w <= 100 /\ live_le cs nb i').
Proof.
  induction fuel as [|fuel IH]; intros i n number weight H Hf Hw nb Hb Hnb; [lia|].
  cbn [parse_weight_loop]. destruct (live_get _ _ _ H) as (c & Hg & Hs). rewrite Hg. cbn [bind].
  destruct (to_digit c) as [d|] eqn:E.
  - destruct Hs as (n' & -> & Hn'); [intros ->; rewrite to_digit_blank in E; discriminate|].
    eapply runs_bind; [apply mul_runs|]. intros m _. eapply runs_bind; [apply add_runs|]. intros m' _.
    apply IH with (n := n'); auto; lia.
  - destruct (N.ltb_spec 100 number).
    + eapply runs_ret; [reflexivity|]. split; [exact Hw|]. exists nb. auto.
    + eapply runs_ret; [reflexivity|]. rewrite trunc_small by (change (2 ^ 8) with 256; lia).
      split; [assumption|]. exists n. auto.
Qed.

Lemma live_length cs i n : live cs i n -> (n < length cs)%nat.
Proof.
  intros (rest & H & <-). pose proof (f_equal (@length char) H) as E. rewrite skipn_length, app_length in E. simpl in E. lia.
Qed.

Lemma parse_opt_weight_runs p cs i n : live cs i n ->
  runs p (parse_opt_weight p cs i) (fun '(w, i') => w <= 100 /\ live_le cs n i').
Proof.
  intros H. unfold parse_opt_weight.
  destruct (parse_char_live cs i n "@"%char ltac:(discriminate) H) as (b & i' & n' & -> & Hl & Hle & _). cbn [bind].
  destruct b.
  - destruct (parse_weight_loop_runs p cs i' (S (length cs)) i' n' 0 100 Hl) with (nb := n') as [(x & E & Hx)|E]; auto.
    + apply live_length in Hl. lia.
    + lia.
    + left. exists x. split; [exact E|]. destruct x as [w i2]. destruct Hx as (H1 & m & H2 & H3). split; [exact H1|].
      exists m. split; [exact H2|lia].
    + right. exact E.
  - eapply runs_ret; [reflexivity|]. split; [lia|]. exists n'. auto.
Qed.

Lemma parse_combos_dash_live cs r1 r2 su off i n : live cs i n ->
  exists ok r3 r4 i', parse_combos_dash cs r1 r2 su off i = Ret (ok, r3, r4, i') /\ live_le cs n i' /\
    (ok = true -> r3 < 13 /\ r4 < 13).
Proof.
  intros H. unfold parse_combos_dash.
  destruct (parse_rank_live cs i n H) as (ok3 & r3 & i3 & n3 & -> & L3 & N3 & K3). cbn [bind].
  destruct ok3; cbn [negb].
  2:{ do 4 eexists. split; [reflexivity|]. split; [exists n3; auto|discriminate]. }
  destruct (parse_rank_live cs i3 n3 L3) as (ok4 & r4 & i4 & n4 & -> & L4 & N4 & K4). cbn [bind].
  destruct ok4; cbn [negb].
  2:{ do 4 eexists. split; [reflexivity|]. split; [exists n4; split; [auto|lia]|discriminate]. }
  destruct (parse_char_live cs i4 n4 "o"%char ltac:(discriminate) L4) as (o & i5 & n5 & -> & L5 & N5 & _). cbn [bind].
  destruct (parse_char_live cs i5 n5 "s"%char ltac:(discriminate) L5) as (s & i6 & n6 & E6 & L6 & N6 & _).
  assert (A5 : live_le cs n i5) by (exists n5; split; [auto|lia]).
  assert (A6 : live_le cs n i6) by (exists n6; split; [auto|lia]).
  destruct (o && negb off). { do 4 eexists. split; [reflexivity|]. split; [auto|discriminate]. }
  destruct (o && su). { do 4 eexists. split; [reflexivity|]. split; [auto|discriminate]. }
  rewrite E6. cbn [bind].
  assert (K : r3 < 13 /\ r4 < 13) by (split; [apply K3|apply K4]; reflexivity).
  repeat match goal with |- context[if ?b then _ else _] => destruct b end;
    do 4 eexists; (split; [reflexivity|]); (split; [auto|]); first [discriminate | intros _; exact K].
Qed.

Lemma fold_add_wf {A} (f : list combo -> A -> list combo) l :
  (forall hs x, In x l -> Forall wfc hs -> Forall wfc (f hs x)) -> forall hs, Forall wfc hs -> Forall wfc (fold_left f l hs).
Proof.
  induction l as [|x l IH]; intros H hs Hh; [exact Hh|]. cbn [fold_left]. apply IH; [intros; apply H; [right; assumption|assumption]|].
  apply H; [left; reflexivity|exact Hh].
Qed.

Lemma add_combo_wf hands c1 c2 w : w <= 100 -> Forall wfc hands -> Forall wfc (add_combo hands c1 c2 w).
Proof.
  intros Hw Hh. destruct (N.ltb_spec 51 c1) as [L1|L1].
  { unfold add_combo. replace (51 <? c1) with true by (symmetry; now apply N.ltb_lt). exact Hh. }
  destruct (N.ltb_spec 51 c2) as [L2|L2].
  { unfold add_combo. replace (51 <? c2) with true by (symmetry; now apply N.ltb_lt). rewrite orb_true_r. exact Hh. }
  destruct (N.eq_dec c1 c2) as [->|E].
  { unfold add_combo. rewrite N.eqb_refl. destruct ((51 <? c2) || (51 <? c2)); exact Hh. }
  rewrite add_combo_ok by (unfold hole, is_card; lia). apply Forall_app. split; [exact Hh|]. constructor; [|constructor].
  unfold wfc, ordered, c_1, c_2, c_w. cbn [fst snd]. lia.
Qed.
Lemma add_combos_wf hands r1 r2 su off w : w <= 100 -> Forall wfc hands -> Forall wfc (add_combos hands r1 r2 su off w).
Proof.
  intros Hw Hh. unfold add_combos. cbv zeta.
  assert (G : Forall wfc (if su && negb (r1 =? r2) then fold_left (fun hs suit => add_combo hs (4 * r1 + suit) (4 * r2 + suit) w) [0; 1; 2; 3] hands else hands)).
  { destruct (su && negb (r1 =? r2)); [|exact Hh]. apply fold_add_wf; [|exact Hh]. intros; now apply add_combo_wf. }
  destruct off; [|exact G]. apply fold_add_wf; [|exact G]. intros hs s _ H. apply fold_add_wf; [|exact H].
  intros hs' t _ H'. destruct (negb (r1 =? r2)); repeat apply add_combo_wf; auto.
Qed.
Lemma add_combos_plus_wf hands r1 r2 su off w : w <= 100 -> Forall wfc hands -> Forall wfc (add_combos_plus hands r1 r2 su off w).
Proof.
  intros Hw Hh. unfold add_combos_plus. destruct (r1 =? r2); (apply fold_add_wf; [|exact Hh]); intros; now apply add_combos_wf.
Qed.
Lemma add_combos_dash_wf hands r1 r2 r3 r4 su off w : w <= 100 -> Forall wfc hands -> Forall wfc (add_combos_dash hands r1 r2 r3 r4 su off w).
Proof.
  intros Hw Hh. unfold add_combos_dash. cbv zeta.
  repeat match goal with |- context[if ?b then _ else _] => destruct b end; try exact Hh;
    (apply fold_add_wf; [|exact Hh]); intros; now apply add_combos_wf.
Qed.

Lemma parse_hand_runs p cs hands i n : live cs i n -> Forall wfc hands ->
  runs p (parse_hand p cs hands i) (fun '(ok, hands', i') =>
    Forall wfc hands' /\ (ok = true -> exists n', live cs i' n' /\ (n' < n)%nat)).
Proof.
  intros H Hh. unfold parse_hand. cbv zeta.
  destruct (parse_rank_live cs i n H) as (ok1 & r1 & i1 & n1 & -> & L1 & N1 & K1). cbn [bind].
  destruct ok1; cbn [negb].
  2:{ eapply runs_ret; [reflexivity|]. split; [exact Hh|discriminate]. }
  specialize (K1 eq_refl) as [K1 R1].
  destruct (parse_suit_live cs i1 n1 L1) as (ex & s1 & i2 & n2 & -> & L2 & N2 & K2). cbn [bind].
  destruct (parse_rank_live cs i2 n2 L2) as (ok2 & r2 & i3 & n3 & -> & L3 & N3 & K3). cbn [bind].
  destruct ok2; cbn [negb].
  2:{ eapply runs_ret; [reflexivity|]. split; [exact Hh|discriminate]. }
  destruct ex.
  - destruct (parse_suit_live cs i3 n3 L3) as (oks & s2 & i4 & n4 & -> & L4 & N4 & K4). cbn [bind].
    destruct oks; cbn [negb].
    2:{ eapply runs_ret; [reflexivity|]. split; [exact Hh|discriminate]. }
    destruct (4 * r1 + s1 =? 4 * r2 + s2). { eapply runs_ret; [reflexivity|]. split; [exact Hh|discriminate]. }
    eapply runs_bind; [exact (parse_opt_weight_runs p cs i4 n4 L4)|]. intros [w i5] (Hw & m & Lm & Nm).
    eapply runs_ret; [reflexivity|]. split; [now apply add_combo_wf|]. intros _. exists m. split; [exact Lm|lia].
  - destruct (parse_char_live cs i3 n3 "o"%char ltac:(discriminate) L3) as (o & i4 & n4 & -> & L4 & N4 & _). cbn [bind].
    assert (G : exists s i5 n5, (if o then Ret (false, i4) else parse_char cs i4 "s") = Ret (s, i5) /\ live cs i5 n5 /\ (n5 <= n4)%nat).
    { destruct o; [exists false, i4, n4; auto|].
      destruct (parse_char_live cs i4 n4 "s"%char ltac:(discriminate) L4) as (s & i5 & n5 & E & L5 & N5 & _). exists s, i5, n5. auto. }
    destruct G as (s & i5 & n5 & -> & L5 & N5). cbn [bind].
    destruct (parse_char_live cs i5 n5 "+"%char ltac:(discriminate) L5) as (plus & i6 & n6 & -> & L6 & N6 & _). cbn [bind].
    destruct plus.
    + eapply runs_bind; [exact (parse_opt_weight_runs p cs i6 n6 L6)|]. intros [w i7] (Hw & m & Lm & Nm).
      eapply runs_ret; [reflexivity|]. split; [now apply add_combos_plus_wf|]. intros _. exists m. split; [exact Lm|lia].
    + destruct (parse_char_live cs i6 n6 "-"%char ltac:(discriminate) L6) as (dash & i7 & n7 & -> & L7 & N7 & _). cbn [bind].
      destruct dash.
      * destruct (parse_combos_dash_live cs r1 r2 (negb o) (negb s) i7 n7 L7) as (okd & r3 & r4 & i8 & -> & (n8 & L8 & N8) & K8). cbn [bind].
        destruct okd; cbn [negb].
        2:{ eapply runs_ret; [reflexivity|]. split; [exact Hh|discriminate]. }
        eapply runs_bind; [exact (parse_opt_weight_runs p cs i8 n8 L8)|]. intros [w i9] (Hw & m & Lm & Nm).
        eapply runs_ret; [reflexivity|]. split; [now apply add_combos_dash_wf|]. intros _. exists m. split; [exact Lm|lia].
      * eapply runs_bind; [exact (parse_opt_weight_runs p cs i7 n7 L7)|]. intros [w i9] (Hw & m & Lm & Nm).
        eapply runs_ret; [reflexivity|]. split; [now apply add_combos_wf|]. intros _. exists m. split; [exact Lm|lia].
Qed.

Lemma parse_loop_runs p cs : forall fuel hands i n, live cs i n -> (n < fuel)%nat -> Forall wfc hands ->
  runs p (parse_loop p fuel cs hands i) (Forall wfc).
Proof.
  induction fuel as [|fuel IH]; intros hands i n H Hf Hh; [lia|]. cbn [parse_loop].
  eapply runs_bind; [exact (parse_hand_runs p cs hands i n H Hh)|]. intros [[ok hands'] i'] (Hh' & K).
  destruct ok; cbn [negb]; [|eapply runs_ret; [reflexivity|exact Hh']].
  destruct (K eq_refl) as (n' & L & Hlt).
  destruct (parse_char_live cs i' n' ","%char ltac:(discriminate) L) as (b & i2 & n2 & -> & L2 & N2 & _). cbn [bind].
  destruct b; [|eapply runs_ret; [reflexivity|exact Hh']]. apply IH with (n := n2); auto. lia.
Qed.

Lemma parse_lowered_runs p text : runs p (parse_lowered p text) (fun hs => Forall wfc hs /\ StronglySorted clt hs).
Proof.
  unfold parse_lowered. cbv zeta. change (char_of_ascii " "%char) with 32.
  assert (L : live (text ++ [32]) 0 (length text)) by (exists text; auto).
  eapply runs_bind; [apply (parse_loop_runs p (text ++ [32]) _ [] 0 (length text) L); [|constructor]|].
  - rewrite app_length. simpl. lia.
  - intros hs Hh. eapply runs_ret; [reflexivity|]. destruct (remove_duplicates_spec hs Hh) as (H1 & H2 & _). auto.
Qed.

(* ------------------------------------------------------------------------- *)
(** * random *)

Lemma add_all_eq hands : add_all hands = hands ++ flat_map (fun c1 => map (fun c2 => (c1, c2, 100)) (nseq 0 (N.to_nat c1))) (nseq 0 52).
Proof.
  unfold add_all. unfold n_range at 2. change (N.to_nat (CARD_COUNT - 0)) with 52%nat. apply fold_add. intros hs c1 Hc1. apply nseq_In in Hc1.
  rewrite (fold_add (fun hs c2 => add_combo hs c1 c2 100) (fun c2 => [(c1, c2, 100)])).
  - f_equal. unfold n_range. rewrite N.sub_0_r. generalize (nseq 0 (N.to_nat c1)). induction l as [|x l IH]; [reflexivity|]. cbn [flat_map map app]. now rewrite IH.
  - intros hs' c2 Hc2. unfold n_range in Hc2. apply nseq_In in Hc2. rewrite add_combo_ok by (unfold hole, is_card; lia).
    unfold ordered. rewrite N.max_l, N.min_r by lia. reflexivity.
Qed.

Lemma add_all_In a b w : In (a, b, w) (add_all []) <-> b < a /\ a < 52 /\ w = 100.
Proof.
  rewrite add_all_eq. cbn [app]. rewrite in_flat_map. split.
  - intros (c1 & H1 & H2). apply in_map_iff in H2 as (c2 & E & H2). injection E as -> -> ->.
    apply nseq_In in H1, H2. lia.
  - intros (H1 & H2 & ->). exists a. split; [apply nseq_In; lia|]. apply in_map_iff. exists b. split; [reflexivity|]. apply nseq_In. lia.
Qed.

Lemma add_all_NoDup : NoDup (map fst (add_all [])).
Proof.
  assert (G : forall l, NoDup l -> NoDup (map fst (flat_map (fun c1 => map (fun c2 => (c1, c2, 100)) (nseq 0 (N.to_nat c1))) l) : list (N * N))).
  { induction 1 as [|x l Hx HD IH]; [constructor|]. cbn [flat_map]. rewrite map_app. apply ListFacts.NoDup_app_intro; [|exact IH|].
    - rewrite map_map. cbn [fst]. apply FinFun.Injective_map_NoDup; [intros u v E; now injection E|apply nseq_NoDup].
    - intros y Hy Hy'. apply in_map_iff in Hy as (c & <- & Hc). apply in_map_iff in Hc as (u & <- & _).
      apply in_map_iff in Hy' as (c & E & Hc). apply in_flat_map in Hc as (v & Hv & Hc). apply in_map_iff in Hc as (t & <- & _).
      injection E as E1 _. congruence. }
  rewrite add_all_eq. apply G. apply nseq_NoDup.
Qed.

Lemma add_all_wf : Forall wfc (add_all []).
Proof. apply Forall_forall. intros c Hc. rewrite (combo_eta c) in Hc. apply add_all_In in Hc. unfold wfc. lia. Qed.

(* ------------------------------------------------------------------------- *)
(** * from_string on every text *)

Lemma clt_NoDup l : StronglySorted clt l -> NoDup (map fst l).
Proof.
  induction 1 as [|x l HS IH Hall]; [constructor|]. cbn [map]. constructor; [|exact IH].
  intros Hin. apply in_map_iff in Hin as (y & E & Hy). rewrite Forall_forall in Hall. apply Hall in Hy.
  assert (S : combo_cmp x y = Eq) by (apply combo_cmp_same; unfold same, c_1, c_2; now rewrite E). unfold clt in Hy. congruence.
Qed.

Lemma from_string_runs lower p text :
  runs p (from_string lower p text) (fun hs => Forall wfc hs /\ NoDup (map fst hs) /\
    (text <> chars "random" -> StronglySorted clt hs)).
Proof.
  unfold from_string. destruct (chars_eqb text (chars "random")) eqn:E.
  - eapply runs_ret; [reflexivity|]. split; [exact add_all_wf|]. split; [exact add_all_NoDup|].
    intros H. exfalso. apply H. now apply chars_eqb_eq.
  - destruct (parse_lowered_runs p (lower text)) as [(hs & E1 & H1 & H2)|R]; [|right; exact R].
    left. exists hs. split; [exact E1|]. split; [exact H1|]. split; [now apply clt_NoDup|auto].
Qed.
