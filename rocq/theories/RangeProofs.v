(* Proofs about combos: their order, sorting, and the sets the add functions build. *)
From Verif Require Import Base BaseProofs Hand Range SpecPoker SpecNames SpecText SpecRange PokerFacts TextProofs.
From Coq Require Import Sorted Permutation.
Local Open Scope N_scope.

(* ------------------------------------------------------------------------- *)
(** * The order *)

Definition combo_key (c : combo) : list N :=
  [c_1 c / 4; c_2 c / 4; c_1 c mod 4; c_2 c mod 4].

Lemma shiftr2 a : N.shiftr a 2 = a / 4. Proof. rewrite N.shiftr_div_pow2. reflexivity. Qed.
Lemma land3 a : N.land a 3 = a mod 4. Proof. change 3 with (N.ones 2). now rewrite N.land_ones. Qed.

Lemma combo_cmp_lex x y : combo_cmp x y = lex (combo_key x) (combo_key y).
Proof.
  unfold combo_cmp, combo_key. rewrite !shiftr2, !land3. cbn [lex].
  destruct (N.compare_spec (c_1 x / 4) (c_1 y / 4)) as [E|L|L].
  - rewrite E, N.eqb_refl. cbn [negb].
    destruct (N.compare_spec (c_2 x / 4) (c_2 y / 4)) as [E'|L'|L'].
    + rewrite E', N.eqb_refl. cbn [negb].
      destruct (N.compare_spec (c_1 x mod 4) (c_1 y mod 4)) as [E3|L3|L3].
      * rewrite E3, N.eqb_refl. cbn [negb]. destruct (N.compare (c_2 x mod 4) (c_2 y mod 4)); reflexivity.
      * replace (c_1 x mod 4 =? c_1 y mod 4) with false by (symmetry; apply N.eqb_neq; lia). reflexivity.
      * replace (c_1 x mod 4 =? c_1 y mod 4) with false by (symmetry; apply N.eqb_neq; lia). reflexivity.
    + replace (c_2 x / 4 =? c_2 y / 4) with false by (symmetry; apply N.eqb_neq; lia). reflexivity.
    + replace (c_2 x / 4 =? c_2 y / 4) with false by (symmetry; apply N.eqb_neq; lia). reflexivity.
  - replace (c_1 x / 4 =? c_1 y / 4) with false by (symmetry; apply N.eqb_neq; lia). reflexivity.
  - replace (c_1 x / 4 =? c_1 y / 4) with false by (symmetry; apply N.eqb_neq; lia). reflexivity.
Qed.

(* the same two cards in the same places *)
Definition same (x y : combo) : Prop := c_1 x = c_1 y /\ c_2 x = c_2 y.

Lemma key_same x y : combo_key x = combo_key y <-> same x y.
Proof.
  unfold combo_key, same. split.
  - intros H. injection H as H1 H2 H3 H4. split.
    + rewrite (N.div_mod (c_1 x) 4), (N.div_mod (c_1 y) 4) by lia. congruence.
    + rewrite (N.div_mod (c_2 x) 4), (N.div_mod (c_2 y) 4) by lia. congruence.
  - intros [-> ->]. reflexivity.
Qed.

Lemma combo_cmp_same x y : combo_cmp x y = Eq <-> same x y.
Proof. rewrite combo_cmp_lex, lex_eq. apply key_same. Qed.
Lemma combo_cmp_opp x y : combo_cmp y x = CompOpp (combo_cmp x y).
Proof. rewrite !combo_cmp_lex. apply lex_opp. Qed.
Lemma combo_cmp_trans x y z : combo_cmp x y = Lt -> combo_cmp y z = Lt -> combo_cmp x z = Lt.
Proof. rewrite !combo_cmp_lex. apply lex_trans_lt. Qed.

Lemma combo_eqb_same x y : c_2 x < 256 -> c_2 y < 256 -> combo_eqb x y = true <-> same x y.
Proof.
  intros Hx Hy. unfold combo_eqb, same. rewrite N.eqb_eq.
  assert (F : forall a b, b < 256 ->
    N.shiftr (N.lor (N.shiftl a 8) b) 8 = a /\ N.land (N.lor (N.shiftl a 8) b) (N.ones 8) = b).
  { intros a b Hb. split.
    - rewrite N.shiftr_lor, N.shiftr_shiftl_r, N.sub_diag, N.shiftr_0_r by lia.
      rewrite (N.shiftr_div_pow2 b), N.div_small by exact Hb. apply N.lor_0_r.
    - rewrite N.land_lor_distr_l, !N.land_ones, N.shiftl_mul_pow2, N.mod_mul by discriminate.
      rewrite N.mod_small by exact Hb. reflexivity. }
  split; [|intros [-> ->]; reflexivity]. intros E.
  destruct (F (c_1 x) (c_2 x) Hx) as [A1 A2]. destruct (F (c_1 y) (c_2 y) Hy) as [B1 B2].
  rewrite E in A1, A2. split; congruence.
Qed.

Lemma order_total : forall x y z, 
  combo_cmp x x = Eq /\ combo_cmp y x = CompOpp (combo_cmp x y) /\
  (combo_cmp x y <> Gt -> combo_cmp y z <> Gt -> combo_cmp x z <> Gt).
Proof.
  intros x y z. split; [apply combo_cmp_same; split; reflexivity|]. split; [apply combo_cmp_opp|].
  rewrite !combo_cmp_lex. fold (lle (combo_key x) (combo_key y)). intros H1 H2.
  exact (lle_trans _ _ _ H1 H2).
Qed.

(* ------------------------------------------------------------------------- *)
(** * Sorting and removing duplicates *)

Definition wfc (c : combo) : Prop := c_2 c < c_1 c /\ c_1 c < 52 /\ c_w c <= 100.

(* the weight of the first entry for the cards a, b *)
Definition is_hand (a b : N) (c : combo) : bool := (c_1 c =? a) && (c_2 c =? b).
Definition lookup (a b : N) (l : list combo) : option N := option_map c_w (find (is_hand a b) l).

Lemma is_hand_ok a b c : is_hand a b c = true <-> c_1 c = a /\ c_2 c = b.
Proof. unfold is_hand. now rewrite andb_true_iff, !N.eqb_eq. Qed.

Lemma lookup_cons a b c l : lookup a b (c :: l) = if is_hand a b c then Some (c_w c) else lookup a b l.
Proof. unfold lookup. cbn [find]. destruct (is_hand a b c); reflexivity. Qed.
Lemma lookup_app a b l k : lookup a b (l ++ k) = match lookup a b l with Some w => Some w | None => lookup a b k end.
Proof.
  induction l as [|c l IH]; [reflexivity|]. cbn [app]. rewrite !lookup_cons. destruct (is_hand a b c); auto.
Qed.
Lemma combo_eta (c : combo) : c = (c_1 c, c_2 c, c_w c). Proof. destruct c as [[? ?] ?]. reflexivity. Qed.
Lemma lookup_In a b l w : lookup a b l = Some w -> In (a, b, w) l.
Proof.
  unfold lookup. destruct (find (is_hand a b) l) as [c|] eqn:E; [|discriminate]. intros H. injection H as <-.
  apply find_some in E as [Hin E]. apply is_hand_ok in E as [<- <-]. now rewrite <- combo_eta.
Qed.
Lemma lookup_None a b l : lookup a b l = None <-> forall w, ~ In (a, b, w) l.
Proof.
  unfold lookup. split.
  - destruct (find (is_hand a b) l) eqn:E; [discriminate|]. intros _ w Hin.
    apply (find_none _ _ E) in Hin. unfold is_hand in Hin. cbn in Hin. rewrite !N.eqb_refl in Hin. discriminate.
  - intros H. destruct (find (is_hand a b) l) as [c|] eqn:E; [|reflexivity].
    apply find_some in E as [Hin E]. apply is_hand_ok in E as [<- <-]. exfalso. apply (H (c_w c)). now rewrite <- combo_eta.
Qed.

Lemma lookup_insert a b x l : lookup a b (insert_combo x l) = lookup a b (x :: l).
Proof.
  induction l as [|y l IH]; [reflexivity|]. cbn [insert_combo]. destruct (combo_cmp x y) eqn:E; try reflexivity.
  rewrite lookup_cons, IH, !lookup_cons. destruct (is_hand a b y) eqn:Ey; [|reflexivity].
  destruct (is_hand a b x) eqn:Ex; [|reflexivity].
  apply is_hand_ok in Ex as [Ex1 Ex2], Ey as [Ey1 Ey2].
  assert (S : combo_cmp x y = Eq) by (apply combo_cmp_same; split; congruence). congruence.
Qed.
Lemma lookup_sort a b l : lookup a b (sort_combos l) = lookup a b l.
Proof. induction l as [|x l IH]; [reflexivity|]. cbn [sort_combos]. now rewrite lookup_insert, !lookup_cons, IH. Qed.

Lemma insert_perm x l : Permutation (x :: l) (insert_combo x l).
Proof.
  induction l as [|y l IH]; [reflexivity|]. cbn [insert_combo]. destruct (combo_cmp x y); try reflexivity.
  eapply perm_trans; [apply perm_swap|]. apply perm_skip, IH.
Qed.
Lemma sort_perm l : Permutation l (sort_combos l).
Proof.
  induction l as [|x l IH]; [reflexivity|]. cbn [sort_combos]. eapply perm_trans; [apply perm_skip, IH|]. apply insert_perm.
Qed.

Definition cle (x y : combo) : Prop := combo_cmp x y <> Gt.
Definition clt (x y : combo) : Prop := combo_cmp x y = Lt.
Lemma cle_trans x y z : cle x y -> cle y z -> cle x z.
Proof. apply (order_total x y z). Qed.
Lemma clt_trans x y z : clt x y -> clt y z -> clt x z.
Proof. apply combo_cmp_trans. Qed.
Lemma insert_sorted x l : StronglySorted cle l -> StronglySorted cle (insert_combo x l).
Proof.
  induction 1 as [|y l HS IH Hall]; [repeat constructor|]. cbn [insert_combo].
  destruct (combo_cmp x y) eqn:E.
  - constructor; [constructor; assumption|]. constructor; [unfold cle; congruence|].
    eapply Forall_impl; [|exact Hall]. intros z Hz. eapply cle_trans; [|exact Hz]. unfold cle. congruence.
  - constructor; [constructor; assumption|]. constructor; [unfold cle; congruence|].
    eapply Forall_impl; [|exact Hall]. intros z Hz. eapply cle_trans; [|exact Hz]. unfold cle. congruence.
  - constructor; [exact IH|]. apply (Permutation_Forall (insert_perm x l)). constructor; [|exact Hall].
    unfold cle. rewrite combo_cmp_opp, E. discriminate.
Qed.
Lemma sort_sorted l : StronglySorted cle (sort_combos l).
Proof. induction l as [|x l IH]; [constructor|]. cbn [sort_combos]. now apply insert_sorted. Qed.

Lemma same_sym x y : same x y -> same y x. Proof. unfold same. intuition. Qed.

Lemma dedup_from_spec l : forall prev, Forall (fun c => c_2 c < 256) (prev :: l) -> StronglySorted cle (prev :: l) ->
  StronglySorted clt (prev :: dedup_from prev l) /\ incl (dedup_from prev l) l /\
  (forall a b, is_hand a b prev = false -> lookup a b (dedup_from prev l) = lookup a b l).
Proof.
  induction l as [|x l IH]; intros prev Hc HS.
  - cbn. split; [repeat constructor|]. split; [intros ? []|reflexivity].
  - inversion Hc as [|? ? Hp Hc']. inversion Hc' as [|? ? Hx Hl]. subst.
    inversion HS as [|? ? HS' Hall]. inversion HS' as [|? ? HSl Hx']. inversion Hall as [|? ? Hpx Hpl]. subst.
    cbn [dedup_from]. destruct (combo_eqb x prev) eqn:E.
    + apply combo_eqb_same in E; [|assumption|assumption].
      destruct (IH prev) as (I1 & I2 & I3); [auto|constructor; assumption|].
      split; [exact I1|]. split; [intros y Hy; right; auto|]. intros a b Hk. rewrite I3 by exact Hk.
      rewrite lookup_cons. replace (is_hand a b x) with false; [reflexivity|].
      unfold is_hand in *. destruct E as [-> ->]. now rewrite Hk.
    + destruct (IH x) as (I1 & I2 & I3); [auto|constructor; assumption|].
      assert (Lpx : clt prev x).
      { unfold cle in Hpx. unfold clt. destruct (combo_cmp prev x) eqn:F; [|reflexivity|congruence].
        apply combo_cmp_same, same_sym in F. apply combo_eqb_same in F; congruence. }
      split.
      * constructor; [exact I1|]. constructor; [exact Lpx|]. inversion I1 as [|? ? _ A]. subst.
        eapply Forall_impl; [|exact A]. intros y Hy. exact (clt_trans _ _ _ Lpx Hy).
      * split; [intros y [<-|Hy]; [left; reflexivity|right; auto]|].
        intros a b Hk. rewrite !lookup_cons. destruct (is_hand a b x) eqn:Ex; [reflexivity|]. apply I3. exact Ex.
Qed.

Lemma remove_duplicates_spec l : Forall wfc l ->
  StronglySorted clt (remove_duplicates l) /\ Forall wfc (remove_duplicates l) /\
  (forall a b, lookup a b (remove_duplicates l) = lookup a b l).
Proof.
  intros H. unfold remove_duplicates.
  assert (Hs : Forall wfc (sort_combos l)) by exact (Permutation_Forall (sort_perm l) H).
  pose proof (sort_sorted l) as HS. assert (HL : forall a b, lookup a b (sort_combos l) = lookup a b l) by (intros; apply lookup_sort).
  destruct (sort_combos l) as [|x k]; cbn [dedup].
  - split; [constructor|]. split; [constructor|]. exact HL.
  - destruct (dedup_from_spec k x) as (I1 & I2 & I3).
    + eapply Forall_impl; [|exact Hs]. unfold wfc. intros c Hc. lia.
    + exact HS.
    + split; [exact I1|]. split.
      * inversion Hs as [|? ? Hx Hk]. subst. constructor; [exact Hx|]. rewrite Forall_forall in *. auto.
      * intros a b. rewrite <- HL, !lookup_cons. destruct (is_hand a b x) eqn:E; [reflexivity|]. auto.
Qed.

(* in a strictly sorted range an entry is what lookup finds *)
Lemma sorted_lookup l a b w : StronglySorted clt l -> In (a, b, w) l -> lookup a b l = Some w.
Proof.
  induction 1 as [|x l HS IH Hall]; intros Hin; [destruct Hin|]. rewrite lookup_cons.
  destruct Hin as [->|Hin].
  - replace (is_hand a b (a, b, w)) with true; [reflexivity|]. symmetry. apply is_hand_ok. auto.
  - rewrite (IH Hin). destruct (is_hand a b x) eqn:E; [|reflexivity].
    rewrite Forall_forall in Hall. specialize (Hall _ Hin). apply is_hand_ok in E as [E1 E2].
    assert (S : combo_cmp x (a, b, w) = Eq) by (apply combo_cmp_same; split; auto). unfold clt in Hall. congruence.
Qed.

Lemma sorted_ext l : forall k, StronglySorted clt l -> StronglySorted clt k ->
  (forall a b, lookup a b l = lookup a b k) -> l = k.
Proof.
  assert (Hhd : forall x l, StronglySorted clt (x :: l) -> lookup (c_1 x) (c_2 x) (x :: l) = Some (c_w x)).
  { clear l. intros x l _. rewrite lookup_cons. replace (is_hand _ _ x) with true; [reflexivity|]. symmetry. now apply is_hand_ok. }
  assert (Hlt : forall y l, StronglySorted clt (y :: l) -> forall x, In x (y :: l) -> x = y \/ clt y x).
  { clear l. intros y l HS x [->|Hin]; [auto|]. right. inversion HS as [|? ? _ A]. rewrite Forall_forall in A. auto. }
  induction l as [|x l IH]; intros k HS HK H.
  - destruct k as [|y k]; [reflexivity|]. specialize (H (c_1 y) (c_2 y)). rewrite (Hhd y k HK) in H. discriminate H.
  - destruct k as [|y k]; [specialize (H (c_1 x) (c_2 x)); rewrite (Hhd x l HS) in H; discriminate H|].
    assert (Hxy : x = y).
    { pose proof (H (c_1 x) (c_2 x)) as H1. rewrite (Hhd x l HS) in H1. symmetry in H1. apply lookup_In in H1. rewrite <- combo_eta in H1.
      pose proof (H (c_1 y) (c_2 y)) as H2. rewrite (Hhd y k HK) in H2. apply lookup_In in H2. rewrite <- combo_eta in H2.
      destruct (Hlt _ _ HK _ H1) as [|L1]; [assumption|]. destruct (Hlt _ _ HS _ H2) as [|L2]; [congruence|].
      unfold clt in *. rewrite combo_cmp_opp, L1 in L2. discriminate L2. }
    subst y. f_equal. inversion HS as [|? ? HS' A]. inversion HK as [|? ? HK' B]. subst. apply IH; auto.
    intros a b. specialize (H a b). rewrite !lookup_cons in H. destruct (is_hand a b x) eqn:E; [|exact H].
    apply is_hand_ok in E as [<- <-].
    assert (N1 : forall m, Forall (clt x) m -> lookup (c_1 x) (c_2 x) m = None).
    { intros m Hm. apply lookup_None. intros w Hin. rewrite Forall_forall in Hm. apply Hm in Hin.
      assert (S : combo_cmp x (c_1 x, c_2 x, w) = Eq) by (apply combo_cmp_same; split; auto). unfold clt in Hin. congruence. }
    now rewrite !N1.
Qed.

(* ------------------------------------------------------------------------- *)
(** * The add functions *)

Definition ordered (c1 c2 w : N) : combo := (N.max c1 c2, N.min c1 c2, w).

Lemma add_combo_ok hands c1 c2 w : hole c1 c2 -> add_combo hands c1 c2 w = hands ++ [ordered c1 c2 w].
Proof.
  intros (H1 & H2 & Hd). unfold add_combo, ordered. unfold is_card in *.
  replace ((51 <? c1) || (51 <? c2)) with false by (symmetry; apply orb_false_iff; rewrite !N.ltb_ge; lia).
  replace (c1 =? c2) with false by (symmetry; now apply N.eqb_neq).
  rewrite !shiftr2, !land3. cbv zeta.
  pose proof (N.div_mod c1 4 ltac:(lia)) as D1. pose proof (N.div_mod c2 4 ltac:(lia)) as D2.
  pose proof (N.mod_lt c1 4 ltac:(lia)) as M1. pose proof (N.mod_lt c2 4 ltac:(lia)) as M2.
  revert D1 D2 M1 M2. generalize (c1 / 4) (c2 / 4) (c1 mod 4) (c2 mod 4). intros q1 q2 m1 m2 D1 D2 M1 M2.
  destruct ((q1 <? q2) || ((q1 =? q2) && (m1 <? m2))) eqn:E.
  - apply orb_true_iff in E. rewrite andb_true_iff, !N.ltb_lt, N.eqb_eq in E.
    rewrite N.max_r, N.min_l by lia. reflexivity.
  - apply orb_false_iff in E. rewrite andb_false_iff, !N.ltb_ge, N.eqb_neq in E.
    rewrite N.max_l, N.min_r by lia. reflexivity.
Qed.

Lemma fold_add {A} (f : list combo -> A -> list combo) (g : A -> list combo) l :
  (forall hs x, In x l -> f hs x = hs ++ g x) -> forall hs, fold_left f l hs = hs ++ flat_map g l.
Proof.
  induction l as [|x l IH]; intros H hs; [cbn; now rewrite app_nil_r|]. cbn [fold_left flat_map].
  rewrite H by (left; reflexivity). rewrite IH by (intros; apply H; right; assumption). now rewrite app_assoc.
Qed.

(* the combos of ranks r1 and r2 *)
Definition combos_of (r1 r2 : N) (suited offsuited : bool) (w : N) : list combo :=
  (if suited && negb (r1 =? r2) then flat_map (fun s => [ordered (4 * r1 + s) (4 * r2 + s) w]) [0; 1; 2; 3] else []) ++
  (if offsuited then
     flat_map (fun s => flat_map (fun t =>
       [ordered (4 * r1 + s) (4 * r2 + t) w] ++ (if negb (r1 =? r2) then [ordered (4 * r1 + t) (4 * r2 + s) w] else []))
       (nseq (s + 1) (N.to_nat (4 - (s + 1))))) [0; 1; 2; 3] else []).

Lemma add_combos_eq hands r1 r2 su off w : r1 < 13 -> r2 < 13 ->
  add_combos hands r1 r2 su off w = hands ++ combos_of r1 r2 su off w.
Proof.
  intros H1 H2. unfold add_combos, combos_of. cbv zeta.
  assert (A : forall hs s t, s < 4 -> t < 4 -> (r1 <> r2 \/ s <> t) ->
     add_combo hs (4 * r1 + s) (4 * r2 + t) w = hs ++ [ordered (4 * r1 + s) (4 * r2 + t) w]).
  { intros hs s t Hs Ht Hd. apply add_combo_ok. unfold hole, is_card. lia. }
  assert (E1 : (if su && negb (r1 =? r2)
    then fold_left (fun hs suit => add_combo hs (4 * r1 + suit) (4 * r2 + suit) w) [0; 1; 2; 3] hands
    else hands) = hands ++ (if su && negb (r1 =? r2) then flat_map (fun s => [ordered (4 * r1 + s) (4 * r2 + s) w]) [0; 1; 2; 3] else [])).
  { destruct (su && negb (r1 =? r2)) eqn:E; [|now rewrite app_nil_r].
    apply andb_true_iff in E as [_ E]. apply negb_true_iff, N.eqb_neq in E.
    apply fold_add. intros hs x Hx. apply A; [cbn in Hx; lia|cbn in Hx; lia|auto]. }
  rewrite E1. clear E1. rewrite app_assoc. generalize (hands ++ (if su && negb (r1 =? r2) then flat_map (fun s => [ordered (4 * r1 + s) (4 * r2 + s) w]) [0; 1; 2; 3] else [])) as hs0.
  intros hs0. destruct off; [|now rewrite app_nil_r].
  apply fold_add. intros hs s Hs. apply fold_add. intros hs' t Ht. apply nseq_In in Ht.
  assert (s < 4) by (cbn in Hs; lia). assert (s < t < 4) by lia.
  destruct (r1 =? r2) eqn:E; cbn [negb]; [rewrite A by lia; reflexivity|].
  apply N.eqb_neq in E. rewrite !A by lia. now rewrite <- app_assoc.
Qed.

Lemma rank_plus r s : s < 4 -> rank_of (4 * r + s) = r.
Proof. intros H. unfold rank_of. rewrite (N.mul_comm 4), N.div_add_l by lia. rewrite N.div_small by lia. lia. Qed.
Lemma suit_plus r s : s < 4 -> suit_of (4 * r + s) = s.
Proof. intros H. unfold suit_of. rewrite N.add_comm, N.mul_comm, N.mod_add by lia. now apply N.mod_small. Qed.

Lemma ordered_In a b w c1 c2 w' : b < a -> In (a, b, w) [ordered c1 c2 w'] <-> w = w' /\ two_are a b c1 c2.
Proof.
  intros H. unfold ordered, two_are. cbn [In]. split.
  - intros [E|[]]. injection E as E1 E2 E3. lia.
  - intros [-> E]. left. f_equal. f_equal; lia.
Qed.

Lemma combos_of_In r1 r2 su off w a b w' : r1 < 13 -> r2 < 13 -> b < a ->
  In (a, b, w') (combos_of r1 r2 su off w) <->
  w' = w /\ a < 52 /\ ranks_are a b r1 r2 /\ (if suit_of a =? suit_of b then su = true else off = true).
Proof.
  intros H1 H2 Hab. unfold combos_of. rewrite in_app_iff.
  assert (S4 : forall s, In s [0; 1; 2; 3] <-> s < 4) by (intros s; cbn; lia).
  split.
  - intros [H|H].
    + destruct (su && negb (r1 =? r2)) eqn:E; [|destruct H]. apply andb_true_iff in E as [-> E].
      apply in_flat_map in H as (s & Hs & H). apply S4 in Hs. apply ordered_In in H as [-> H]; [|exact Hab].
      split; [reflexivity|]. unfold ranks_are. destruct H as [[-> ->]|[-> ->]];
        rewrite !rank_plus, !suit_plus, N.eqb_refl by assumption; unfold two_are; intuition lia.
    + destruct off; [|destruct H]. apply in_flat_map in H as (s & Hs & H). apply S4 in Hs.
      apply in_flat_map in H as (t & Ht & H). apply nseq_In in Ht. assert (s < t < 4) by lia.
      rewrite in_app_iff, (ordered_In a b w' (4 * r1 + s) (4 * r2 + t)) in H by exact Hab.
      assert (G : w' = w /\ (two_are a b (4 * r1 + s) (4 * r2 + t) \/ two_are a b (4 * r1 + t) (4 * r2 + s))).
      { destruct H as [[-> H]|H]; [auto|]. destruct (negb (r1 =? r2)); [|destruct H].
        apply ordered_In in H as [-> H]; [auto|exact Hab]. }
      destruct G as [-> G]. split; [reflexivity|]. unfold ranks_are.
      destruct G as [[[-> ->]|[-> ->]]|[[-> ->]|[-> ->]]]; rewrite !rank_plus, !suit_plus by lia;
        (match goal with |- context[?u =? ?v] => destruct (N.eqb_spec u v); [lia|] end); unfold two_are; intuition lia.
  - intros (-> & Ha & Hr & Hs).
    assert (Ca : is_card a) by exact Ha. assert (Cb : is_card b) by (unfold is_card; lia).
    destruct (split_card a Ca) as (Ra & Sa & Ea). destruct (split_card b Cb) as (Rb & Sb & Eb).
    unfold ranks_are, two_are in Hr.
    destruct (N.eqb_spec (suit_of a) (suit_of b)) as [E|E].
    + left. subst su. assert (Hd : r1 <> r2) by lia. replace (r1 =? r2) with false by (symmetry; now apply N.eqb_neq).
      cbn [andb negb]. apply in_flat_map. exists (suit_of a). split; [now apply S4|]. apply ordered_In; [exact Hab|].
      split; [reflexivity|]. unfold two_are. lia.
    + right. subst off. 
      assert (G : forall s t, s < t -> t < 4 ->
        (two_are a b (4 * r1 + s) (4 * r2 + t) \/ r1 <> r2 /\ two_are a b (4 * r1 + t) (4 * r2 + s)) ->
        In (a, b, w) (flat_map (fun s => flat_map (fun t =>
       [ordered (4 * r1 + s) (4 * r2 + t) w] ++ (if negb (r1 =? r2) then [ordered (4 * r1 + t) (4 * r2 + s) w] else []))
       (nseq (s + 1) (N.to_nat (4 - (s + 1))))) [0; 1; 2; 3])).
      { intros s t Hst Ht H. apply in_flat_map. exists s. split; [apply S4; lia|]. apply in_flat_map. exists t.
        split; [apply nseq_In; lia|]. apply in_app_iff. destruct H as [H|[Hd H]].
        - left. apply ordered_In; [exact Hab|auto].
        - right. replace (r1 =? r2) with false by (symmetry; now apply N.eqb_neq). cbn [negb]. apply ordered_In; [exact Hab|auto]. }
      destruct (N.lt_ge_cases (suit_of a) (suit_of b)) as [L|L].
      * apply (G (suit_of a) (suit_of b)); [exact L|exact Sb|]. unfold two_are.
        destruct (N.eq_dec r1 r2); lia.
      * apply (G (suit_of b) (suit_of a)); [lia|exact Sa|]. unfold two_are.
        destruct (N.eq_dec r1 r2); lia.
Qed.

Lemma combos_of_wf r1 r2 su off w : r1 < 13 -> r2 < 13 -> w <= 100 -> Forall wfc (combos_of r1 r2 su off w).
Proof.
  intros H1 H2 Hw.
  assert (A : forall s t, s < 4 -> t < 4 -> (r1 <> r2 \/ s <> t) -> wfc (ordered (4 * r1 + s) (4 * r2 + t) w)).
  { intros s t Hs Ht Hd. unfold wfc, ordered, c_1, c_2, c_w. cbn [fst snd]. lia. }
  unfold combos_of. apply Forall_app. split; apply Forall_forall; intros c Hc.
  - destruct (su && negb (r1 =? r2)) eqn:E; [|destruct Hc]. apply andb_true_iff in E as [_ E]. apply negb_true_iff, N.eqb_neq in E.
    apply in_flat_map in Hc as (s & Hs & [<-|[]]). apply A; cbn in Hs; lia.
  - destruct off; [|destruct Hc]. apply in_flat_map in Hc as (s & Hs & Hc). apply in_flat_map in Hc as (t & Ht & Hc).
    apply nseq_In in Ht. assert (s < t < 4) by (cbn in Hs; lia). apply in_app_iff in Hc as [[<-|[]]|Hc]; [apply A; lia|].
    destruct (r1 =? r2) eqn:E; [destruct Hc|]. apply N.eqb_neq in E. destruct Hc as [<-|[]]. apply A; lia.
Qed.
