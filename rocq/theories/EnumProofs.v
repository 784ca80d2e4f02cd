(* The recursive board enumeration emits, with multiplicities, every completion of the board. *)
From Verif Require Import Base BaseProofs SumFacts Ghost Hand Range Combined Sim SpecPoker ListFacts PokerFacts HandProofs.
From Coq Require Import Permutation Sorted.
Local Open Scope N_scope.

Lemma crank_rank c : crank c = rank_of c.
Proof. unfold crank, rank_of. rewrite N.shiftr_div_pow2. reflexivity. Qed.
Lemma csuit_suit c : csuit c = N.to_nat (suit_of c).
Proof. unfold csuit, suit_of. f_equal. change 3 with (N.ones 2). rewrite N.land_ones. reflexivity. Qed.

Lemma nsuit_cons s c l : nsuit s (c :: l) = ((if (suit_of c =? s)%N then 1 else 0) + nsuit s l)%nat.
Proof. unfold nsuit, suited. cbn [filter]. destruct (suit_of c =? s); reflexivity. Qed.
Lemma nsuit_app s l l' : nsuit s (l ++ l') = (nsuit s l + nsuit s l')%nat.
Proof. unfold nsuit, suited. rewrite filter_app, app_length. reflexivity. Qed.
Lemma nsuit_le s l : (nsuit s l <= length l)%nat.
Proof. apply filter_length_le. Qed.
Lemma nsuit_none s l : (forall c, In c l -> suit_of c <> s) -> nsuit s l = 0%nat.
Proof.
  induction l as [|c l IH]; intros H; [reflexivity|]. rewrite nsuit_cons, IH.
  - destruct (N.eqb_spec (suit_of c) s) as [E|E]; [exfalso; apply (H c); [left; reflexivity|exact E]|reflexivity].
  - intros d Hd. apply H. right. exact Hd.
Qed.

(* lists and indices *)
Lemma filter_none {A} (f : A -> bool) l : (forall x, In x l -> f x = false) -> filter f l = [].
Proof.
  induction l as [|x l IH]; intros H; [reflexivity|]. cbn [filter]. rewrite (H x (or_introl eq_refl)). apply IH.
  intros y Hy. apply H. right. exact Hy.
Qed.
Lemma skipn_cons_nth {A} (l : list A) i x : nth_error l i = Some x -> skipn i l = x :: skipn (S i) l.
Proof.
  revert i. induction l as [|y l IH]; intros [|i] H; cbn in H; try discriminate.
  - inversion H; subst. reflexivity.
  - cbn [skipn]. rewrite (IH i H). reflexivity.
Qed.
Lemma nth_error_skipn {A} (l : list A) i k : nth_error (skipn i l) k = nth_error l (i + k).
Proof. revert i. induction l as [|y l IH]; intros [|i]; cbn [skipn Nat.add nth_error]; try reflexivity; [destruct k; reflexivity|apply IH]. Qed.
Lemma nth_error_firstn {A} (l : list A) i k : (k < i)%nat -> nth_error (firstn i l) k = nth_error l k.
Proof.
  revert i k. induction l as [|y l IH]; intros [|i] [|k] H; cbn; try reflexivity; try lia. apply IH. lia.
Qed.
Lemma nth_error_ext {A} (l l' : list A) : (forall k, nth_error l k = nth_error l' k) -> l = l'.
Proof.
  revert l'. induction l as [|x l IH]; intros [|y l'] H.
  - reflexivity.
  - specialize (H 0%nat). discriminate.
  - specialize (H 0%nat). discriminate.
  - pose proof (H 0%nat) as H0. cbn in H0. inversion H0; subst. f_equal. apply IH. intros k. apply (H (S k)).
Qed.
Lemma map_nth_error' {A C} (f : A -> C) l k : nth_error (map f l) k = option_map f (nth_error l k).
Proof. revert k. induction l as [|x l IH]; intros [|k]; cbn; try reflexivity. apply IH. Qed.

Lemma skipn_skipn' {A} (l : list A) a b : skipn a (skipn b l) = skipn (b + a) l.
Proof. apply nth_error_ext. intros k. rewrite !nth_error_skipn. f_equal. lia. Qed.

Lemma swap_spec {A} (l : list A) i j a b : nth_error l i = Some a -> nth_error l j = Some b ->
  exists l', swap l i j = Ret l' /\ length l' = length l /\ Permutation l l' /\
    (forall k, nth_error l' k = if (k =? j)%nat then Some a else if (k =? i)%nat then Some b else nth_error l k).
Proof.
  intros Ha Hb.
  assert (Hi : (i < length l)%nat) by (apply nth_error_Some; congruence).
  assert (Hj : (j < length l)%nat) by (apply nth_error_Some; congruence).
  exists (set_nth (set_nth l i b) j a).
  assert (Hn : forall k, nth_error (set_nth (set_nth l i b) j a) k =
    if (k =? j)%nat then Some a else if (k =? i)%nat then Some b else nth_error l k).
  { intros k. destruct (Nat.eqb_spec k j) as [->|Hkj].
    - apply set_nth_same. rewrite set_nth_length. exact Hj.
    - rewrite set_nth_other by congruence. destruct (Nat.eqb_spec k i) as [->|Hki].
      + apply set_nth_same. exact Hi.
      + apply set_nth_other. congruence. }
  split; [|split; [|split; [|exact Hn]]].
  - unfold swap. rewrite (proj2 (get_ret l i a) Ha). cbn [bind]. rewrite (proj2 (get_ret l j b) Hb). cbn [bind].
    rewrite upd_ok by exact Hi. cbn [bind]. rewrite upd_ok by (rewrite set_nth_length; exact Hj). reflexivity.
  - rewrite !set_nth_length. reflexivity.
  - apply Permutation_nth_error. split; [rewrite !set_nth_length; reflexivity|].
    exists (fun k => if (k =? j)%nat then i else if (k =? i)%nat then j else k). split.
    + intros x y. destruct (Nat.eqb_spec x j), (Nat.eqb_spec y j), (Nat.eqb_spec x i), (Nat.eqb_spec y i); intros; subst; congruence.
    + intros k. rewrite Hn. destruct (k =? j)%nat; [congruence|]. destruct (k =? i)%nat; congruence.
Qed.

Lemma ranks_eq_le4 l r : NoDup l -> (forall c, In c l -> rank_of c = r) -> (length l <= 4)%nat.
Proof.
  intros Hn Hr. pose proof (occurs_rank_le4 l r Hn) as H. unfold occurs in H.
  replace (count_occ N.eq_dec (map rank_of l) r) with (length l) in H; [exact H|].
  clear Hn H. induction l as [|c l IH]; [reflexivity|]. cbn [map count_occ length].
  destruct (N.eq_dec (rank_of c) r) as [E|E].
  - f_equal. apply IH. intros d Hd. apply Hr. right. exact Hd.
  - exfalso. apply E, Hr. left. reflexivity.
Qed.

(* ------------------------------------------------------------------------- *)

(* what the recursion does to the deck: it permutes, within ranks, the part from start on *)
Definition deck_step (start : nat) (D D' : list N) : Prop :=
  firstn start D' = firstn start D /\ Permutation (skipn start D) (skipn start D') /\ map rank_of D' = map rank_of D.

Lemma deck_step_refl start D : deck_step start D D.
Proof. split; [reflexivity|split; reflexivity]. Qed.
Lemma deck_step_trans start D D' D'' : deck_step start D D' -> deck_step start D' D'' -> deck_step start D D''.
Proof.
  intros (H1 & H2 & H3) (H4 & H5 & H6). split; [congruence|split; [|congruence]].
  transitivity (skipn start D'); assumption.
Qed.
Lemma deck_step_length start D D' : deck_step start D D' -> length D' = length D.
Proof. intros (_ & _ & H). rewrite <- (map_length rank_of D), <- H, map_length. reflexivity. Qed.
Lemma deck_step_nth start D D' k : deck_step start D D' -> (k < start)%nat -> nth_error D' k = nth_error D k.
Proof. intros (H & _) Hk. rewrite <- (nth_error_firstn D' start), <- (nth_error_firstn D start), H by exact Hk. reflexivity. Qed.
Lemma skipn_firstn_split {A} (l : list A) a b : (a <= b)%nat -> skipn a l = skipn a (firstn b l) ++ skipn b l.
Proof.
  intros H. rewrite <- (firstn_skipn b l) at 1. rewrite skipn_app.
  destruct (Nat.leb_spec b (length l)) as [Hb|Hb].
  - rewrite firstn_length_le by exact Hb. replace (a - b)%nat with 0%nat by lia. reflexivity.
  - rewrite (skipn_all2 (n := b) l) by lia. rewrite skipn_nil, !app_nil_r. reflexivity.
Qed.
Lemma deck_step_weaken a b D D' : (a <= b)%nat -> deck_step b D D' -> deck_step a D D'.
Proof.
  intros Hab (H1 & H2 & H3). split; [|split; [|exact H3]].
  - replace (firstn a D') with (firstn a (firstn b D')) by (rewrite firstn_firstn; f_equal; lia).
    rewrite H1, firstn_firstn. f_equal. lia.
  - rewrite (skipn_firstn_split D a b), (skipn_firstn_split D' a b), H1 by exact Hab. apply Permutation_app_head. exact H2.
Qed.

Section Enum.
  Context {St : Type}.
  Variable p : profile.
  Variable B : Prop.
  Variable emit : N -> hand -> bool -> St -> outcome St.
  Variable U : list N.          (* cards that cannot be drawn: hole cards and dead cards *)
  Variable hs : N -> nat.       (* most cards of a suit in one player's hand *)
  Variable wt : N.              (* the weight of the deal *)

  Definition entry : Type := N * hand * bool.
  Definition step (st : St) (e : entry) : outcome St := let '(w, b, f) := e in emit w b f st.

  Definition board5 (L : list N) : Prop :=
    NoDup L /\ Forall is_card L /\ (forall c, In c L -> ~ In c U) /\ length L = 5%nat.
  Definition tc (s : N) (L : list N) : nat := (hs s + nsuit s L)%nat.
  (* boards that look the same to every player *)
  Definition alike (L L' : list N) : Prop :=
    Permutation (map rank_of L) (map rank_of L') /\
    forall s, s < 4 -> (forall c, suit_of c = s -> (In c L <-> In c L')) \/ (tc s L < 5 /\ tc s L' < 5)%nat.
  Definition invariant (G : list N -> N) : Prop :=
    forall L L', board5 L -> board5 L' -> alike L L' -> G L = G L'.

  Definition entry_ok (e : entry) (g : N * list N) : Prop :=
    1 <= fst g /\ agr p (fst (fst e)) (wt * fst g) /\ hand_of base (snd g) (snd (fst e)) /\ board5 (snd g) /\
    (snd e = false -> forall s, s < 4 -> (tc s (snd g) < 5)%nat).

  Definition fine (e : entry) : Prop := exists g, entry_ok e g.

  (* the entries es stand for boards with multiplicities that add up to X *)
  Definition sums (es : list entry) (X : (list N -> N) -> N) : Prop :=
    exists gs, Forall2 entry_ok es gs /\
      forall G, invariant G -> sumf (fun g => fst g * G (snd g)) gs = X G.

  Lemma sums_nil : sums [] (fun _ => 0).
  Proof. exists []. split; [constructor|reflexivity]. Qed.
  Lemma sums_app es es' X Y : sums es X -> sums es' Y -> sums (es ++ es') (fun G => X G + Y G).
  Proof.
    intros (gs & H1 & H2) (gs' & H3 & H4). exists (gs ++ gs'). split; [apply Forall2_app; assumption|].
    intros G HG. rewrite sumf_app, H2, H4 by exact HG. reflexivity.
  Qed.
  Lemma sums_one w b f m L : entry_ok (w, b, f) (m, L) -> sums [(w, b, f)] (fun G => m * G L).
  Proof.
    intros H. exists [(m, L)]. split; [constructor; [exact H|constructor]|]. intros G _. rewrite sumf_cons, sumf_nil. cbn [fst snd]. lia.
  Qed.
  Lemma sums_ext es X Y : sums es X -> (forall G, invariant G -> X G = Y G) -> sums es Y.
  Proof. intros (gs & H1 & H2) H. exists gs. split; [exact H1|]. intros G HG. rewrite H2, H by exact HG. reflexivity. Qed.

  Definition covers (m : N) (Bc : list N) (rem : nat) (D : list N) (es : list entry) : Prop :=
    sums es (fun G => m * sumf (fun T => G (Bc ++ T)) (choose rem D)).

  (* legal continuation: the board so far and the cards that may still come *)
  Definition legal (Bc : list N) (D : list N) : Prop :=
    NoDup (Bc ++ D) /\ Forall is_card (Bc ++ D) /\ (forall c, In c (Bc ++ D) -> ~ In c U).

  Lemma legal_perm Bc D Bc' D' : Permutation (Bc ++ D) (Bc' ++ D') -> legal Bc D -> legal Bc' D'.
  Proof.
    intros HP (H1 & H2 & H3). split; [|split].
    - eapply Permutation_NoDup; eassumption.
    - eapply Permutation_Forall; eassumption.
    - intros c Hc. apply H3. eapply Permutation_in; [symmetry; exact HP|exact Hc].
  Qed.
  Lemma legal_sub Bc D D1 D2 : legal Bc D -> Permutation D (D1 ++ D2) -> legal Bc D2.
  Proof.
    intros H HP.
    assert (H' : legal Bc (D2 ++ D1)).
    { eapply legal_perm; [|exact H]. apply Permutation_app_head. rewrite HP. apply Permutation_app_comm. }
    destruct H' as (H1 & H2 & H3). rewrite app_assoc in H1, H2, H3. split; [|split].
    - eapply NoDup_app_l. exact H1.
    - apply Forall_app in H2 as [H2 _]. exact H2.
    - intros c Hc. apply H3. apply in_or_app. left. exact Hc.
  Qed.
  Lemma legal_board Bc D rem T : legal Bc D -> (length Bc + rem = 5)%nat -> In T (choose rem D) -> board5 (Bc ++ T).
  Proof.
    intros (H1 & H2 & H3) Hl HT.
    pose proof (choose_incl _ _ _ HT) as Hi. pose proof (choose_length _ _ _ HT) as HL.
    split; [|split; [|split]].
    - apply NoDup_app_intro.
      + eapply NoDup_app_l; exact H1.
      + eapply choose_NoDup; [|exact HT]. eapply NoDup_app_r; exact H1.
      + intros c Hc HcT. eapply NoDup_app_disj; [exact H1|exact Hc|]. apply Hi. exact HcT.
    - apply Forall_app in H2 as [H2 H2']. apply Forall_app. split; [exact H2|].
      rewrite Forall_forall in *. intros c Hc. apply H2', Hi, Hc.
    - intros c Hc. apply H3. apply in_app_or in Hc as [Hc|Hc]; apply in_or_app; [left|right; apply Hi]; exact Hc.
    - rewrite app_length, HL. exact Hl.
  Qed.

  Lemma alike_perm L L' : Permutation L L' -> alike L L'.
  Proof.
    intros HP. split; [apply Permutation_map; exact HP|]. intros s _. left. intros c _.
    split; apply Permutation_in; [exact HP|symmetry; exact HP].
  Qed.
  Lemma board5_perm L L' : Permutation L L' -> board5 L -> board5 L'.
  Proof.
    intros HP (H1 & H2 & H3 & H4). split; [|split; [|split]].
    - eapply Permutation_NoDup; eassumption.
    - eapply Permutation_Forall; eassumption.
    - intros c Hc. apply H3. eapply Permutation_in; [symmetry; exact HP|exact Hc].
    - rewrite <- (Permutation_length HP). exact H4.
  Qed.
  Lemma invariant_perm G L L' : invariant G -> board5 L -> Permutation L L' -> G L = G L'.
  Proof. intros HG HL HP. apply HG; [exact HL|eapply board5_perm; eassumption|apply alike_perm; exact HP]. Qed.

  Lemma choose_sum_perm G Bc rem D D' : invariant G -> legal Bc D -> (length Bc + rem = 5)%nat -> Permutation D D' ->
    sumf (fun T => G (Bc ++ T)) (choose rem D) = sumf (fun T => G (Bc ++ T)) (choose rem D').
  Proof.
    intros HG HL Hlen HP. apply choose_perm_sum; [exact HP|]. intros s t Hst Hs.
    apply invariant_perm; [exact HG|eapply legal_board; eassumption|apply Permutation_app_head; exact Hst].
  Qed.

  Definition sc_ok (sc : list nat) (rem : nat) (Bc : list N) : Prop :=
    length sc = 4%nat /\
    forall s, s < 4 -> nth (N.to_nat s) sc 0%nat = tc s Bc \/
                       (nth (N.to_nat s) sc 0 + rem < 5 /\ tc s Bc + rem < 5)%nat.

  Definition irr (sc : list nat) (rem : nat) (c : N) : Prop := (nth (N.to_nat (suit_of c)) sc 0 + rem < 5)%nat.

  Lemma irr_tc sc rem Bc s : sc_ok sc rem Bc -> s < 4 ->
    (nth (N.to_nat s) sc 0 + rem < 5)%nat -> (tc s Bc + rem < 5)%nat.
  Proof. intros [_ H] Hs Hi. destruct (H s Hs) as [E|[_ E]]; [rewrite <- E; exact Hi|exact E]. Qed.
  Lemma rel_tc sc rem Bc s : sc_ok sc rem Bc -> s < 4 ->
    (5 <= nth (N.to_nat s) sc 0 + rem)%nat -> nth (N.to_nat s) sc 0%nat = tc s Bc.
  Proof. intros [_ H] Hs Hi. destruct (H s Hs) as [E|[E _]]; [exact E|lia]. Qed.

  Lemma get_suit sc rem Bc c : sc_ok sc rem Bc -> get sc (csuit c) = Ret (nth (N.to_nat (suit_of c)) sc 0%nat).
  Proof. intros [H _]. rewrite csuit_suit. apply get_nth. rewrite H. pose proof (suit_lt c). lia. Qed.

  Lemma tc_app s Bc T : tc s (Bc ++ T) = (tc s Bc + nsuit s T)%nat.
  Proof. unfold tc. rewrite nsuit_app. lia. Qed.

  (* taking irrelevant cards S instead of S' *)
  Lemma alike_swap sc rem Bc S S' T : sc_ok sc rem Bc -> length S = length S' -> (length S + length T = rem)%nat ->
    Permutation (map rank_of S) (map rank_of S') ->
    (forall c, In c S -> irr sc rem c) -> (forall c, In c S' -> irr sc rem c) ->
    alike (Bc ++ S ++ T) (Bc ++ S' ++ T).
  Proof.
    intros Hsc HlS Hrem HP HS HS'. split.
    - rewrite !map_app. apply Permutation_app_head, Permutation_app_tail. exact HP.
    - intros s Hs. destruct (Nat.ltb_spec (nth (N.to_nat s) sc 0%nat + rem) 5) as [Hi|Hr].
      + right. pose proof (irr_tc _ _ _ _ Hsc Hs Hi) as Ht. rewrite !tc_app, !nsuit_app.
        pose proof (nsuit_le s S). pose proof (nsuit_le s S'). pose proof (nsuit_le s T). lia.
      + left. intros c Hc. rewrite !in_app_iff.
        assert (H1 : ~ In c S) by (intros Hin; apply HS in Hin; unfold irr in Hin; rewrite Hc in Hin; lia).
        assert (H2 : ~ In c S') by (intros Hin; apply HS' in Hin; unfold irr in Hin; rewrite Hc in Hin; lia).
        tauto.
  Qed.

  Lemma sc_ok_irr sc rem Bc S : sc_ok sc rem Bc -> (forall c, In c S -> irr sc rem c) -> (length S <= rem)%nat ->
    sc_ok sc (rem - length S) (Bc ++ S).
  Proof.
    intros Hsc HS Hl. split; [apply Hsc|]. intros s Hs.
    destruct (Nat.ltb_spec (nth (N.to_nat s) sc 0%nat + rem) 5) as [Hi|Hr].
    - right. pose proof (irr_tc _ _ _ _ Hsc Hs Hi) as Ht. rewrite tc_app. pose proof (nsuit_le s S). lia.
    - left. rewrite (rel_tc _ _ _ _ Hsc Hs Hr), tc_app, nsuit_none; [lia|].
      intros c Hc E. apply HS in Hc. unfold irr in Hc. rewrite E in Hc. lia.
  Qed.

  Lemma sc_ok_rel sc rem Bc c : sc_ok sc rem Bc -> ~ irr sc rem c -> (1 <= rem)%nat ->
    exists sc', upd sc (csuit c) (S (nth (N.to_nat (suit_of c)) sc 0%nat)) = Ret sc' /\ sc_ok sc' (rem - 1) (Bc ++ [c]).
  Proof.
    intros [Hl Hs] Hn Hr. unfold irr in Hn.
    pose proof (suit_lt c) as Hc4.
    assert (Hlt : (N.to_nat (suit_of c) < length sc)%nat) by lia.
    eexists. split; [rewrite csuit_suit; apply upd_ok; exact Hlt|]. split; [rewrite set_nth_length; exact Hl|].
    intros s Hs4. rewrite nth_set_nth, tc_app, nsuit_cons by exact Hlt. change (nsuit s []) with 0%nat.
    destruct (N.eqb_spec (suit_of c) s) as [Heq|Hne].
    - rewrite <- Heq in *. rewrite Nat.eqb_refl. left. destruct (Hs (suit_of c) Hs4) as [E|[E _]]; [|lia]. lia.
    - destruct (Nat.eqb_spec (N.to_nat s) (N.to_nat (suit_of c))) as [E|_]; [exfalso; apply Hne; lia|].
      destruct (Hs s Hs4) as [E|[E1 E2]]; [left|right]; lia.
  Qed.

  (* ----------------------------------------------------------------------- *)
  (** ** The last card *)

  Lemma range_cons i n : (i < n)%nat -> range i n = i :: range (S i) n.
  Proof. intros H. unfold range. replace (n - i)%nat with (S (n - S i)) by lia. reflexivity. Qed.
  Lemma range_empty i n : (n <= i)%nat -> range i n = [].
  Proof. intros H. unfold range. replace (n - i)%nat with 0%nat by lia. reflexivity. Qed.

  Lemma same_rank_run_spec D r : forall fuel j m, (length D - j < fuel)%nat ->
    exists grp rest, skipn j D = grp ++ rest /\ (forall c, In c grp -> rank_of c = r) /\
      same_rank_run fuel D j r m = Ret (m + N.of_nat (length grp), (j + length grp)%nat).
  Proof.
    induction fuel as [|fuel IH]; intros j m Hf; [lia|]. cbn [same_rank_run].
    destruct (Nat.ltb_spec j (length D)) as [Hj|Hj].
    - destruct (nth_error D j) as [c|] eqn:E; [|apply nth_error_None in E; lia].
      rewrite (proj2 (get_ret D j c) E). cbn [bind]. rewrite crank_rank.
      destruct (N.eqb_spec (rank_of c) r) as [Hr|Hr].
      + destruct (IH (S j) (m + 1)) as (grp & rest & H1 & H2 & H3); [lia|].
        exists (c :: grp), rest. split; [rewrite (skipn_cons_nth _ _ _ E), H1; reflexivity|]. split.
        * intros d [<-|Hd]; [exact Hr|apply H2; exact Hd].
        * rewrite H3. do 2 f_equal; cbn [length]; lia.
      + exists [], (skipn j D). split; [reflexivity|]. split; [contradiction|]. do 2 f_equal; cbn [length]; lia.
    - exists [], (skipn j D). split; [reflexivity|]. split; [contradiction|]. do 2 f_equal; cbn [length]; lia.
  Qed.

  Lemma hand_add_snoc b L c x : legal L [c] -> hand_of base L b -> (length L <= 4)%nat -> CARDS_get c = Ret x ->
    exists b', hand_add p b x = Ret b' /\ hand_of base (L ++ [c]) b'.
  Proof.
    intros HL Hb Hlen Hx. destruct HL as (H1 & H2 & _).
    assert (Hc : is_card c) by (rewrite Forall_forall in H2; apply H2, in_or_app; right; left; reflexivity).
    destruct (CARDS_get_ok c Hc) as (x' & Hx' & Hof). rewrite Hx in Hx'. inversion Hx'; subst x'.
    destruct (hand_add_of p base 0 L [c] b x) as (h' & Ha & Hof').
    - unfold base. lia.
    - rewrite app_length. cbn. lia.
    - apply fits_of_length. rewrite app_length. cbn. lia.
    - exact Hb.
    - exact Hof.
    - exists h'. rewrite N.add_0_r in Hof'. auto.
  Qed.

  Lemma legal_one Bc D c : legal Bc D -> In c D -> legal Bc [c].
  Proof.
    intros HL Hc. apply in_split in Hc as (l1 & l2 & ->).
    eapply (legal_sub Bc _ (l1 ++ l2) [c]); [exact HL|].
    rewrite <- app_assoc. apply Permutation_app_head. apply Permutation_cons_append.
  Qed.

  Lemma swap_one G sc Bc c x D : invariant G -> sc_ok sc 1 Bc -> length Bc = 4%nat -> legal Bc D ->
    In c D -> In x D -> rank_of x = rank_of c -> irr sc 1 c -> irr sc 1 x -> G (Bc ++ [x]) = G (Bc ++ [c]).
  Proof.
    intros HG Hsc Hl HL Hc Hx Hr Hic Hix. apply HG.
    - apply (legal_board Bc [x] 1); [eapply legal_one; eassumption|lia|left; reflexivity].
    - apply (legal_board Bc [c] 1); [eapply legal_one; eassumption|lia|left; reflexivity].
    - apply (alike_swap sc 1 Bc [x] [c] []); try reflexivity; try assumption.
      + cbn. rewrite Hr. reflexivity.
      + intros d [<-|[]]. exact Hix.
      + intros d [<-|[]]. exact Hic.
  Qed.

  Lemma last_card_noflush_spec sc Bc board weight m :
    sc_ok sc 1 Bc -> (forall s, s < 4 -> (nth (N.to_nat s) sc 0 < 4)%nat) -> length Bc = 4%nat ->
    hand_of base Bc board -> 1 <= m -> agr p weight (wt * m) -> (B -> wt * m * 6 < 2 ^ 64) ->
    forall fuel D i, legal Bc (skipn i D) -> (length D - i < fuel)%nat ->
    emits1 p B step fine (last_card_noflush p emit fuel D board weight i) (covers m Bc 1 (skipn i D)).
  Proof.
    intros Hsc Hnf Hlen Hof Hm1 Hw HB. induction fuel as [|fuel IH]; intros D i HL Hf; [lia|].
    cbn [last_card_noflush]. destruct (Nat.ltb_spec i (length D)) as [Hi|Hi].
    2:{ rewrite skipn_all2 in * by lia. apply emits1_nil. unfold covers.
        eapply sums_ext; [apply sums_nil|]. intros G _. cbn. lia. }
    destruct (nth_error D i) as [c|] eqn:E; [|apply nth_error_None in E; lia].
    pose proof (skipn_cons_nth _ _ _ E) as Hsk.
    rewrite (proj2 (get_ret D i c) E). cbn [bind].
    assert (HcD : In c (skipn i D)) by (rewrite Hsk; left; reflexivity).
    pose proof (legal_one _ _ _ HL HcD) as HLc.
    assert (Hcard : is_card c).
    { destruct HLc as (_ & H & _). rewrite Forall_forall in H. apply H, in_or_app. right. left. reflexivity. }
    destruct (CARDS_get_ok c Hcard) as (x & Hx & _). rewrite Hx. cbn [bind].
    destruct (hand_add_snoc board Bc c x HLc Hof ltac:(lia) Hx) as (b' & Hb' & Hof'). rewrite Hb'. cbn [bind].
    destruct (same_rank_run_spec D (rank_of c) (S (length D)) (S i) 1) as (grp & rest & Hg & Hgr & Hrun); [lia|].
    rewrite crank_rank, Hrun. cbn [bind].
    assert (Hsplit : skipn i D = (c :: grp) ++ rest) by (rewrite Hsk, Hg; reflexivity).
    assert (Hrest : rest = skipn (S i + length grp) D).
    { rewrite <- skipn_skipn', Hg, skipn_app, skipn_all, Nat.sub_diag. reflexivity. }
    assert (Hn : (length (c :: grp) <= 4)%nat).
    { apply (ranks_eq_le4 _ (rank_of c)).
      - destruct HL as (H & _). rewrite Hsplit in H. apply NoDup_app_r in H. eapply NoDup_app_l. exact H.
      - intros d [<-|Hd]; [reflexivity|apply Hgr; exact Hd]. }
    cbn [length] in Hn.
    eapply emits1_pure.
    { apply (may_mul p B weight (1 + N.of_nat (length grp)) (wt * m) (1 + N.of_nat (length grp))).
      - exact Hw.
      - apply agr_small. change (2 ^ 64) with 18446744073709551616. lia.
      - intros b. specialize (HB b). nia. }
    intros w Hwt. cbv beta in Hwt.
    change (fun st => st0 <- emit w b' false st ;; last_card_noflush p emit fuel D board weight (S i + length grp) st0)
      with (fun st => st0 <- step st (w, b', false) ;; last_card_noflush p emit fuel D board weight (S i + length grp) st0).
    assert (Hent : entry_ok (w, b', false) (m * (1 + N.of_nat (length grp)), Bc ++ [c])).
    { split; [|split; [|split; [|split]]]; cbn [fst snd].
      - nia.
      - rewrite N.mul_assoc. exact Hwt.
      - exact Hof'.
      - apply (legal_board Bc [c] 1); [exact HLc|lia|left; reflexivity].
      - intros _ s Hs. rewrite tc_app. pose proof (nsuit_le s [c]) as H1. cbn [length] in H1.
        assert (H2 : (tc s Bc + 1 < 5)%nat) by (eapply irr_tc; [exact Hsc|exact Hs|specialize (Hnf s Hs); lia]). lia. }
    apply emits1_step; [eexists; exact Hent|]. eapply emits1_weaken.
    { apply IH; [|lia]. rewrite <- Hrest. eapply legal_sub; [exact HL|]. rewrite Hsplit. reflexivity. }
    intros es Hes. unfold covers in *. rewrite <- Hrest in Hes.
    eapply sums_ext.
    { change ((w, b', false) :: es) with ([(w, b', false)] ++ es). eapply sums_app; [|exact Hes].
      apply (sums_one w b' false (m * (1 + N.of_nat (length grp))) (Bc ++ [c])). exact Hent. }
    intros G HG. cbv beta. rewrite !sum_choose_1, Hsplit, sumf_app, (N.mul_add_distr_l m (sumf _ _)). f_equal.
    rewrite (sumf_ext _ (fun _ => G (Bc ++ [c]))).
    - rewrite sumf_const. cbn [length]. rewrite Nat2N.inj_succ. generalize (G (Bc ++ [c])). intros g. nia.
    - intros d Hd. apply (swap_one G sc Bc c d (skipn i D)); try assumption.
      + rewrite Hsplit. apply in_or_app. left. exact Hd.
      + destruct Hd as [<-|Hd]; [reflexivity|apply Hgr; exact Hd].
      + unfold irr. specialize (Hnf (suit_of c) (suit_lt c)). lia.
      + unfold irr. specialize (Hnf (suit_of d) (suit_lt d)). lia.
  Qed.

  Definition irrb (sc : list nat) (rem : nat) (c : N) : bool := (nth (N.to_nat (suit_of c)) sc 0 + rem <? 5)%nat.

  Lemma irrelevant_run_spec sc Bc D r : sc_ok sc 1 Bc -> forall l j m, skipn j D = l ->
    Sorted (fun a b => rank_of b <= rank_of a) l -> (forall c, In c l -> rank_of c <= r) ->
    irrelevant_run D sc (range j (length D)) r m =
    Ret (m + N.of_nat (length (filter (fun c => irrb sc 1 c && (rank_of c =? r)) l))).
  Proof.
    intros Hsc. induction l as [|c l IH]; intros j m Hsk Hsort Hle.
    - assert (Hj : (length D <= j)%nat).
      { apply f_equal with (f := @length N) in Hsk. rewrite skipn_length in Hsk. cbn in Hsk. lia. }
      rewrite range_empty by exact Hj. cbn [irrelevant_run filter length]. f_equal. lia.
    - assert (E : nth_error D j = Some c).
      { pose proof (nth_error_skipn D j 0) as H. rewrite Hsk, Nat.add_0_r in H. cbn in H. congruence. }
      assert (Hj : (j < length D)%nat) by (apply nth_error_Some; congruence).
      rewrite range_cons by exact Hj. cbn [irrelevant_run].
      rewrite (proj2 (get_ret D j c) E). cbn [bind]. rewrite crank_rank.
      pose proof (skipn_cons_nth _ _ _ E) as Hsk'. rewrite Hsk in Hsk'.
      assert (Hl : l = skipn (S j) D) by congruence. subst l.
      assert (Hall : StronglySorted (fun a b => rank_of b <= rank_of a) (c :: skipn (S j) D)).
      { apply Sorted_StronglySorted; [|exact Hsort]. intros a b d H1 H2. lia. }
      inversion Hall as [|? ? Hss Hfa]; subst. rewrite Forall_forall in Hfa.
      cbn [filter].
      destruct (N.eqb_spec (rank_of c) r) as [Hr|Hr].
      + cbn [negb]. rewrite (get_suit sc 1 Bc c Hsc). cbn [bind]. rewrite andb_true_r.
        rewrite (IH (S j)).
        * f_equal. unfold irrb at 2. destruct (Nat.ltb_spec (nth (N.to_nat (suit_of c)) sc 0%nat + 1) 5) as [H|H];
            destruct (Nat.ltb_spec (nth (N.to_nat (suit_of c)) sc 0%nat) 4) as [H'|H']; try lia; cbn [length]; lia.
        * reflexivity.
        * inversion Hsort; assumption.
        * intros d Hd. apply Hle. right. exact Hd.
      + cbn [negb]. rewrite andb_false_r. f_equal.
        assert (Hnil : filter (fun c0 => irrb sc 1 c0 && (rank_of c0 =? r)) (skipn (S j) D) = []).
        { apply filter_none. intros d Hd. pose proof (Hfa d Hd) as H1. pose proof (Hle c (or_introl eq_refl)) as H2.
          destruct (N.eqb_spec (rank_of d) r); [|apply andb_false_r]. exfalso. lia. }
        rewrite Hnil. cbn. lia.
  Qed.

  Lemma last_card_flush_spec sc Bc board weight m D :
    sc_ok sc 1 Bc -> length Bc = 4%nat -> hand_of base Bc board -> 1 <= m -> agr p weight (wt * m) -> (B -> wt * m * 6 < 2 ^ 64) ->
    forall l i lr, skipn i D = l -> legal Bc l -> Sorted (fun a b => rank_of b <= rank_of a) l ->
    (forall c, In c l -> rank_of c <= lr) ->
    emits p B step fine (fun st => foldM (last_card_flush_step p emit D sc board weight) (range i (length D)) (lr, st))
      (fun _ es => sums es (fun G => m * sumf (fun c => G (Bc ++ [c])) (filter (fun c => negb (irrb sc 1 c && (rank_of c =? lr))) l))).
  Proof.
    intros Hsc Hlen Hof Hm1 Hw HB. induction l as [|c l IH]; intros i lr Hsk HL Hsort Hle.
    { assert (Hj : (length D <= i)%nat).
      { apply f_equal with (f := @length N) in Hsk. rewrite skipn_length in Hsk. cbn in Hsk. lia. }
      rewrite range_empty by exact Hj. cbn [foldM filter]. apply emits_ret. eapply sums_ext; [apply sums_nil|]. intros G _. cbn. lia. }
    assert (E : nth_error D i = Some c).
    { pose proof (nth_error_skipn D i 0) as H. rewrite Hsk, Nat.add_0_r in H. cbn in H. congruence. }
    assert (Hi : (i < length D)%nat) by (apply nth_error_Some; congruence).
    pose proof (skipn_cons_nth _ _ _ E) as Hsk'. rewrite Hsk in Hsk'.
    assert (Hl : l = skipn (S i) D) by congruence. subst l.
    assert (HcD : In c (c :: skipn (S i) D)) by (left; reflexivity).
    pose proof (legal_one _ _ _ HL HcD) as HLc.
    assert (Hall : StronglySorted (fun a b => rank_of b <= rank_of a) (c :: skipn (S i) D)).
    { apply Sorted_StronglySorted; [|exact Hsort]. intros a b d H1 H2. lia. }
    inversion Hall as [|? ? Hss Hfa]; subst. rewrite Forall_forall in Hfa.
    assert (HLl : legal Bc (skipn (S i) D)) by (eapply (legal_sub Bc _ [c]); [exact HL|reflexivity]).
    assert (Hsl : Sorted (fun a b => rank_of b <= rank_of a) (skipn (S i) D)) by (inversion Hsort; assumption).
    assert (Hcard : is_card c).
    { destruct HLc as (_ & H & _). rewrite Forall_forall in H. apply H, in_or_app. right. left. reflexivity. }
    destruct (CARDS_get_ok c Hcard) as (x & Hx & _).
    destruct (hand_add_snoc board Bc c x HLc Hof ltac:(lia) Hx) as (b' & Hb' & Hof').
    assert (Hb5 : board5 (Bc ++ [c])) by (apply (legal_board Bc [c] 1); [exact HLc|lia|left; reflexivity]).
    rewrite range_cons by exact Hi. cbn [foldM].
    apply (emits_ext p B step fine (fun st => '(lr', st') <- last_card_flush_step p emit D sc board weight (lr, st) i ;;
              foldM (last_card_flush_step p emit D sc board weight) (range (S i) (length D)) (lr', st'))).
    { intros st. destruct (last_card_flush_step p emit D sc board weight (lr, st) i) as [[lr' st']|f]; reflexivity. }
    unfold last_card_flush_step at 1. rewrite (proj2 (get_ret D i c) E). cbn [bind].
    rewrite (get_suit sc 1 Bc c Hsc). cbn [bind]. rewrite crank_rank.
    assert (Hirr : (nth (N.to_nat (suit_of c)) sc 0 <? 4)%nat = irrb sc 1 c).
    { unfold irrb. destruct (Nat.ltb_spec (nth (N.to_nat (suit_of c)) sc 0%nat) 4), (Nat.ltb_spec (nth (N.to_nat (suit_of c)) sc 0%nat + 1) 5); try reflexivity; lia. }
    rewrite Hirr. cbn [filter].
    destruct (irrb sc 1 c && (rank_of c =? lr)) eqn:Hskip.
    { (* skipped *)
      cbn [negb bind]. eapply (IH (S i) lr); try assumption; try reflexivity.
      intros d Hd. apply Hle. right. exact Hd. }
    cbn [negb].
    destruct (irrb sc 1 c) eqn:Hic.
    - (* first irrelevant card of its rank *)
      cbn [andb] in Hskip. apply N.eqb_neq in Hskip.
      rewrite (irrelevant_run_spec sc Bc D (rank_of c) Hsc (skipn (S i) D) (S i) 1 eq_refl Hsl) by exact Hfa.
      cbn [bind]. rewrite Hx. cbn [bind]. rewrite Hb'. cbn [bind].
      set (grp := filter (fun c0 => irrb sc 1 c0 && (rank_of c0 =? rank_of c)) (skipn (S i) D)).
      assert (Hn : (length (c :: grp) <= 4)%nat).
      { apply (ranks_eq_le4 _ (rank_of c)).
        - destruct HL as (H & _). apply NoDup_app_r in H. inversion H as [|? ? Hni Hnd]; subst. constructor.
          + unfold grp. rewrite filter_In. intros [Hin _]. contradiction.
          + apply NoDup_filter. exact Hnd.
        - intros d [<-|Hd]; [reflexivity|]. unfold grp in Hd. apply filter_In in Hd as [_ Hd].
          apply andb_prop in Hd as [_ Hd]. apply N.eqb_eq in Hd. exact Hd. }
      cbn [length] in Hn.
      apply (emits_ext p B step fine (fun st => w <- mul_ 64 p weight (1 + N.of_nat (length grp)) ;;
               st' <- step st (w, b', true) ;; foldM (last_card_flush_step p emit D sc board weight) (range (S i) (length D)) (rank_of c, st'))).
      { intros st. unfold step. destruct (mul_ 64 p weight (1 + N.of_nat (length grp))) as [w|]; cbn [bind]; [|reflexivity].
        destruct (emit w b' true st); reflexivity. }
      eapply emits_pure.
      { apply (may_mul p B weight (1 + N.of_nat (length grp)) (wt * m) (1 + N.of_nat (length grp))).
        - exact Hw.
        - apply agr_small. change (2 ^ 64) with 18446744073709551616. lia.
        - intros b. specialize (HB b). nia. }
      intros w Hwt. cbv beta in Hwt.
      assert (Hent : entry_ok (w, b', true) (m * (1 + N.of_nat (length grp)), Bc ++ [c])).
      { split; [|split; [|split; [|split]]]; cbn [fst snd]; try assumption; try discriminate; [nia|]. rewrite N.mul_assoc. exact Hwt. }
      eapply (emits1_then p B step fine (fun st => step st (w, b', true)) _ (fun es => es = [(w, b', true)])).
      { apply emits1_one; [eexists; exact Hent|reflexivity]. }
      intros es0 ->. eapply emits_weaken.
      { apply (IH (S i) (rank_of c)); try assumption; reflexivity. }
      intros lr' es Hes. cbv beta in Hes. eapply sums_ext.
      { eapply sums_app; [|exact Hes]. apply (sums_one w b' true (m * (1 + N.of_nat (length grp))) (Bc ++ [c])). exact Hent. }
      intros G HG. cbv beta. rewrite sumf_cons.
      rewrite (filter_ext_in (fun c0 => negb (irrb sc 1 c0 && (rank_of c0 =? lr))) (fun _ => true) (skipn (S i) D)).
      2:{ intros d Hd. pose proof (Hfa d Hd) as H1. pose proof (Hle c (or_introl eq_refl)) as H2.
          destruct (N.eqb_spec (rank_of d) lr); [exfalso; lia|]. rewrite andb_false_r. reflexivity. }
      rewrite (filter_all (fun _ => true)) by (apply forallb_forall; reflexivity).
      rewrite (sumf_split (fun c0 => G (Bc ++ [c0])) (fun c0 => irrb sc 1 c0 && (rank_of c0 =? rank_of c)) (skipn (S i) D)).
      fold grp. rewrite (sumf_ext _ (fun _ => G (Bc ++ [c])) grp).
      + rewrite sumf_const. generalize (G (Bc ++ [c])). intros g. nia.
      + intros d Hd. unfold grp in Hd. apply filter_In in Hd as [Hd Hdd]. apply andb_prop in Hdd as [Hd1 Hd2].
        apply N.eqb_eq in Hd2. apply (swap_one G sc Bc c d (c :: skipn (S i) D)); try assumption.
        * right. exact Hd.
        * unfold irrb in Hic. apply Nat.ltb_lt in Hic. exact Hic.
        * unfold irrb in Hd1. apply Nat.ltb_lt in Hd1. exact Hd1.
    - (* a card that can make a flush *)
      cbn [bind]. rewrite Hx. cbn [bind]. rewrite Hb'. cbn [bind].
      apply (emits_ext p B step fine (fun st => w <- mul_ 64 p weight 1 ;;
               st' <- step st (w, b', true) ;; foldM (last_card_flush_step p emit D sc board weight) (range (S i) (length D)) (lr, st'))).
      { intros st. unfold step. destruct (mul_ 64 p weight 1) as [w|]; cbn [bind]; [|reflexivity].
        destruct (emit w b' true st); reflexivity. }
      eapply emits_pure.
      { apply (may_mul p B weight 1 (wt * m) 1); [exact Hw|apply agr_1|]. intros b. specialize (HB b). lia. }
      intros w Hwt. cbv beta in Hwt. rewrite N.mul_1_r in Hwt.
      assert (Hent : entry_ok (w, b', true) (m, Bc ++ [c])).
      { split; [|split; [|split; [|split]]]; cbn [fst snd]; try assumption; discriminate. }
      eapply (emits1_then p B step fine (fun st => step st (w, b', true)) _ (fun es => es = [(w, b', true)])).
      { apply emits1_one; [eexists; exact Hent|reflexivity]. }
      intros es0 ->. eapply emits_weaken.
      { apply (IH (S i) lr); try assumption; try reflexivity. intros d Hd. apply Hle. right. exact Hd. }
      intros lr' es Hes. cbv beta in Hes. eapply sums_ext.
      { eapply sums_app; [|exact Hes]. apply (sums_one w b' true m (Bc ++ [c])). exact Hent. }
      intros G HG. cbv beta. rewrite sumf_cons. lia.
  Qed.

  Lemma last_card_spec sc Bc board weight m D start :
    sc_ok sc 1 Bc -> length Bc = 4%nat -> hand_of base Bc board -> 1 <= m -> agr p weight (wt * m) -> (B -> wt * m * 6 < 2 ^ 64) ->
    legal Bc (skipn start D) -> Sorted (fun a b => rank_of b <= rank_of a) (skipn start D) ->
    emits1 p B step fine (last_card p emit D sc board start weight) (covers m Bc 1 (skipn start D)).
  Proof.
    intros Hsc Hlen Hof Hm1 Hw HB HL Hsort. unfold last_card.
    pose proof Hsc as [H4 _]. destruct sc as [|n0 [|n1 [|n2 [|n3 [|]]]]]; try discriminate. clear H4.
    cbn [get nth_error bind].
    destruct ((n0 <? 4)%nat && (n1 <? 4)%nat && (n2 <? 4)%nat && (n3 <? 4)%nat) eqn:Hnf.
    - apply (last_card_noflush_spec [n0; n1; n2; n3]); try assumption; [|lia].
      apply andb_prop in Hnf as [Hnf H3]. apply andb_prop in Hnf as [Hnf H2]. apply andb_prop in Hnf as [H0 H1].
      apply Nat.ltb_lt in H0, H1, H2, H3. intros s Hs.
      assert (Hcase : s = 0 \/ s = 1 \/ s = 2 \/ s = 3) by lia. destruct Hcase as [->|[->|[->| ->]]]; cbn; assumption.
    - eapply emits1_drop.
      + eapply (last_card_flush_spec _ Bc board weight m D Hsc Hlen Hof Hm1 Hw HB (skipn start D) start U8MAX); try assumption; try reflexivity.
        intros c Hc. destruct HL as (_ & Hcards & _). rewrite Forall_forall in Hcards.
        assert (is_card c) by (apply Hcards, in_or_app; right; exact Hc). pose proof (rank_lt c H). unfold U8MAX. lia.
      + intros lr es Hes. unfold covers. eapply sums_ext; [exact Hes|]. intros G _. cbv beta. rewrite sum_choose_1. f_equal.
        rewrite filter_all; [reflexivity|]. apply forallb_forall. intros c Hc.
        destruct (N.eqb_spec (rank_of c) U8MAX) as [E|E]; [|rewrite andb_false_r; reflexivity].
        exfalso. destruct HL as (_ & Hcards & _). rewrite Forall_forall in Hcards.
        assert (is_card c) by (apply Hcards, in_or_app; right; exact Hc). pose proof (rank_lt c H). unfold U8MAX in E. lia.
  Qed.

  (* ----------------------------------------------------------------------- *)
  (** ** Gathering irrelevant cards *)

  Lemma deck_step_swap i a b D ca cb : (i <= a)%nat -> (i <= b)%nat ->
    nth_error D a = Some ca -> nth_error D b = Some cb -> rank_of ca = rank_of cb ->
    exists D', swap D a b = Ret D' /\ deck_step i D D' /\
      (forall k, nth_error D' k = if (k =? b)%nat then Some ca else if (k =? a)%nat then Some cb else nth_error D k).
  Proof.
    intros Ha Hb Ea Eb Hr. destruct (swap_spec D a b ca cb Ea Eb) as (D' & H1 & H2 & H3 & H4).
    exists D'. split; [exact H1|]. split; [|exact H4].
    assert (Hf : firstn i D' = firstn i D).
    { apply nth_error_ext. intros k. destruct (Nat.ltb_spec k i) as [Hk|Hk].
      - rewrite !nth_error_firstn, H4 by exact Hk.
        destruct (Nat.eqb_spec k b); [lia|]. destruct (Nat.eqb_spec k a); [lia|]. reflexivity.
      - rewrite !(proj2 (nth_error_None _ _)); [reflexivity| |]; rewrite firstn_length; lia. }
    split; [exact Hf|]. split.
    - rewrite <- (firstn_skipn i D), <- (firstn_skipn i D'), Hf in H3. apply Permutation_app_inv_l in H3. exact H3.
    - apply nth_error_ext. intros k. rewrite !map_nth_error', H4.
      destruct (Nat.eqb_spec k b) as [->|]; [rewrite Eb; cbn; congruence|].
      destruct (Nat.eqb_spec k a) as [->|]; [rewrite Ea; cbn; congruence|]. reflexivity.
  Qed.

  Lemma gather_spec sc rem Bc i r : sc_ok sc rem Bc -> forall n j D cnt,
    (length D - j = n)%nat -> (j <= length D)%nat -> (i + cnt <= j)%nat ->
    (forall k, (i <= k < j)%nat -> exists c, nth_error D k = Some c /\ rank_of c = r) ->
    (forall k, (i <= k < i + cnt)%nat -> exists c, nth_error D k = Some c /\ irr sc rem c) ->
    exists D' cnt', gather_irrelevant sc rem i r (range j (length D)) D cnt = Ret (D', cnt') /\
      deck_step i D D' /\ (cnt <= cnt')%nat /\ (i + cnt' <= length D)%nat /\
      (forall k, (i <= k < i + cnt')%nat -> exists c, nth_error D' k = Some c /\ irr sc rem c /\ rank_of c = r).
  Proof.
    intros Hsc. induction n as [|n IH]; intros j D cnt Hn Hj Hcnt Hrank Hirr.
    - rewrite range_empty by lia. cbn [gather_irrelevant]. exists D, cnt. split; [reflexivity|].
      split; [apply deck_step_refl|]. split; [lia|]. split; [lia|].
      intros k Hk. destruct (Hirr k Hk) as (c & E & Hi). destruct (Hrank k ltac:(lia)) as (c' & E' & Hr).
      rewrite E in E'. inversion E'; subst c'. exists c. auto.
    - rewrite range_cons by lia. cbn [gather_irrelevant].
      destruct (nth_error D j) as [c|] eqn:E; [|apply nth_error_None in E; lia].
      rewrite (proj2 (get_ret D j c) E). cbn [bind]. rewrite crank_rank.
      destruct (N.eqb_spec (rank_of c) r) as [Hr|Hr]; cbn [negb].
      2:{ exists D, cnt. split; [reflexivity|]. split; [apply deck_step_refl|]. split; [lia|]. split; [lia|].
          intros k Hk. destruct (Hirr k Hk) as (d & Ed & Hi). destruct (Hrank k ltac:(lia)) as (d' & E' & Hrd).
          rewrite Ed in E'. inversion E'; subst d'. exists d. auto. }
      rewrite (get_suit sc rem Bc c Hsc). cbn [bind].
      destruct (Nat.ltb_spec (nth (N.to_nat (suit_of c)) sc 0%nat + rem) 5) as [Hic|Hic].
      2:{ apply IH; try lia; [|exact Hirr].
          intros k Hk. destruct (Nat.eq_dec k j) as [->|Hkj]; [exists c; auto|apply Hrank; lia]. }
      destruct (Nat.eqb_spec j (i + cnt)) as [Hji|Hji].
      + cbn [bind]. destruct (IH (S j) D (S cnt)) as (D' & cnt' & H1 & H2 & H3 & H4 & H5); try lia.
        * intros k Hk. destruct (Nat.eq_dec k j) as [->|Hkj]; [exists c; auto|apply Hrank; lia].
        * intros k Hk. destruct (Nat.eq_dec k j) as [->|Hkj]; [exists c; auto|apply Hirr; lia].
        * exists D', cnt'. split; [exact H1|]. split; [exact H2|]. split; [lia|]. split; [exact H4|exact H5].
      + destruct (Hrank (i + cnt)%nat ltac:(lia)) as (d & Ed & Hrd).
        destruct (deck_step_swap i j (i + cnt) D c d) as (D1 & Hs & Hd1 & Hnth); try lia; try assumption; try congruence.
        rewrite Hs. cbn [bind]. pose proof (deck_step_length _ _ _ Hd1) as Hlen1. rewrite <- Hlen1.
        destruct (IH (S j) D1 (S cnt)) as (D' & cnt' & H1 & H2 & H3 & H4 & H5); try lia.
        * intros k Hk. rewrite Hnth. destruct (Nat.eqb_spec k (i + cnt)); [exists c; auto|].
          destruct (Nat.eqb_spec k j); [exists d; auto|]. apply Hrank. lia.
        * intros k Hk. rewrite Hnth. destruct (Nat.eqb_spec k (i + cnt)); [exists c; auto|].
          destruct (Nat.eqb_spec k j); [lia|]. apply Hirr. lia.
        * exists D', cnt'. split; [exact H1|]. split; [eapply deck_step_trans; eassumption|]. split; [lia|]. split; [lia|exact H5].
  Qed.

  (* ----------------------------------------------------------------------- *)
  (** ** The recursion *)

  (* the body of the foldM over repeats, and the while loop, of enumerate_board_rec *)
  Definition repeats_step (rec : hand -> list N -> list nat -> nat -> nat -> N -> St -> outcome (list N * St))
      (sc : list nat) (rem : nat) (weight : N) (i cnt : nat)
      : hand * list N * St -> nat -> outcome (hand * list N * St) :=
    fun '(new_board, deck, st) repeats =>
    row <- get BINOM_COEFF cnt ;;
    b <- get row repeats ;;
    new_weight <- mul_ 64 p b weight ;;
    d <- get deck (i + repeats - 1) ;;
    x <- CARDS_get d ;;
    new_board <- hand_add p new_board x ;;
    if (repeats =? rem)%nat then
      st <- emit new_weight new_board true st ;; Ret (new_board, deck, st)
    else
      '(deck, st) <- rec new_board deck sc (rem - repeats)%nat (i + cnt)%nat new_weight st ;;
      Ret (new_board, deck, st).

  Definition while_loop (rec : hand -> list N -> list nat -> nat -> nat -> N -> St -> outcome (list N * St))
      (board : hand) (sc : list nat) (rem : nat) (weight : N) :=
    fix while_loop (lfuel : nat) (i : nat) (deck : list N) (st : St) : outcome (list N * St) :=
    match lfuel with
    | O => Fail OutOfFuel
    | S lfuel' =>
        if (i <? length deck)%nat then
          c <- get deck i ;;
          n <- get sc (csuit c) ;;
          if (n + rem <? 5)%nat then
            '(deck, cnt) <- gather_irrelevant sc rem i (crank c) (range (S i) (length deck)) deck 1 ;;
            '(_, deck, st) <- foldM (repeats_step rec sc rem weight i cnt)
                                (range 1 (Nat.min cnt rem + 1)) (board, deck, st) ;;
            while_loop lfuel' (i + cnt)%nat deck st
          else
            x <- CARDS_get c ;;
            new_board <- hand_add p board x ;;
            sc' <- upd sc (csuit c) (S n) ;;
            '(deck, st) <- rec new_board deck sc' (rem - 1)%nat (S i) weight st ;;
            while_loop lfuel' (S i) deck st
        else Ret (deck, st)
    end.

  Lemma enumerate_unfold fuel board deck sc rem start weight st :
    enumerate_board_rec p emit (S fuel) board deck sc rem start weight st =
    if (rem =? 1)%nat then st <- last_card p emit deck sc board start weight st ;; Ret (deck, st)
    else while_loop (enumerate_board_rec p emit fuel) board sc rem weight (S (length deck)) start deck st.
  Proof. reflexivity. Qed.

  Definition rec_ok (rec : hand -> list N -> list nat -> nat -> nat -> N -> St -> outcome (list N * St)) (fuel : nat) : Prop :=
    forall rem Bc board D sc start weight m, (1 <= rem <= fuel)%nat -> sc_ok sc rem Bc -> (length Bc + rem = 5)%nat ->
      hand_of base Bc board -> 1 <= m -> agr p weight (wt * m) -> (B -> wt * m * 6 ^ N.of_nat rem < 2 ^ 64) ->
      legal Bc (skipn start D) -> Sorted (fun a b => rank_of b <= rank_of a) (skipn start D) ->
      emits p B step fine (rec board D sc rem start weight)
        (fun D' es => deck_step start D D' /\ covers m Bc rem (skipn start D) es).

  Lemma binom_get cnt k : (1 <= k <= cnt)%nat -> (cnt <= 4)%nat ->
    exists row, get BINOM_COEFF cnt = Ret row /\ get row k = Ret (binom cnt k).
  Proof.
    intros Hk Hc. rewrite (binom_small cnt k Hc Hk). change [[0; 0; 0; 0; 0]; [0; 1; 0; 0; 0]; [1; 2; 1; 0; 0]; [1; 3; 3; 1; 0]; [1; 4; 6; 4; 1]] with BINOM_COEFF.
    assert (Hcase : cnt = 1%nat \/ cnt = 2%nat \/ cnt = 3%nat \/ cnt = 4%nat) by lia.
    assert (Hcase' : k = 1%nat \/ k = 2%nat \/ k = 3%nat \/ k = 4%nat) by lia.
    destruct Hcase as [->|[->|[->| ->]]]; eexists; (split; [reflexivity|]);
      destruct Hcase' as [->|[->|[->| ->]]]; try lia; reflexivity.
  Qed.

  Lemma sorted_ranks_ext start D D' : map rank_of D' = map rank_of D ->
    Sorted (fun a b => rank_of b <= rank_of a) (skipn start D) -> Sorted (fun a b => rank_of b <= rank_of a) (skipn start D').
  Proof.
    intros H. assert (H' : map rank_of (skipn start D') = map rank_of (skipn start D)).
    { apply nth_error_ext. intros k. rewrite !map_nth_error', !nth_error_skipn, <- !map_nth_error', H. reflexivity. }
    revert H'. generalize (skipn start D) (skipn start D'). clear. intros l l' H Hs. revert l' H.
    induction Hs as [|x l Hs IH Hx]; intros [|x' l'] H; cbn in H; try discriminate; constructor.
    - apply IH. congruence.
    - inversion H as [[H1 H2]]. destruct l as [|y l], l' as [|y' l']; cbn in H2; try discriminate; constructor.
      inversion Hx; subst. inversion H2. congruence.
  Qed.

  Lemma sorted_skipn i n (D : list N) : Sorted (fun a b => rank_of b <= rank_of a) (skipn i D) ->
    Sorted (fun a b => rank_of b <= rank_of a) (skipn (i + n) D).
  Proof.
    rewrite <- skipn_skipn'. generalize (skipn i D). induction n as [|n IH]; intros l Hs; [exact Hs|].
    destruct l as [|x l]; [constructor|]. cbn [skipn]. apply IH. inversion Hs; assumption.
  Qed.

  Lemma legal_app Bc S T : legal Bc (S ++ T) -> legal (Bc ++ S) T.
  Proof. intros H. eapply legal_perm; [|exact H]. rewrite app_assoc. reflexivity. Qed.

  Lemma firstn_choose (A : Type) (l : list A) : forall k, (k <= length l)%nat -> In (firstn k l) (choose k l).
  Proof.
    induction l as [|c l IH]; intros [|k] Hk.
    - left; reflexivity.
    - cbn in Hk. lia.
    - rewrite choose_0. left; reflexivity.
    - cbn [firstn choose]. apply in_or_app. left. apply in_map, IH. cbn in Hk. lia.
  Qed.
  Lemma binom_pos n k : (k <= n)%nat -> 1 <= binom n k.
  Proof.
    intros Hk. unfold binom. pose proof (firstn_choose nat (seq 0 n) k) as H. rewrite seq_length in H. specialize (H Hk).
    destruct (choose k (seq 0 n)); [destruct H|cbn [length]; lia].
  Qed.

  Lemma repeats_spec rec fuel sc rem Bc weight m i cnt irrs D0 :
    rec_ok rec fuel -> (rem <= S fuel)%nat -> sc_ok sc rem Bc -> (length Bc + rem = 5)%nat ->
    1 <= m -> agr p weight (wt * m) -> (B -> wt * m * 6 ^ N.of_nat rem < 2 ^ 64) ->
    legal Bc (irrs ++ skipn (i + cnt) D0) -> Sorted (fun a b => rank_of b <= rank_of a) (skipn (i + cnt) D0) ->
    length irrs = cnt -> (cnt <= 4)%nat -> (forall c, In c irrs -> irr sc rem c) ->
    (forall k, (k < cnt)%nat -> nth_error D0 (i + k) = nth_error irrs k) ->
    forall n r board D, (Nat.min cnt rem + 1 - r = n)%nat -> (1 <= r)%nat ->
      deck_step (i + cnt) D0 D -> hand_of base (Bc ++ firstn (r - 1) irrs) board ->
      emits p B step fine (fun st => foldM (repeats_step rec sc rem weight i cnt) (range r (Nat.min cnt rem + 1)) (board, D, st))
        (fun x es => deck_step (i + cnt) D0 (snd x) /\
           sums es (fun G => m * sumf (fun k => binom cnt k *
             sumf (fun T => G ((Bc ++ firstn k irrs) ++ T)) (choose (rem - k) (skipn (i + cnt) D0))) (range r (Nat.min cnt rem + 1)))).
  Proof.
    intros Hrec Hfuel Hsc Hlen Hm1 Hw HB HL Hsort Hil Hc4 Hii Hnth.
    induction n as [|n IH]; intros r board D Hn Hr HD Hof.
    { rewrite range_empty by lia. cbn [foldM]. apply (emits_ret p B step fine (board, D)). split; [exact HD|].
      eapply sums_ext; [apply sums_nil|]. intros G _. cbn. lia. }
    assert (Hrc : (r <= cnt)%nat) by lia. assert (Hrr : (r <= rem)%nat) by lia.
    rewrite range_cons by lia. cbn [foldM].
    destruct (nth_error irrs (r - 1)) as [c|] eqn:E; [|apply nth_error_None in E; lia].
    assert (ED : nth_error D (i + r - 1) = Some c).
    { rewrite (deck_step_nth _ _ _ _ HD) by lia. replace (i + r - 1)%nat with (i + (r - 1))%nat by lia. rewrite Hnth by lia. exact E. }
    assert (Hfirst : firstn r irrs = firstn (r - 1) irrs ++ [c]).
    { replace r with (S (r - 1)) at 1 by lia. clear - E. revert irrs E. generalize (r - 1)%nat as k.
      induction k as [|k IH]; intros [|y l] E; cbn in E; try discriminate; [inversion E; reflexivity|].
      change (firstn (S (S k)) (y :: l)) with (y :: firstn (S k) l). rewrite (IH l E). reflexivity. }
    assert (HLr : legal (Bc ++ firstn r irrs) (skipn (i + cnt) D0)).
    { apply legal_app. eapply (legal_sub Bc _ (skipn r irrs)); [exact HL|].
      rewrite <- (firstn_skipn r irrs) at 1. rewrite <- app_assoc. rewrite app_assoc.
      rewrite (Permutation_app_comm (firstn r irrs) (skipn r irrs)), <- app_assoc. reflexivity. }
    assert (HLc : legal (Bc ++ firstn (r - 1) irrs) [c]).
    { destruct HLr as (H1 & H2 & H3). rewrite Hfirst in H1, H2, H3. rewrite app_assoc in H1, H2, H3. split; [|split].
      - eapply NoDup_app_l; exact H1.
      - apply Forall_app in H2 as [H2 _]; exact H2.
      - intros d Hd. apply H3, in_or_app. left. exact Hd. }
    assert (Hcard : is_card c).
    { destruct HLc as (_ & H & _). rewrite Forall_forall in H. apply H, in_or_app. right. left. reflexivity. }
    destruct (CARDS_get_ok c Hcard) as (x & Hx & _).
    assert (Hlen' : length (Bc ++ firstn (r - 1) irrs) = (length Bc + (r - 1))%nat) by (rewrite app_length, firstn_length; lia).
    assert (Hlenr : length (Bc ++ firstn r irrs) = (length Bc + r)%nat) by (rewrite app_length, firstn_length; lia).
    destruct (hand_add_snoc board _ c x HLc Hof ltac:(lia) Hx) as (b' & Hb' & Hof').
    rewrite <- app_assoc, <- Hfirst in Hof'.
    destruct (binom_get cnt r ltac:(lia) Hc4) as (row & Hrow & Hbin).
    apply (emits_ext p B step fine (fun st => w <- mul_ 64 p (binom cnt r) weight ;;
      '(x', st') <- (if (r =? rem)%nat then st' <- step st (w, b', true) ;; Ret (b', D, st')
                     else '(D', st') <- rec b' D sc (rem - r)%nat (i + cnt)%nat w st ;; Ret (b', D', st')) ;;
      foldM (repeats_step rec sc rem weight i cnt) (range (S r) (Nat.min cnt rem + 1)) (fst x', snd x', st'))).
    { intros st. unfold repeats_step at 2. rewrite Hrow. cbn [bind]. rewrite Hbin. cbn [bind].
      destruct (mul_ 64 p (binom cnt r) weight) as [w|]; cbn [bind]; [|reflexivity].
      rewrite (proj2 (get_ret _ _ _) ED). cbn [bind]. rewrite Hx. cbn [bind]. rewrite Hb'. cbn [bind].
      destruct (r =? rem)%nat.
      - unfold step. destruct (emit w b' true st); reflexivity.
      - destruct (rec b' D sc (rem - r)%nat (i + cnt)%nat w st) as [[D' st']|]; reflexivity. }
    pose proof (binom_small_le cnt r Hc4) as Hb6.
    assert (Hb1 : 1 <= binom cnt r) by (apply binom_pos; lia).
    assert (H6 : 6 ^ N.of_nat rem = 6 ^ N.of_nat r * 6 ^ N.of_nat (rem - r)).
    { rewrite <- N.pow_add_r. f_equal. lia. }
    assert (H6r : 6 <= 6 ^ N.of_nat r).
    { change 6 with (6 ^ 1) at 1. apply N.pow_le_mono_r; lia. }
    assert (H61 : 1 <= 6 ^ N.of_nat (rem - r)).
    { change 1 with (6 ^ 0) at 1. apply N.pow_le_mono_r; lia. }
    eapply emits_pure.
    { apply (may_mul p B (binom cnt r) weight (binom cnt r) (wt * m)).
      - apply agr_small. change (2 ^ 64) with 18446744073709551616. lia.
      - exact Hw.
      - intros b. specialize (HB b). rewrite H6 in HB. generalize dependent (2 ^ 64). intros. nia. }
    intros w Hwt. cbv beta in Hwt.
    assert (Hwt' : agr p w (wt * (m * binom cnt r))).
    { replace (wt * (m * binom cnt r)) with (binom cnt r * (wt * m)) by lia. exact Hwt. }
    eapply (emits_bind p B step fine _ _ (fun x' es => fst x' = b' /\ deck_step (i + cnt) D (snd x') /\
       sums es (fun G => m * (binom cnt r * sumf (fun T => G ((Bc ++ firstn r irrs) ++ T)) (choose (rem - r) (skipn (i + cnt) D0)))))).
    - destruct (Nat.eqb_spec r rem) as [Heq|Hne].
      + assert (Hent : entry_ok (w, b', true) (m * binom cnt r, Bc ++ firstn r irrs)).
        { split; [cbn [fst]; nia|]. split; [exact Hwt'|]. split; [exact Hof'|]. split; [|discriminate]. cbn [fst snd].
          rewrite <- (app_nil_r (Bc ++ firstn r irrs)). apply (legal_board _ (skipn (i + cnt) D0) 0); [exact HLr|lia|].
          rewrite choose_0. left. reflexivity. }
        apply (emits_step p B step fine (w, b', true) (b', D)); [eexists; exact Hent|]. split; [reflexivity|]. split; [apply deck_step_refl|].
        eapply sums_ext.
        { apply (sums_one w b' true (m * binom cnt r) (Bc ++ firstn r irrs)). exact Hent. }
        intros G _. cbv beta. replace (rem - r)%nat with 0%nat by lia. rewrite choose_0, sumf_cons, sumf_nil, app_nil_r. lia.
      + apply (emits_bind p B step fine (rec b' D sc (rem - r)%nat (i + cnt)%nat w) (fun D' st' => Ret (b', D', st'))
                 (fun D' es => deck_step (i + cnt) D D' /\ covers (m * binom cnt r) (Bc ++ firstn r irrs) (rem - r) (skipn (i + cnt) D) es)).
        * apply Hrec; try assumption; try lia; try nia.
          -- replace (rem - r)%nat with (rem - length (firstn r irrs))%nat by (rewrite firstn_length; lia).
             apply sc_ok_irr; [exact Hsc| |rewrite firstn_length; lia].
             intros d Hd. apply Hii. rewrite <- (firstn_skipn r irrs). apply in_or_app. left. exact Hd.
          -- intros b. specialize (HB b). rewrite H6 in HB. generalize dependent (2 ^ 64). intros.
             enough (wt * (m * binom cnt r) * 6 ^ N.of_nat (rem - r) <= wt * m * (6 ^ N.of_nat r * 6 ^ N.of_nat (rem - r))) by lia.
             rewrite !N.mul_assoc. apply N.mul_le_mono_r. apply N.mul_le_mono_l. lia.
          -- destruct HD as (_ & HP & _). eapply legal_perm; [|exact HLr]. apply Permutation_app_head. exact HP.
          -- destruct HD as (_ & _ & Hm). eapply sorted_ranks_ext; [exact Hm|exact Hsort].
        * intros D' es [HD' Hcov]. apply (emits_ret p B step fine (b', D')). split; [reflexivity|]. split; [exact HD'|].
          rewrite app_nil_r. eapply sums_ext; [exact Hcov|]. intros G HG. cbv beta. rewrite <- N.mul_assoc. do 2 f_equal.
          symmetry. apply choose_sum_perm; [exact HG|exact HLr|lia|]. apply HD.
    - intros [bx D'] es (Hbx & HD' & Hsum). cbn [fst snd] in *. subst bx.
      eapply emits_weaken.
      { apply (IH (S r) b' D'); try lia.
        - eapply deck_step_trans; eassumption.
        - replace (S r - 1)%nat with r by lia. exact Hof'. }
      intros x' es' [Hd1 Hs1]. split; [exact Hd1|]. eapply sums_ext; [eapply sums_app; [exact Hsum|exact Hs1]|].
      intros G _. cbv beta. rewrite sumf_cons. lia.
  Qed.

  Lemma choose_none (l : list N) k : (length l < k)%nat -> choose k l = [].
  Proof.
    intros H. destruct (choose k l) as [|s u] eqn:E; [reflexivity|]. exfalso.
    pose proof (choose_nsub l k s) as Hs. rewrite E in Hs. specialize (Hs (or_introl eq_refl)). lia.
  Qed.

  (* choosing from irrelevant cards followed by the rest *)
  Lemma irrelevant_sum G sc rem Bc irrs tail r : invariant G -> sc_ok sc rem Bc -> (length Bc + rem = 5)%nat ->
    legal Bc (irrs ++ tail) -> (forall c, In c irrs -> irr sc rem c) -> (forall c, In c irrs -> rank_of c = r) ->
    sumf (fun T => G (Bc ++ T)) (choose rem (irrs ++ tail)) =
    sumf (fun T => G (Bc ++ T)) (choose rem tail) +
    sumf (fun k => binom (length irrs) k * sumf (fun T => G ((Bc ++ firstn k irrs) ++ T)) (choose (rem - k) tail))
         (range 1 (Nat.min (length irrs) rem + 1)).
  Proof.
    intros HG Hsc Hlen HL Hii Hir.
    rewrite sum_choose_app. change (seq 0 (S rem)) with (0%nat :: seq 1 rem). rewrite sumf_cons. f_equal.
    - rewrite choose_0, sumf_cons, sumf_nil, N.add_0_r, Nat.sub_0_r. reflexivity.
    - replace (seq 1 rem) with (range 1 (Nat.min (length irrs) rem + 1) ++ seq (Nat.min (length irrs) rem + 1) (rem - Nat.min (length irrs) rem)).
      2:{ unfold range. replace (Nat.min (length irrs) rem + 1 - 1)%nat with (Nat.min (length irrs) rem) by lia.
          rewrite <- (Nat.add_comm 1). rewrite <- seq_app. f_equal. lia. }
      rewrite sumf_app.
      rewrite (sumf_zero _ (seq _ _)), N.add_0_r.
      2:{ intros k Hk. apply in_seq in Hk. rewrite (choose_none irrs k) by lia. reflexivity. }
      apply sumf_ext. intros k Hk. unfold range in Hk. apply in_seq in Hk.
      rewrite (sumf_ext _ (fun _ => sumf (fun T => G ((Bc ++ firstn k irrs) ++ T)) (choose (rem - k) tail))).
      + rewrite sumf_const, choose_count. lia.
      + intros S HS. apply sumf_ext. intros T HT. rewrite <- app_assoc.
        pose proof (choose_incl _ _ _ HS) as HSi. pose proof (choose_length _ _ _ HS) as HSl.
        pose proof (choose_length _ _ _ HT) as HTl.
        assert (Hsub : forall S', In S' (choose k irrs) -> board5 (Bc ++ S' ++ T)).
        { intros S' HS'. rewrite app_assoc.
          pose proof (choose_incl _ _ _ HS') as Hi. pose proof (choose_length _ _ _ HS') as HL'.
          pose proof (choose_incl _ _ _ HT) as HTi.
          destruct HL as (H1 & H2 & H3).
          assert (Hnd : NoDup S') by (eapply choose_NoDup; [|exact HS']; apply NoDup_app_r, NoDup_app_l in H1; exact H1).
          apply (legal_board (Bc ++ S') tail (rem - k)); [|rewrite app_length; lia|exact HT].
          split; [|split].
          - rewrite <- app_assoc. apply NoDup_app_intro; [eapply NoDup_app_l; exact H1| |].
            + apply NoDup_app_intro; [exact Hnd|apply NoDup_app_r, NoDup_app_r in H1; exact H1|].
              intros c Hc. apply NoDup_app_r in H1. apply (NoDup_app_disj _ _ c H1). apply Hi. exact Hc.
            + intros c Hc Hin. apply (NoDup_app_disj _ _ c H1 Hc). apply in_app_or in Hin as [Hin|Hin]; apply in_or_app; [left; apply Hi|right]; exact Hin.
          - rewrite Forall_forall in *. intros c Hc. apply H2. rewrite !in_app_iff in *. destruct Hc as [[Hc|Hc]|Hc]; [left|right; left; apply Hi|right; right]; exact Hc.
          - intros c Hc. apply H3. rewrite !in_app_iff in *. destruct Hc as [[Hc|Hc]|Hc]; [left|right; left; apply Hi|right; right]; exact Hc. }
        assert (Hfk : In (firstn k irrs) (choose k irrs)).
        { apply firstn_choose. lia. }
        apply HG; [apply Hsub; exact HS|apply Hsub; exact Hfk|].
        pose proof (choose_incl _ _ _ Hfk) as Hfi.
        apply (alike_swap sc rem); try assumption.
        * rewrite HSl, firstn_length. lia.
        * lia.
        * assert (Hmap : forall l, incl l irrs -> map rank_of l = repeat r (length l)).
          { clear - Hir. induction l as [|c l IH]; intros Hi; [reflexivity|]. cbn [map length repeat].
            rewrite (Hir c) by (apply Hi; left; reflexivity). f_equal. apply IH. intros d Hd. apply Hi. right. exact Hd. }
          rewrite !Hmap by assumption. rewrite HSl, firstn_length. replace (Nat.min k (length irrs)) with k by lia. reflexivity.
        * intros c Hc. apply Hii, HSi, Hc.
        * intros c Hc. apply Hii, Hfi, Hc.
  Qed.

  Lemma while_spec rec fuel rem Bc board sc weight m :
    rec_ok rec fuel -> (2 <= rem <= S fuel)%nat -> sc_ok sc rem Bc -> (length Bc + rem = 5)%nat ->
    hand_of base Bc board -> 1 <= m -> agr p weight (wt * m) -> (B -> wt * m * 6 ^ N.of_nat rem < 2 ^ 64) ->
    forall lfuel i D, (length D - i < lfuel)%nat -> legal Bc (skipn i D) ->
      Sorted (fun a b => rank_of b <= rank_of a) (skipn i D) ->
      emits p B step fine (while_loop rec board sc rem weight lfuel i D)
        (fun D' es => deck_step i D D' /\ covers m Bc rem (skipn i D) es).
  Proof.
    intros Hrec Hrem Hsc Hlen Hof Hm1 Hw HB. induction lfuel as [|lfuel IH]; intros i D Hf HL Hsort; [lia|].
    cbn [while_loop]. destruct (Nat.ltb_spec i (length D)) as [Hi|Hi].
    2:{ apply emits_ret. split; [apply deck_step_refl|]. unfold covers. rewrite skipn_all2, choose_nil by lia.
        eapply sums_ext; [apply sums_nil|]. intros G _. cbn. lia. }
    destruct (nth_error D i) as [c|] eqn:E; [|apply nth_error_None in E; lia].
    pose proof (skipn_cons_nth _ _ _ E) as Hsk.
    rewrite (proj2 (get_ret D i c) E). cbn [bind]. rewrite (get_suit sc rem Bc c Hsc). cbn [bind].
    destruct (Nat.ltb_spec (nth (N.to_nat (suit_of c)) sc 0%nat + rem) 5) as [Hic|Hic].
    - (* irrelevant *)
      rewrite crank_rank.
      destruct (gather_spec sc rem Bc i (rank_of c) Hsc (length D - S i) (S i) D 1) as (D1 & cnt & Hg & Hd1 & Hc1 & Hcl & Hcirr); try lia.
      { intros k Hk. replace k with i by lia. exists c. auto. }
      { intros k Hk. replace k with i by lia. exists c. auto. }
      rewrite Hg. cbn [bind].
      pose proof (deck_step_length _ _ _ Hd1) as Hlen1.
      set (irrs := firstn cnt (skipn i D1)).
      assert (Hil : length irrs = cnt) by (unfold irrs; rewrite firstn_length, skipn_length; lia).
      assert (Hsplit : skipn i D1 = irrs ++ skipn (i + cnt) D1).
      { unfold irrs. rewrite <- skipn_skipn'. symmetry. apply firstn_skipn. }
      assert (Hnth : forall k, (k < cnt)%nat -> nth_error D1 (i + k) = nth_error irrs k).
      { intros k Hk. unfold irrs. rewrite nth_error_firstn, nth_error_skipn by exact Hk. reflexivity. }
      assert (Hirrs : forall d, In d irrs -> irr sc rem d /\ rank_of d = rank_of c).
      { intros d Hd. apply In_nth_error in Hd as (k & Hk). assert (Hkc : (k < cnt)%nat) by (rewrite <- Hil; apply nth_error_Some; congruence).
        rewrite <- Hnth in Hk by exact Hkc. destruct (Hcirr (i + k)%nat ltac:(lia)) as (d' & E' & H1 & H2).
        rewrite Hk in E'. inversion E'; subst d'. auto. }
      assert (HL1 : legal Bc (irrs ++ skipn (i + cnt) D1)).
      { rewrite <- Hsplit. destruct Hd1 as (_ & HP & _). eapply legal_perm; [|exact HL]. apply Permutation_app_head. exact HP. }
      assert (Hsort1 : Sorted (fun a b => rank_of b <= rank_of a) (skipn (i + cnt) D1)).
      { apply sorted_skipn. destruct Hd1 as (_ & _ & Hm). eapply sorted_ranks_ext; eassumption. }
      assert (Hc4 : (cnt <= 4)%nat).
      { rewrite <- Hil. apply (ranks_eq_le4 _ (rank_of c)); [|intros d Hd; apply Hirrs; exact Hd].
        destruct HL1 as (H & _). apply NoDup_app_r, NoDup_app_l in H. exact H. }
      apply (emits_ext p B step fine (fun st => '(x, st') <- foldM (repeats_step rec sc rem weight i cnt) (range 1 (Nat.min cnt rem + 1)) (board, D1, st) ;;
               while_loop rec board sc rem weight lfuel (i + cnt)%nat (snd x) st')).
      { intros st. destruct (foldM (repeats_step rec sc rem weight i cnt) (range 1 (Nat.min cnt rem + 1)) (board, D1, st)) as [[[b' D'] st']|]; reflexivity. }
      eapply emits_bind.
      { apply (repeats_spec rec fuel sc rem Bc weight m i cnt irrs D1 Hrec ltac:(lia) Hsc Hlen Hm1 Hw HB HL1 Hsort1 Hil Hc4
                 (fun d Hd => proj1 (Hirrs d Hd)) Hnth (Nat.min cnt rem + 1 - 1)%nat 1%nat board D1); try lia.
        - apply deck_step_refl.
        - cbn [Nat.sub firstn]. rewrite app_nil_r. exact Hof. }
      intros [b' D2] es [Hd2 Hs2]. cbn [fst snd] in *. pose proof (deck_step_length _ _ _ Hd2) as Hlen2.
      assert (HP2 : Permutation (skipn (i + cnt) D1) (skipn (i + cnt) D2)) by apply Hd2.
      assert (HLt : legal Bc (skipn (i + cnt) D1)) by (eapply legal_sub; [exact HL1|reflexivity]).
      eapply emits_weaken.
      { apply (IH (i + cnt)%nat D2); [lia| |].
        - eapply legal_perm; [|exact HLt]. apply Permutation_app_head. exact HP2.
        - destruct Hd2 as (_ & _ & Hm). eapply sorted_ranks_ext; eassumption. }
      intros D3 es' [Hd3 Hs3]. split.
      + eapply deck_step_trans; [exact Hd1|]. apply (deck_step_weaken i (i + cnt)); [lia|]. eapply deck_step_trans; eassumption.
      + unfold covers in *. eapply sums_ext; [eapply sums_app; [exact Hs2|exact Hs3]|].
        intros G HG. cbv beta.
        rewrite (choose_sum_perm G Bc rem (skipn i D) (skipn i D1)) by (try assumption; apply Hd1).
        rewrite <- (choose_sum_perm G Bc rem (skipn (i + cnt) D1) (skipn (i + cnt) D2)) by assumption.
        rewrite Hsplit, (irrelevant_sum G sc rem Bc irrs (skipn (i + cnt) D1) (rank_of c)); try assumption.
        * rewrite Hil. lia.
        * intros d Hd. apply Hirrs. exact Hd.
        * intros d Hd. apply Hirrs. exact Hd.
    - (* a card that can make a flush *)
      assert (HcD : In c (skipn i D)) by (rewrite Hsk; left; reflexivity).
      pose proof (legal_one _ _ _ HL HcD) as HLc.
      assert (Hcard : is_card c).
      { destruct HLc as (_ & H & _). rewrite Forall_forall in H. apply H, in_or_app. right. left. reflexivity. }
      destruct (CARDS_get_ok c Hcard) as (x & Hx & _). rewrite Hx. cbn [bind].
      destruct (hand_add_snoc board Bc c x HLc Hof ltac:(lia) Hx) as (b' & Hb' & Hof'). rewrite Hb'. cbn [bind].
      destruct (sc_ok_rel sc rem Bc c Hsc) as (sc' & Hsc' & Hok'); [unfold irr; lia|lia|]. rewrite Hsc'. cbn [bind].
      assert (Hsort1 : Sorted (fun a b => rank_of b <= rank_of a) (skipn (S i) D)).
      { rewrite Hsk in Hsort. inversion Hsort; assumption. }
      assert (HLt : legal Bc (skipn (S i) D)) by (eapply (legal_sub Bc _ [c]); [exact HL|rewrite Hsk; reflexivity]).
      assert (HL1 : legal (Bc ++ [c]) (skipn (S i) D)).
      { apply legal_app. cbn [app]. rewrite <- Hsk. exact HL. }
      eapply emits_bind.
      { apply (Hrec (rem - 1)%nat (Bc ++ [c]) b' D sc' (S i) weight m); try assumption; try lia.
        - rewrite app_length. cbn. lia.
        - intros b. specialize (HB b). replace rem with (S (rem - 1)) in HB by lia. rewrite Nat2N.inj_succ, N.pow_succ_r' in HB.
          assert (H61 : 1 <= 6 ^ N.of_nat (rem - 1)) by (change 1 with (6 ^ 0) at 1; apply N.pow_le_mono_r; lia).
          generalize dependent (2 ^ 64). intros. nia. }
      intros D2 es [Hd2 Hs2]. cbv beta. pose proof (deck_step_length _ _ _ Hd2) as Hlen2.
      assert (HP2 : Permutation (skipn (S i) D) (skipn (S i) D2)) by apply Hd2.
      eapply emits_weaken.
      { apply (IH (S i) D2); [lia| |].
        - eapply legal_perm; [|exact HLt]. apply Permutation_app_head. exact HP2.
        - destruct Hd2 as (_ & _ & Hm). eapply sorted_ranks_ext; eassumption. }
      intros D3 es' [Hd3 Hs3]. split.
      + apply (deck_step_weaken i (S i)); [lia|]. eapply deck_step_trans; eassumption.
      + unfold covers in *. eapply sums_ext; [eapply sums_app; [exact Hs2|exact Hs3]|].
        intros G HG. cbv beta. rewrite Hsk, sum_choose_cons by lia.
        rewrite <- (choose_sum_perm G Bc rem (skipn (S i) D) (skipn (S i) D2)) by (try assumption; lia).
        rewrite N.mul_add_distr_l. do 2 f_equal. apply sumf_ext. intros T _. rewrite <- app_assoc. reflexivity.
  Qed.

  Theorem enumerate_covers fuel : rec_ok (enumerate_board_rec p emit fuel) fuel.
  Proof.
    induction fuel as [|fuel IH]; intros rem Bc board D sc start weight m Hrem Hsc Hlen Hof Hm1 Hw HB HL Hsort; [lia|].
    eapply emits_ext; [intros st; symmetry; apply enumerate_unfold|].
    destruct (Nat.eqb_spec rem 1) as [->|Hne].
    - eapply emits1_then.
      + apply (last_card_spec sc Bc board weight m D start); try assumption. lia.
      + intros es Hes. apply emits_ret. rewrite app_nil_r. split; [apply deck_step_refl|exact Hes].
    - apply (while_spec _ fuel); try assumption; lia.
  Qed.
End Enum.
