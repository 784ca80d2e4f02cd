(* Proofs about the numbering and the names of starting hands. *)
From Verif Require Import Base BaseProofs TStrings Hand Range Sim SpecPoker SpecNames PokerFacts.
Local Open Scope N_scope.

(* ------------------------------------------------------------------------- *)
(** * The numbering, by enumeration of all pairs of cards *)

(* all starting hands in the library's order *)
Definition kind_hands (k : kind) : list (N * N) :=
  match k with
  | Paired r => flat_map (fun s => map (fun t => (4 * r + s, 4 * r + t)) (filter (fun t => s <? t) [0; 1; 2; 3])) [0; 1; 2; 3]
  | Suited hi lo => map (fun s => (4 * hi + s, 4 * lo + s)) [0; 1; 2; 3]
  | Offsuit hi lo =>
      flat_map (fun s => map (fun t => (4 * hi + s, 4 * lo + t)) (filter (fun t => negb (s =? t)) [0; 1; 2; 3])) [0; 1; 2; 3]
  end.
Definition all_hands : list (N * N) := flat_map kind_hands kinds.
Definition all_hands_T := table_of all_hands.

Definition ret_is (o : outcome N) (i : N) : bool := match o with Ret j => j =? i | Fail _ => false end.
Lemma ret_is_ok o i : ret_is o i = true -> o = Ret i.
Proof. destruct o; simpl; intros H; [apply N.eqb_eq in H; congruence | discriminate]. Qed.

Definition of_kindb (k : kind) (a b : N) : bool :=
  match k with
  | Paired r => (rank_of a =? r) && (rank_of b =? r)
  | Suited hi lo => (suit_of a =? suit_of b) &&
      ((rank_of a =? hi) && (rank_of b =? lo) || (rank_of a =? lo) && (rank_of b =? hi))
  | Offsuit hi lo => negb (suit_of a =? suit_of b) &&
      ((rank_of a =? hi) && (rank_of b =? lo) || (rank_of a =? lo) && (rank_of b =? hi))
  end.
Lemma of_kindb_ok k a b : of_kindb k a b = true <-> of_kind k a b.
Proof.
  destruct k; simpl; rewrite ?andb_true_iff, ?orb_true_iff, ?andb_true_iff, ?negb_true_iff, ?N.eqb_eq, ?N.eqb_neq; tauto.
Qed.

(* entry i of the order is hand i, in both profiles and by both functions *)
Definition entry_check (i : N) (h : N * N) : bool :=
  let (a, b) := h in
  (a <? 52) && (b <? 52) && negb (a =? b) &&
  ((rank_of b <? rank_of a) || (rank_of a =? rank_of b) && (suit_of a <? suit_of b)) &&
  forallb (fun p => ret_is (get_card_index p a b) i && ret_is (get_card_index p b a) i &&
                    ret_is (h <- from_hole_cards p a b ;; hand_card_index p h) i &&
                    ret_is (h <- from_hole_cards p b a ;; hand_card_index p h) i) [Debug; Release] &&
  match nth_error kinds (N.to_nat (block i)) with Some k => of_kindb k a b | None => false end.

Fixpoint entries_check (i : N) (l : list (N * N)) : bool :=
  match l with [] => true | h :: l' => entry_check i h && entries_check (N.succ i) l' end.

Lemma entries_check_nth l : forall i, entries_check i l = true ->
  forall n h, nth_error l n = Some h -> entry_check (i + N.of_nat n) h = true.
Proof.
  induction l as [|x l IH]; intros i H n h Hn; [destruct n; discriminate|].
  simpl in H. apply andb_true_iff in H as [H1 H2]. destruct n as [|n]; simpl in Hn.
  - injection Hn as <-. now rewrite N.add_0_r.
  - replace (i + N.of_nat (S n)) with (N.succ i + N.of_nat n) by lia. eauto.
Qed.

Lemma all_entries : entries_check 0 all_hands = true.
Proof. vm_cast_no_check (eq_refl true). Qed.
Lemma all_hands_length : N.of_nat (length all_hands) = 1326.
Proof. vm_compute. reflexivity. Qed.

(* every pair of cards is in the order, one way round *)
Definition covered (a b : N) : bool :=
  (a =? b) ||
  match get_card_index Debug a b with
  | Ret i => match table_get all_hands_T i with
             | Some (c, d) => (a =? c) && (b =? d) || (a =? d) && (b =? c)
             | None => false
             end
  | Fail _ => false
  end.
Lemma all_covered : forallb (fun a => forallb (covered a) (nseq 0 52)) (nseq 0 52) = true.
Proof. vm_cast_no_check (eq_refl true). Qed.
#[local] Opaque all_hands get_card_index hand_card_index from_hole_cards.

Lemma hole_position a b : hole a b -> exists n, nth_error all_hands n = Some (a, b) \/ nth_error all_hands n = Some (b, a).
Proof.
  intros (Ha & Hb & Hab).
  assert (In52 : forall x, is_card x -> In x (nseq 0 52)) by (intros x Hx; apply nseq_In; unfold is_card in Hx; lia).
  pose proof (forallb_In _ _ (forallb_In _ _ all_covered a (In52 a Ha)) b (In52 b Hb)) as H.
  unfold covered in H. apply orb_true_iff in H as [H|H]; [apply N.eqb_eq in H; contradiction|].
  destruct (get_card_index Debug a b) as [i|]; [|discriminate].
  unfold all_hands_T in H. rewrite table_get_spec in H.
  exists (N.to_nat i). destruct (nth_error all_hands (N.to_nat i)) as [[c d]|]; [|discriminate].
  apply orb_true_iff in H. rewrite !andb_true_iff, !N.eqb_eq in H. destruct H as [[-> ->]|[-> ->]]; auto.
Qed.

Record entry (i a b : N) : Prop := {
  e_hole : hole a b;
  e_order : name_order a b;
  e_index : forall p, get_card_index p a b = Ret i;
  e_index' : forall p, get_card_index p b a = Ret i;
  e_method : forall p, (h <- from_hole_cards p a b ;; hand_card_index p h) = Ret i;
  e_method' : forall p, (h <- from_hole_cards p b a ;; hand_card_index p h) = Ret i;
  e_block : exists k, nth_error kinds (N.to_nat (block i)) = Some k /\ of_kind k a b }.

Lemma entry_check_ok i a b : entry_check i (a, b) = true -> entry i a b.
Proof.
  unfold entry_check. intros H.
  apply andb_true_iff in H as [H Hk]. apply andb_true_iff in H as [H Hp].
  apply andb_true_iff in H as [H Ho]. apply andb_true_iff in H as [H Hd].
  apply andb_true_iff in H as [Ha Hb].
  apply N.ltb_lt in Ha, Hb. apply negb_true_iff, N.eqb_neq in Hd.
  assert (HP : forall p, get_card_index p a b = Ret i /\ get_card_index p b a = Ret i /\
     (h <- from_hole_cards p a b ;; hand_card_index p h) = Ret i /\
     (h <- from_hole_cards p b a ;; hand_card_index p h) = Ret i).
  { intros p. assert (Hin : In p [Debug; Release]) by (destruct p; simpl; auto).
    pose proof (forallb_In _ _ Hp p Hin) as H. cbv beta in H.
    rewrite !andb_true_iff in H. destruct H as [[[H1 H2] H3] H4].
    repeat split; apply ret_is_ok; assumption. }
  constructor; try (intros p; apply HP).
  - unfold hole, is_card. auto.
  - unfold name_order. apply orb_true_iff in Ho. rewrite andb_true_iff, !N.ltb_lt, N.eqb_eq in Ho. exact Ho.
  - destruct (nth_error kinds _) as [k|]; [|discriminate]. exists k. split; [reflexivity|]. now apply of_kindb_ok.
Qed.

Lemma entry_nth n a b : nth_error all_hands n = Some (a, b) -> entry (N.of_nat n) a b.
Proof. intros H. apply entry_check_ok. exact (entries_check_nth _ _ all_entries n (a, b) H). Qed.

Lemma nth_lt n h : nth_error all_hands n = Some h -> N.of_nat n < 1326.
Proof.
  intros H. assert (Hl : (n < length all_hands)%nat) by (apply nth_error_Some; congruence).
  pose proof all_hands_length. lia.
Qed.

Lemma index_total p a b : hole a b ->
  exists i, i < 1326 /\ get_card_index p a b = Ret i /\ get_card_index p b a = Ret i.
Proof.
  intros H. destruct (hole_position a b H) as [n [Hn|Hn]]; exists (N.of_nat n);
    (split; [eapply nth_lt; eauto|]); apply entry_nth in Hn; destruct Hn; auto.
Qed.

Lemma index_onto p i : i < 1326 -> exists a b, hole a b /\ get_card_index p a b = Ret i.
Proof.
  intros H. destruct (nth_error all_hands (N.to_nat i)) as [[a b]|] eqn:E.
  - exists a, b. apply entry_nth in E. rewrite N2Nat.id in E. destruct E; auto.
  - apply nth_error_None in E. pose proof all_hands_length. lia.
Qed.

(* the hand of a number, either way round *)
Lemma index_entry p a b i : hole a b -> get_card_index p a b = Ret i ->
  nth_error all_hands (N.to_nat i) = Some (a, b) \/ nth_error all_hands (N.to_nat i) = Some (b, a).
Proof.
  intros H Hi. destruct (hole_position a b H) as [n [Hn|Hn]]; pose proof (entry_nth _ _ _ Hn) as He.
  - rewrite (e_index _ _ _ He) in Hi. injection Hi as <-. rewrite Nat2N.id. auto.
  - rewrite (e_index' _ _ _ He) in Hi. injection Hi as <-. rewrite Nat2N.id. auto.
Qed.

Lemma index_injective p q a b c d i : hole a b -> hole c d ->
  get_card_index p a b = Ret i -> get_card_index q c d = Ret i -> a = c /\ b = d \/ a = d /\ b = c.
Proof.
  intros H1 H2 E1 E2. apply (index_entry _ _ _ _ H1) in E1. apply (index_entry _ _ _ _ H2) in E2.
  destruct E1 as [E1|E1], E2 as [E2|E2]; rewrite E1 in E2; injection E2 as -> ->; auto.
Qed.

Lemma index_bijection p :
  (forall a b, hole a b -> exists i, i < 1326 /\ get_card_index p a b = Ret i /\ get_card_index p b a = Ret i) /\
  (forall i, i < 1326 -> exists a b, hole a b /\ get_card_index p a b = Ret i /\
     forall c d, hole c d -> get_card_index p c d = Ret i -> c = a /\ d = b \/ c = b /\ d = a).
Proof.
  split; [apply index_total|]. intros i Hi. destruct (index_onto p i Hi) as (a & b & H & E).
  exists a, b. split; [exact H|]. split; [exact E|]. intros c d H' E'. eapply index_injective; eauto.
Qed.

Lemma both_indices p a b : hole a b ->
  exists h i, from_hole_cards p a b = Ret h /\ hand_card_index p h = Ret i /\ get_card_index p a b = Ret i.
Proof.
  intros H. destruct (hole_position a b H) as [n [Hn|Hn]]; apply entry_nth in Hn; destruct Hn as [_ _ E1 E2 M1 M2 _].
  - specialize (M1 p). destruct (from_hole_cards p a b) as [h|]; [|discriminate M1]. exists h, (N.of_nat n). auto.
  - specialize (M2 p). destruct (from_hole_cards p a b) as [h|]; [|discriminate M2]. exists h, (N.of_nat n). auto.
Qed.

(* a hand belongs to one combination only *)
Fixpoint nodup_kindsb (l : list kind) : bool :=
  match l with
  | [] => true
  | k :: l' => forallb (fun k' => match k, k' with
                                  | Paired r, Paired r' => negb (r =? r')
                                  | Suited a b, Suited c d => negb ((a =? c) && (b =? d) || (a =? d) && (b =? c))
                                  | Offsuit a b, Offsuit c d => negb ((a =? c) && (b =? d) || (a =? d) && (b =? c))
                                  | _, _ => true
                                  end) l' && nodup_kindsb l'
  end.
Definition kind_ok (k : kind) : bool :=
  match k with Paired _ => true | Suited a b | Offsuit a b => negb (a =? b) end.

Lemma kinds_separate l : nodup_kindsb l = true -> forallb kind_ok l = true ->
  forall n m k k' a b, hole a b -> nth_error l n = Some k -> nth_error l m = Some k' ->
  of_kind k a b -> of_kind k' a b -> n = m.
Proof.
  assert (G : forall l, nodup_kindsb l = true -> forallb kind_ok l = true ->
    forall n m k k' a b, hole a b -> (n < m)%nat -> nth_error l n = Some k -> nth_error l m = Some k' ->
    of_kind k a b -> of_kind k' a b -> False).
  { clear l. induction l as [|x l IH]; intros H Hok n m k k' a b Hh Hlt Hn Hm Hk Hk'; [destruct n; discriminate|].
    simpl in H. apply andb_true_iff in H as [H1 H2]. destruct m as [|m]; [lia|]. simpl in Hm.
    pose proof Hok as Hok'. simpl in Hok'. apply andb_true_iff in Hok' as [Hx Hl].
    destruct n as [|n]; simpl in Hn.
    - injection Hn as ->. pose proof (forallb_In _ _ H1 k' (nth_error_In _ _ Hm)) as Hd.
      pose proof (forallb_In _ _ Hl k' (nth_error_In _ _ Hm)) as Hx'.
      destruct Hh as (Ha & Hb & Hab).
      destruct k, k'; simpl in *; rewrite ?negb_true_iff, ?orb_false_iff, ?andb_false_iff, ?N.eqb_neq in *;
        try (destruct Hk as [? [[? ?]|[? ?]]]); try (destruct Hk' as [? [[? ?]|[? ?]]]); subst; try tauto;
        try (destruct Hk, Hk'; congruence);
        try (destruct Hk; congruence); try (destruct Hk'; congruence); try congruence.
    - apply (IH H2 Hl n m k k' a b Hh); auto. lia. }
  intros H1 H2 n m k k' a b Hh Hn Hm Hk Hk'.
  destruct (Nat.lt_trichotomy n m) as [L|[L|L]]; [|exact L|]; exfalso.
  - exact (G l H1 H2 n m k k' a b Hh L Hn Hm Hk Hk').
  - exact (G l H1 H2 m n k' k a b Hh L Hm Hn Hk' Hk).
Qed.
Lemma kinds_distinct : nodup_kindsb kinds = true /\ forallb kind_ok kinds = true.
Proof. vm_compute. auto. Qed.

Lemma of_kind_sym k a b : of_kind k a b -> of_kind k b a.
Proof. destruct k; simpl; intuition congruence. Qed.

Lemma index_block p a b i : hole a b -> get_card_index p a b = Ret i ->
  exists k, nth_error kinds (N.to_nat (block i)) = Some k /\ of_kind k a b.
Proof.
  intros H Hi. destruct (index_entry p a b i H Hi) as [E|E]; apply entry_nth in E; rewrite N2Nat.id in E;
    destruct (e_block _ _ _ E) as (k & Hk & Ho); exists k; split; auto using of_kind_sym.
Qed.

Lemma index_layout p a b i k n : hole a b -> get_card_index p a b = Ret i -> nth_error kinds n = Some k ->
  (of_kind k a b <-> n = N.to_nat (block i)).
Proof.
  intros H Hi Hn. destruct (index_block p a b i H Hi) as (k' & Hk' & Ho). split.
  - intros Hk. destruct kinds_distinct as [D1 D2].
    exact (kinds_separate kinds D1 D2 n _ k k' a b H Hn Hk' Hk Ho).
  - intros ->. rewrite Hn in Hk'. injection Hk' as ->. exact Ho.
Qed.

(* ------------------------------------------------------------------------- *)
(** * Looking names up *)

Lemma chars_eqb_eq a : forall b, chars_eqb a b = true <-> a = b.
Proof.
  induction a as [|x a IH]; intros [|y b]; simpl; split; intros H; try discriminate; auto.
  - apply andb_true_iff in H as [H1 H2]. apply N.eqb_eq in H1. apply IH in H2. congruence.
  - injection H as -> ->. apply andb_true_iff. split; [apply N.eqb_refl|now apply IH].
Qed.

Lemma map_get_gen k (l : list string) : forall i acc,
  fold_left (fun acc '(j, s) => if chars_eqb (chars s) k then Some j else acc) (combine (seq i (length l)) l) acc =
  match fold_left (fun acc '(j, s) => if chars_eqb (chars s) k then Some j else acc) (combine (seq i (length l)) l) None with
  | Some j => Some j | None => acc end.
Proof.
  induction l as [|s l IH]; intros i acc; simpl; [reflexivity|].
  destruct (chars_eqb (chars s) k); simpl.
  - rewrite (IH (S i) (Some i)). destruct (fold_left _ (combine (seq (S i) (length l)) l) None); reflexivity.
  - apply IH.
Qed.

Lemma map_get_none l k : map_get l k = None <-> ~ In k (map chars l).
Proof.
  unfold map_get. generalize 0%nat as i. induction l as [|s l IH]; intros i; simpl; [intuition congruence|].
  rewrite map_get_gen. specialize (IH (S i)).
  destruct (fold_left _ (combine (seq (S i) (length l)) l) None) eqn:E.
  - split; [discriminate|]. intros H. exfalso.
    assert (Hx : Some n = None); [apply IH|discriminate Hx]. intros Hin. apply H. right. exact Hin.
  - destruct (chars_eqb (chars s) k) eqn:Ek.
    + apply chars_eqb_eq in Ek. split; [discriminate|]. intros H. exfalso. apply H. left. exact Ek.
    + split; [|reflexivity]. intros _ [H|H]; [|now apply IH in H].
      apply chars_eqb_eq in H. congruence.
Qed.

Lemma map_get_some l k : NoDup (map chars l) -> forall n, nth_error (map chars l) n = Some k -> map_get l k = Some n.
Proof.
  unfold map_get. intros HD n Hn.
  enough (H : forall i, fold_left (fun acc '(j, s) => if chars_eqb (chars s) k then Some j else acc)
             (combine (seq i (length l)) l) None = Some (i + n)%nat) by exact (H 0%nat).
  revert n Hn. induction l as [|s l IH]; intros n Hn i; [destruct n; discriminate|].
  simpl in HD. apply NoDup_cons_iff in HD as [HD1 HD2]. simpl. destruct n as [|n]; simpl in Hn.
  - injection Hn as Hk. assert (Ek : chars_eqb (chars s) k = true) by now apply chars_eqb_eq.
    rewrite map_get_gen, Ek, Nat.add_0_r.
    assert (H0 : map_get l k = None) by (apply map_get_none; rewrite <- Hk; exact HD1).
    revert H0. unfold map_get. generalize 0%nat at 1 as j.
    assert (HH : forall j j', fold_left (fun acc '(j, s) => if chars_eqb (chars s) k then Some j else acc) (combine (seq j (length l)) l) None = None ->
       fold_left (fun acc '(j, s) => if chars_eqb (chars s) k then Some j else acc) (combine (seq j' (length l)) l) None = None).
    { clear. induction l as [|s l IH]; intros j j'; simpl; [auto|]. rewrite map_get_gen. rewrite (map_get_gen k l (S j')).
      destruct (fold_left _ (combine (seq (S j) (length l)) l) None) eqn:E; [discriminate|].
      rewrite (IH _ (S j') E). destruct (chars_eqb (chars s) k); congruence. }
    intros j Hj. rewrite (HH j (S i) Hj). reflexivity.
  - rewrite map_get_gen. rewrite (IH HD2 n Hn (S i)). f_equal. lia.
Qed.

(* names are injective *)
Lemma card_names_check :
  forallb (fun a => forallb (fun b => implb (chars_eqb (card_name a) (card_name b)) (a =? b)) (nseq 0 52)) (nseq 0 52) = true.
Proof. vm_compute. reflexivity. Qed.
Lemma card_name_inj a b : is_card a -> is_card b -> card_name a = card_name b -> a = b.
Proof.
  intros Ha Hb H. assert (In52 : forall x, is_card x -> In x (nseq 0 52)) by (intros x Hx; apply nseq_In; unfold is_card in Hx; lia).
  pose proof (forallb_In _ _ (forallb_In _ _ card_names_check a (In52 a Ha)) b (In52 b Hb)) as E. cbv beta in E.
  apply chars_eqb_eq in H. rewrite H in E. now apply N.eqb_eq.
Qed.

Lemma hand_names : map chars INDEX_TO_HAND = map (fun h => hand_name (fst h) (snd h)) all_hands.
Proof. vm_compute. reflexivity. Qed.
Lemma combo_names : map chars INDEX_TO_COMBO = map kind_name kinds.
Proof. vm_compute. reflexivity. Qed.

Lemma hand_names_NoDup : NoDup (map chars INDEX_TO_HAND).
Proof.
  rewrite hand_names. apply NoDup_nth_error. intros n m Hn E.
  rewrite map_length in Hn. rewrite !nth_error_map in E.
  destruct (nth_error all_hands n) as [[a b]|] eqn:En; [|apply nth_error_None in En; lia].
  destruct (nth_error all_hands m) as [[c d]|] eqn:Em; [|discriminate E].
  unfold option_map, hand_name, fst, snd in E. injection E as E1 E2 E3 E4.
  pose proof (entry_nth _ _ _ En) as F1. pose proof (entry_nth _ _ _ Em) as F2.
  destruct (e_hole _ _ _ F1) as (Ha & Hb & _). destruct (e_hole _ _ _ F2) as (Hc & Hd & _).
  assert (a = c) by (apply card_name_inj; auto; unfold card_name; congruence).
  assert (b = d) by (apply card_name_inj; auto; unfold card_name; congruence). subst c d.
  pose proof (e_index _ _ _ F1 Debug) as I1. pose proof (e_index _ _ _ F2 Debug) as I2.
  rewrite I1 in I2. injection I2 as I2. lia.
Qed.

Definition nodup_charsb (l : list (list char)) : bool :=
  (fix go l := match l with [] => true | x :: l' => negb (existsb (chars_eqb x) l') && go l' end) l.
Lemma nodup_charsb_ok l : nodup_charsb l = true -> NoDup l.
Proof.
  induction l as [|x l IH]; intros H; constructor; simpl in H; apply andb_true_iff in H as [H1 H2]; auto.
  intros Hin. apply negb_true_iff in H1. assert (Ht : existsb (chars_eqb x) l = true); [|congruence].
  apply existsb_exists. exists x. split; auto. now apply chars_eqb_eq.
Qed.
Lemma combo_names_NoDup : NoDup (map chars INDEX_TO_COMBO).
Proof. apply nodup_charsb_ok. vm_compute. reflexivity. Qed.

Lemma hand_name_found p a b : hole a b -> name_order a b ->
  exists i, get_card_index p a b = Ret i /\ map_get INDEX_TO_HAND (hand_name a b) = Some (N.to_nat i).
Proof.
  intros H Ho. destruct (index_total p a b H) as (i & _ & Hi & _). exists i. split; [exact Hi|].
  apply map_get_some; [apply hand_names_NoDup|]. rewrite hand_names, nth_error_map.
  destruct (index_entry p a b i H Hi) as [E|E]; rewrite E; [reflexivity|].
  exfalso. apply entry_nth in E. pose proof (e_order _ _ _ E) as Ho'. unfold name_order in *. lia.
Qed.

(* the position of entry [i] of a player *)
Lemma entry_at {A} p (l : list A) size player i : N.of_nat (length l) < 2 ^ 64 -> (size * player + i < length l)%nat ->
  (base <- mul_ 64 p (N.of_nat size) (N.of_nat player) ;; i <- add_ 64 p base (N.of_nat i) ;; u <- get l (N.to_nat i) ;; Ret (ROk u)) =
  (u <- get l (size * player + i) ;; Ret (ROk u : result A lookup_error)).
Proof.
  intros Hl Hi. unfold mul_, add_. destruct (N.ltb_spec (N.of_nat size * N.of_nat player) (2 ^ 64)); [|lia]. cbn [bind].
  destruct (N.ltb_spec (N.of_nat size * N.of_nat player + N.of_nat i) (2 ^ 64)); [|lia]. cbn [bind].
  replace (N.to_nat (N.of_nat size * N.of_nat player + N.of_nat i)) with (size * player + i)%nat by lia. reflexivity.
Qed.

Lemma hand_lookup p hr player a b : hole a b -> name_order a b -> N.of_nat (length hr) < 2 ^ 64 -> (1326 * (player + 1) <= length hr)%nat ->
  exists i u, get_card_index p a b = Ret i /\ nth_error hr (1326 * player + N.to_nat i) = Some u /\
    get_hand_result p hr (N.of_nat player) (hand_name a b) = Ret (ROk u).
Proof.
  intros H Ho Hm64 Hl. destruct (hand_name_found p a b H Ho) as (i & Hi & Hm).
  destruct (index_total p a b H) as (i' & Hb & Hi' & _). rewrite Hi in Hi'. injection Hi' as <-.
  destruct (nth_error hr (1326 * player + N.to_nat i)) as [u|] eqn:Eu; [|apply nth_error_None in Eu; lia].
  exists i, u. split; [exact Hi|]. split; [exact Eu|]. unfold get_hand_result. rewrite Hm.
  change NUM_HANDS with 1326%nat. rewrite entry_at; [|exact Hm64|lia]. unfold get. rewrite Eu. reflexivity.
Qed.

Lemma hand_lookup_other p hr player text : (forall a b, hole a b -> name_order a b -> text <> hand_name a b) ->
  get_hand_result p hr player text = Ret (RErr InvalidHand).
Proof.
  intros H. unfold get_hand_result. replace (map_get INDEX_TO_HAND text) with (@None nat); [reflexivity|].
  symmetry. apply map_get_none. rewrite hand_names, in_map_iff. intros ([a b] & E & Hin).
  apply In_nth_error in Hin as [n Hn]. apply entry_nth in Hn. symmetry in E.
  exact (H a b (e_hole _ _ _ Hn) (e_order _ _ _ Hn) E).
Qed.

Lemma combo_lookup p cr player n k : nth_error kinds n = Some k -> N.of_nat (length cr) < 2 ^ 64 -> (169 * (player + 1) <= length cr)%nat ->
  exists u, nth_error cr (169 * player + n) = Some u /\
    get_combo_result p cr (N.of_nat player) (kind_name k) = Ret (ROk u).
Proof.
  intros H Hm64 Hl.
  assert (Hn : (n < 169)%nat).
  { assert (n < length kinds)%nat by (apply nth_error_Some; congruence). exact H0. }
  destruct (nth_error cr (169 * player + n)) as [u|] eqn:Eu; [|apply nth_error_None in Eu; lia].
  exists u. split; [reflexivity|]. unfold get_combo_result.
  rewrite (map_get_some _ (kind_name k) combo_names_NoDup n).
  - change NUM_COMBOS with 169%nat. rewrite entry_at; [|exact Hm64|lia]. unfold get. rewrite Eu. reflexivity.
  - rewrite combo_names, nth_error_map, H. reflexivity.
Qed.

Lemma combo_lookup_other p cr player text : (forall k, In k kinds -> text <> kind_name k) ->
  get_combo_result p cr player text = Ret (RErr InvalidCombo).
Proof.
  intros H. unfold get_combo_result. replace (map_get INDEX_TO_COMBO text) with (@None nat); [reflexivity|].
  symmetry. apply map_get_none. rewrite combo_names, in_map_iff. intros (k & E & Hin). symmetry in E.
  exact (H k Hin E).
Qed.
