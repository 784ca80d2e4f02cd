(* Proofs about cards and masks as text. *)
From Verif Require Import Base BaseProofs Hand Range SpecPoker SpecNames SpecText SpecHand PokerFacts HandProofs IndexProofs.
Local Open Scope N_scope.

Lemma is_card_In c : is_card c -> In c (nseq 0 52).
Proof. intros H. apply nseq_In. unfold is_card in H. lia. Qed.

(* ------------------------------------------------------------------------- *)
(** * Characters *)

Lemma same_char_lower x y : same_char x y <-> ascii_lower x = ascii_lower y.
Proof.
  unfold same_char, ascii_lower.
  destruct (65 <=? x) eqn:E1, (x <=? 90) eqn:E2, (65 <=? y) eqn:E3, (y <=? 90) eqn:E4; simpl;
    rewrite ?N.leb_le, ?N.leb_gt in *; lia.
Qed.

Lemma to_ascii_lowercase_eq c : to_ascii_lowercase c = ascii_lower c.
Proof. reflexivity. Qed.

Lemma Forall2_same_map a : forall b, Forall2 same_char a b <-> map ascii_lower a = map ascii_lower b.
Proof.
  induction a as [|x a IH]; intros [|y b]; simpl; split; intros H; try inversion H; auto.
  - f_equal; [now apply same_char_lower|now apply IH].
  - constructor; [now apply same_char_lower|now apply IH].
Qed.

Lemma char_to_rank_cases c :
  (exists r, r < 13 /\ char_to_rank c = r /\ c = ascii_lower (rank_char r)) \/
  (char_to_rank c = U8MAX /\ forall r, r < 13 -> c <> ascii_lower (rank_char r)).
Proof.
  unfold char_to_rank.
  repeat match goal with |- context[is_char c ?a] =>
    let E := fresh "E" in destruct (is_char c a) eqn:E;
    [left; unfold is_char in E; apply N.eqb_eq in E; subst c; eexists; split; [|split; reflexivity]; reflexivity |
     unfold is_char in E; apply N.eqb_neq in E] end.
  right. split; [reflexivity|]. intros r Hr He.
  assert (Hin : In r (nseq 0 13)) by (apply nseq_In; lia). clear Hr. simpl in Hin.
  repeat destruct Hin as [<-|Hin]; vm_compute in He; try contradiction.
Qed.

Lemma char_to_suit_cases c :
  (exists s, s < 4 /\ char_to_suit c = s /\ c = suit_char s) \/
  (char_to_suit c = U8MAX /\ forall s, s < 4 -> c <> suit_char s).
Proof.
  unfold char_to_suit.
  repeat match goal with |- context[is_char c ?a] =>
    let E := fresh "E" in destruct (is_char c a) eqn:E;
    [left; unfold is_char in E; apply N.eqb_eq in E; subst c; eexists; split; [|split; reflexivity]; reflexivity |
     unfold is_char in E; apply N.eqb_neq in E] end.
  right. split; [reflexivity|]. intros s Hs He.
  assert (Hin : In s (nseq 0 4)) by (apply nseq_In; lia). clear Hs. simpl in Hin.
  repeat destruct Hin as [<-|Hin]; vm_compute in He; try contradiction.
Qed.

Lemma rank_chars : forallb (fun r => char_to_rank (ascii_lower (rank_char r)) =? r) (nseq 0 13) = true.
Proof. vm_compute. reflexivity. Qed.
Lemma char_to_rank_name r : r < 13 -> char_to_rank (ascii_lower (rank_char r)) = r.
Proof.
  intros H. apply N.eqb_eq. apply (forallb_In _ _ rank_chars). apply nseq_In. lia.
Qed.
Lemma suit_chars : forallb (fun s => (char_to_suit (suit_char s) =? s) && (ascii_lower (suit_char s) =? suit_char s)) (nseq 0 4) = true.
Proof. vm_compute. reflexivity. Qed.
Lemma char_to_suit_name s : s < 4 -> char_to_suit (suit_char s) = s /\ ascii_lower (suit_char s) = suit_char s.
Proof.
  intros H. assert (Hin : In s (nseq 0 4)) by (apply nseq_In; lia).
  pose proof (forallb_In _ _ suit_chars s Hin) as E. cbv beta in E. apply andb_true_iff in E.
  rewrite !N.eqb_eq in E. exact E.
Qed.

Lemma make_card r s : r < 13 -> s < 4 -> is_card (4 * r + s) /\ rank_of (4 * r + s) = r /\ suit_of (4 * r + s) = s.
Proof.
  intros Hr Hs. unfold is_card, rank_of, suit_of. split; [lia|].
  rewrite (N.mul_comm 4 r). split.
  - rewrite N.div_add_l by lia. rewrite N.div_small by lia. lia.
  - rewrite N.add_comm, N.mod_add by lia. apply N.mod_small. lia.
Qed.
Lemma split_card c : is_card c -> rank_of c < 13 /\ suit_of c < 4 /\ c = 4 * rank_of c + suit_of c.
Proof.
  unfold is_card, rank_of, suit_of. intros H. split; [apply N.div_lt_upper_bound; lia|].
  split; [apply N.mod_lt; lia|]. apply N.div_mod. lia.
Qed.

Lemma ascii_lower_idem c : ascii_lower (ascii_lower c) = ascii_lower c.
Proof.
  unfold ascii_lower. destruct ((65 <=? c) && (c <=? 90)) eqn:E; [|now rewrite E].
  apply andb_true_iff in E. rewrite !N.leb_le in E.
  destruct ((65 <=? c + 32) && (c + 32 <=? 90)) eqn:E'; [|reflexivity].
  apply andb_true_iff in E'. rewrite !N.leb_le in E'. lia.
Qed.

(* ------------------------------------------------------------------------- *)
(** * get_card_mask *)

Definition mask_bits (l : list N) (m : N) : Prop := forall c, N.testbit m c = true <-> In c l.

Lemma card_mask_loop_spec n : forall cs cards0 l0, (length cs <= n)%nat -> Nat.even (length cs) = true ->
  Forall is_card l0 -> mask_bits l0 cards0 ->
  (exists l, Forall is_card l /\ cs = map ascii_lower (flat_map card_name l) /\
     mask_bits (l0 ++ l) (card_mask_loop cs cards0)) \/
  (card_mask_loop cs cards0 = 0 /\ forall l, Forall is_card l -> cs <> map ascii_lower (flat_map card_name l)).
Proof.
  induction n as [|n IH]; intros cs cards0 l0 Hn He Hl0 Hm.
  { destruct cs; [|simpl in Hn; lia]. left. exists []. rewrite app_nil_r. auto. }
  destruct cs as [|r [|s rest]].
  - left. exists []. rewrite app_nil_r. auto.
  - discriminate He.
  - simpl in Hn, He. cbn [card_mask_loop]. cbv zeta.
    destruct (char_to_rank_cases r) as [(rk & Hr & Er & Cr)|(Er & Cr)].
    + destruct (char_to_suit_cases s) as [(su & Hs & Es & Cs)|(Es & Cs)].
      * rewrite Er, Es. replace ((rk =? U8MAX) || (su =? U8MAX)) with false.
        2:{ symmetry. apply orb_false_iff. unfold U8MAX. split; apply N.eqb_neq; lia. }
        destruct (make_card rk su Hr Hs) as (Hc & Hrk & Hsu).
        destruct (IH rest (N.lor cards0 (N.shiftl 1 (4 * rk + su))) (l0 ++ [4 * rk + su])) as [(l & H1 & H2 & H3)|(H1 & H2)].
        -- lia.
        -- exact He.
        -- apply Forall_app. auto.
        -- intros c. rewrite N.lor_spec, orb_true_iff, in_app_iff, (Hm c).
           rewrite N.shiftl_1_l, N.pow2_bits_eqb, N.eqb_eq. cbn [In]. tauto.
        -- left. exists (4 * rk + su :: l). split; [auto|]. split.
           ++ cbn [flat_map]. rewrite map_app. unfold card_name at 1. rewrite Hrk, Hsu.
              cbn [map app]. rewrite <- Cr, (proj2 (char_to_suit_name su Hs)), <- Cs, <- H2. reflexivity.
           ++ rewrite <- app_assoc in H3. exact H3.
        -- right. split; [exact H1|]. intros l Hl E. destruct l as [|c l]; [discriminate E|].
           apply (H2 l); [inversion Hl; auto|]. cbn [flat_map] in E. rewrite map_app in E.
           unfold card_name at 1 in E. cbn [map app] in E. congruence.
      * rewrite Er, Es. replace ((rk =? U8MAX) || (U8MAX =? U8MAX)) with true by (rewrite orb_true_r; reflexivity).
        right. split; [reflexivity|]. intros l Hl E. destruct l as [|c l]; [discriminate E|].
        cbn [flat_map] in E. unfold card_name at 1 in E. cbn [map app] in E. inversion Hl as [|? ? Hc _]. subst.
        destruct (split_card c Hc) as (_ & Hsu & _). apply (Cs _ Hsu).
        rewrite <- (proj2 (char_to_suit_name _ Hsu)). congruence.
    + rewrite Er. replace ((U8MAX =? U8MAX) || (char_to_suit s =? U8MAX)) with true by reflexivity.
      right. split; [reflexivity|]. intros l Hl E. destruct l as [|c l]; [discriminate E|].
      cbn [flat_map] in E. unfold card_name at 1 in E. cbn [map app] in E. inversion Hl as [|? ? Hc _]. subst.
      destruct (split_card c Hc) as (Hrk & _ & _). apply (Cr _ Hrk). congruence.
Qed.

Lemma names_even l : Nat.even (length (flat_map card_name l)) = true.
Proof. induction l as [|c l IH]; [reflexivity|]. simpl. exact IH. Qed.

Lemma get_card_mask_gen lower text :
  (exists l, Forall is_card l /\ lower text = map ascii_lower (flat_map card_name l) /\
     mask_bits l (get_card_mask lower text)) \/
  (get_card_mask lower text = 0 /\ forall l, Forall is_card l -> lower text <> map ascii_lower (flat_map card_name l)).
Proof.
  unfold get_card_mask. destruct (Nat.even (length (lower text))) eqn:E; cbn [negb].
  - refine (card_mask_loop_spec (length (lower text)) (lower text) 0 [] _ E _ _); auto.
    intros c. rewrite N.bits_0. simpl. intuition discriminate.
  - right. split; [reflexivity|]. intros l _ H. rewrite H, map_length, names_even in E. discriminate.
Qed.

Lemma card_mask_spec lower text : lowers_ascii lower -> ascii_text text ->
  (forall l, Forall is_card l -> spells text l -> mask_bits l (get_card_mask lower text)) /\
  ((forall l, Forall is_card l -> ~ spells text l) -> get_card_mask lower text = 0).
Proof.
  intros HL HT.
  destruct (get_card_mask_gen lower text) as [(l & H1 & H2 & H3)|(H1 & H2)]; rewrite (HL text HT) in H2.
  - split.
    + intros l' Hl' Hs. unfold spells in Hs. apply Forall2_same_map in Hs. rewrite H2 in Hs.
      assert (E : l = l'); [|now rewrite <- E]. clear -H1 Hl' Hs.
      revert l' Hl' Hs. induction l as [|c l IH]; intros [|c' l'] Hl' Hs; try discriminate Hs; [reflexivity|].
      inversion H1 as [|? ? Hc H1']. inversion Hl' as [|? ? Hc' Hl'']. subst.
      cbn [flat_map] in Hs. rewrite !map_app in Hs. unfold card_name in Hs at 1 3. cbn [map app] in Hs.
      injection Hs as E1 E2 E3. f_equal; [|apply IH; auto].
      destruct (split_card c Hc) as (Hr & Hsu & ->). destruct (split_card c' Hc') as (Hr' & Hsu' & ->).
      apply (f_equal char_to_rank) in E1. rewrite !char_to_rank_name in E1 by assumption.
      rewrite !(fun s H => proj2 (char_to_suit_name s H)) in E2 by assumption.
      apply (f_equal char_to_suit) in E2. rewrite !(fun s H => proj1 (char_to_suit_name s H)) in E2 by assumption.
      congruence.
    + intros H. exfalso. apply (H l H1). apply Forall2_same_map. exact H2.
  - split; [|auto]. intros l Hl Hs. exfalso. apply (H2 l Hl). apply Forall2_same_map. exact Hs.
Qed.

(* ------------------------------------------------------------------------- *)
(** * Printing *)

Lemma name_gets : forallb (fun c =>
   match get RANK_TO_CHAR (N.to_nat (N.shiftr c 2)), get SUIT_TO_CHAR (N.to_nat (N.land c 3)) with
   | Ret r, Ret s => chars_eqb [r; s] (card_name c) | _, _ => false end) (nseq 0 52) = true.
Proof. vm_compute. reflexivity. Qed.

Lemma name_get c : is_card c -> exists r s, get RANK_TO_CHAR (N.to_nat (N.shiftr c 2)) = Ret r /\
  get SUIT_TO_CHAR (N.to_nat (N.land c 3)) = Ret s /\ [r; s] = card_name c.
Proof.
  intros H. pose proof (forallb_In _ _ name_gets c (is_card_In c H)) as E. cbv beta in E.
  destruct (get RANK_TO_CHAR _) as [r|]; [|discriminate]. destruct (get SUIT_TO_CHAR _) as [s|]; [|discriminate].
  apply chars_eqb_eq in E. eauto.
Qed.

Lemma mask_to_string_gen m l : forall acc, Forall is_card l ->
  foldM (fun card_str i =>
           if negb (N.land (N.shiftl 1 i) m =? 0) then
             r <- get RANK_TO_CHAR (N.to_nat (N.shiftr i 2)) ;;
             s <- get SUIT_TO_CHAR (N.to_nat (N.land i 3)) ;;
             Ret (card_str ++ [r; s])
           else Ret card_str) l acc = Ret (acc ++ flat_map card_name (filter (N.testbit m) l)).
Proof.
  induction l as [|c l IH]; intros acc H; [cbn; now rewrite app_nil_r|].
  inversion H as [|? ? Hc Hl]. subst. cbn [foldM filter].
  rewrite N.land_comm, land_bit_zero, negb_involutive. destruct (N.testbit m c).
  - destruct (name_get c Hc) as (r & s & -> & -> & En). cbn [bind]. rewrite En. rewrite IH by exact Hl.
    cbn [flat_map]. now rewrite <- app_assoc.
  - cbn [bind]. apply IH. exact Hl.
Qed.

Lemma mask_to_string_spec m : mask_to_string m = Ret (flat_map card_name (mask_cards m)).
Proof.
  unfold mask_to_string, mask_cards. rewrite (mask_to_string_gen m (nseq 0 52) []); [reflexivity|].
  apply Forall_forall. intros c Hc. apply nseq_In in Hc. unfold is_card. lia.
Qed.

Lemma card_name_ascii c : is_card c -> ascii_text (card_name c).
Proof.
  intros H. assert (E : forallb (fun c => forallb (fun x => x <? 128) (card_name c)) (nseq 0 52) = true) by (vm_compute; reflexivity).
  pose proof (forallb_In _ _ E c (is_card_In c H)) as F. cbv beta in F. apply Forall_forall. intros x Hx.
  apply N.ltb_lt. exact (forallb_In _ _ F x Hx).
Qed.
Lemma names_ascii l : Forall is_card l -> ascii_text (flat_map card_name l).
Proof.
  induction 1 as [|c l Hc Hl IH]; cbn [flat_map]; [constructor|]. apply Forall_app. split; [|exact IH]. now apply card_name_ascii.
Qed.

Lemma Forall2_same_refl l : Forall2 same_char l l.
Proof. induction l; constructor; auto. left. reflexivity. Qed.

Lemma names_mask lower l : lowers_ascii lower -> Forall is_card l ->
  mask_bits l (get_card_mask lower (flat_map card_name l)).
Proof.
  intros HL Hl. apply (proj1 (card_mask_spec lower _ HL (names_ascii l Hl)) l Hl).
  apply Forall2_same_refl.
Qed.

Lemma mask_cards_is m : Forall is_card (mask_cards m).
Proof. apply Forall_forall. intros c H. apply filter_In in H as [H _]. apply nseq_In in H. unfold is_card. lia. Qed.

Lemma mask_roundtrip lower m : lowers_ascii lower ->
  exists s, mask_to_string m = Ret s /\ get_card_mask lower s = m mod 2 ^ 52.
Proof.
  intros HL. eexists. split; [apply mask_to_string_spec|].
  apply N.bits_inj. intros c. pose proof (names_mask lower _ HL (mask_cards_is m) c) as H.
  apply eq_true_iff_eq. rewrite H. unfold mask_cards. rewrite filter_In, nseq_In.
  destruct (N.ltb_spec c 52).
  - rewrite N.mod_pow2_bits_low by lia. split; [tauto|]. intros; split; [lia|assumption].
  - rewrite N.mod_pow2_bits_high by lia. split; [lia|discriminate].
Qed.

Lemma mask_to_string_high m : exists s, mask_to_string m = Ret s /\ mask_to_string (m mod 2 ^ 52) = Ret s.
Proof.
  eexists. split; [apply mask_to_string_spec|]. rewrite mask_to_string_spec. f_equal. f_equal.
  unfold mask_cards. apply filter_ext_in. intros c Hc. apply nseq_In in Hc. apply N.mod_pow2_bits_low. lia.
Qed.

Lemma card_to_string_spec c : is_card c -> card_to_string c = Ret (card_name c).
Proof.
  intros H. unfold card_to_string. destruct (name_get c H) as (r & s & -> & -> & En). cbn [bind]. now rewrite En.
Qed.

Lemma combo_display_spec c : is_card (c_1 c) -> is_card (c_2 c) ->
  combo_display c = Ret (hand_name (c_1 c) (c_2 c)).
Proof.
  intros H1 H2. unfold combo_display, hand_name.
  destruct (name_get _ H1) as (r & s & -> & -> & <-). destruct (name_get _ H2) as (r' & s' & -> & -> & <-). reflexivity.
Qed.

Lemma filter_pair (f : N -> bool) l : NoDup l -> forall a b,
  (forall x, f x = true <-> x = a \/ x = b) -> Sorted.StronglySorted N.lt l -> In a l -> In b l -> a < b -> filter f l = [a; b].
Proof.
  intros HD. induction l as [|x l IH]; intros a b Hf HS Ha Hb Hab; [destruct Ha|].
  inversion HS as [|? ? HS' Hall]. subst. inversion HD as [|? ? Hx HD']. subst. simpl.
  rewrite Forall_forall in Hall.
  destruct (f x) eqn:E.
  - apply Hf in E as [->| ->].
    + destruct Hb as [Hb|Hb]; [lia|]. f_equal.
      assert (Hg : forall l, ~ In a l -> NoDup l -> In b l -> filter f l = [b]).
      { clear -Hf. induction l as [|y l IH]; intros Hn HD Hb; [destruct Hb|]. simpl.
        inversion HD as [|? ? Hy HD']. subst.
        destruct (f y) eqn:E.
        - apply Hf in E as [->| ->]; [exfalso; apply Hn; left; reflexivity|]. f_equal.
          assert (Hz : forall l, ~ In a l -> ~ In b l -> filter f l = []).
          { clear -Hf. induction l as [|z l IH]; intros H1 H2; [reflexivity|]. simpl.
            destruct (f z) eqn:E; [|apply IH; intros H; [apply H1|apply H2]; right; exact H].
            apply Hf in E as [->| ->]; exfalso; [apply H1|apply H2]; left; reflexivity. }
          apply Hz; [intros H; apply Hn; right; exact H|exact Hy].
        - destruct Hb as [<-|Hb]; [|apply IH; auto; intros H; apply Hn; right; exact H].
          assert (f y = true) by (apply Hf; auto). congruence. }
      apply Hg; auto.
    + exfalso. destruct Ha as [Ha|Ha]; [lia|]. apply Hall in Ha. lia.
  - assert (x <> a) by (intros ->; assert (f a = true) by (apply Hf; auto); congruence).
    assert (x <> b) by (intros ->; assert (f b = true) by (apply Hf; auto); congruence).
    destruct Ha as [Ha|Ha]; [contradiction|]. destruct Hb as [Hb|Hb]; [contradiction|]. apply IH; auto.
Qed.

Lemma nseq_sorted n : forall a, Sorted.StronglySorted N.lt (nseq a n).
Proof.
  induction n as [|n IH]; intros a; simpl; constructor; auto. apply Forall_forall. intros x Hx. apply nseq_In in Hx. lia.
Qed.

Lemma mask_cards_two a b : is_card a -> is_card b -> a < b -> mask_cards (N.lor (2 ^ a) (2 ^ b)) = [a; b].
Proof.
  intros Ha Hb Hab. unfold mask_cards. apply filter_pair; auto using nseq_NoDup, nseq_sorted, is_card_In.
  intros x. rewrite N.lor_spec, !N.pow2_bits_eqb, orb_true_iff, !N.eqb_eq. intuition.
Qed.

Lemma hole_to_string_spec p a b : is_card a -> is_card b -> a < b ->
  hole_to_string p (a, b) = Ret (card_name a ++ card_name b) /\
  hole_to_string p (b, a) = Ret (card_name a ++ card_name b).
Proof.
  intros Ha Hb Hab. unfold hole_to_string. cbn [fst snd].
  assert (a < 64 /\ b < 64) as [A B] by (unfold is_card in *; lia).
  rewrite !shl1_ok by assumption. cbn [bind]. rewrite (N.lor_comm (2 ^ b)), !mask_to_string_spec, mask_cards_two by assumption.
  cbn [flat_map]. rewrite app_nil_r. auto.
Qed.

Lemma hole_text lower p a b : lowers_ascii lower -> is_card a -> is_card b -> a < b ->
  exists s, hole_to_string p (a, b) = Ret s /\ hole_to_string p (b, a) = Ret s /\
    s = card_name a ++ card_name b /\ get_card_mask lower s = 2 ^ a + 2 ^ b.
Proof.
  intros HL Ha Hb Hab. destruct (hole_to_string_spec p a b Ha Hb Hab) as [H1 H2].
  eexists. split; [exact H1|]. split; [exact H2|]. split; [reflexivity|].
  pose proof (names_mask lower [a; b] HL (Forall_cons a Ha (Forall_cons b Hb (Forall_nil _)))) as H.
  cbn [flat_map] in H. rewrite app_nil_r in H.
  apply N.bits_inj. intros c. apply eq_true_iff_eq. rewrite (H c).
  assert (E : N.land (2 ^ a) (2 ^ b) = 0).
  { apply N.bits_inj. intros k. rewrite N.land_spec, !N.pow2_bits_eqb, N.bits_0.
    destruct (N.eqb_spec a k), (N.eqb_spec b k); try reflexivity. lia. }
  rewrite N.add_nocarry_lxor by exact E.
  rewrite N.lxor_spec, !N.pow2_bits_eqb. simpl.
  destruct (N.eqb_spec a c), (N.eqb_spec b c); simpl; intuition (try discriminate; lia).
Qed.

(* ------------------------------------------------------------------------- *)
(** * card_from_str and flop_from_str *)

Lemma short_name_chars p text c rest : short_name text c ->
  card_from_chars p (text ++ rest) = Ret (ROk c, rest).
Proof.
  intros (Hc & r & -> & Hr). cbn [app card_from_chars].
  apply same_char_lower in Hr. rewrite to_ascii_lowercase_eq, Hr.
  destruct (split_card c Hc) as (H1 & H2 & H3). rewrite char_to_rank_name by assumption.
  rewrite (proj1 (char_to_suit_name _ H2)).
  rewrite mul_ok by (change (2 ^ 8) with 256; lia). cbn [bind].
  rewrite add_ok by (change (2 ^ 8) with 256; lia). cbn [bind]. rewrite <- H3. reflexivity.
Qed.

Lemma short_name_str p text c : short_name text c -> card_from_str p text = Ret (ROk c).
Proof.
  intros H. unfold card_from_str. rewrite <- (app_nil_r text), (short_name_chars p text c [] H). reflexivity.
Qed.

Lemma card_name_short c : is_card c -> short_name (card_name c) c.
Proof. intros H. split; [exact H|]. exists (rank_char (rank_of c)). split; [reflexivity|]. left. reflexivity. Qed.

(* a checked build returns a card number below 52 for card names only *)
Lemma checked_card text c : card_from_str Debug text = Ret (ROk c) -> is_card c -> short_name text c.
Proof.
  unfold card_from_str. destruct text as [|r [|s [|? ?]]]; cbn [card_from_chars].
  - intros H; discriminate H.
  - intros H; discriminate H.
  - intros H Hc. apply bind_ret in H as ([res rest] & H1 & H). apply bind_ret in H1 as (m & Em & H1).
    apply bind_ret in H1 as (k & Ek & H1). injection H1 as <- <-.
    injection H as ->. apply mul_debug in Em as [-> Hm]. apply add_debug in Ek as [-> Hk].
    destruct (char_to_rank_cases (to_ascii_lowercase r)) as [(rk & Hr & Er & Cr)|(Er & _)].
    2:{ exfalso. rewrite Er in Hm. vm_compute in Hm. discriminate. }
    rewrite Er in *.
    destruct (char_to_suit_cases s) as [(su & Hs & Es & Cs)|(Es & _)].
    2:{ exfalso. rewrite Es in Hc. unfold is_card, U8MAX in Hc. lia. }
    rewrite Es in *. destruct (make_card rk su Hr Hs) as (_ & E1 & E2).
    split; [exact Hc|]. exists r. rewrite E1, E2. split; [now rewrite Cs|]. apply same_char_lower. exact Cr.
  - intros H. exfalso. apply bind_ret in H as ([res rest] & H1 & H). apply bind_ret in H1 as (m & Em & H1).
    apply bind_ret in H1 as (k & Ek & H1). injection H1 as <- <-. discriminate H.
Qed.

Lemma skip_ws_all is_ws ws rest c cs : forallb is_ws ws = true -> rest = c :: cs -> is_ws c = false ->
  skip_ws is_ws (ws ++ rest) = rest.
Proof.
  intros H -> Hc. induction ws as [|w ws IH]; simpl; [now rewrite Hc|].
  simpl in H. apply andb_true_iff in H as [-> H]. auto.
Qed.

Lemma sort3_cases a b c :
  exists x y z, sort3 a b c = [x; y; z] /\ x <= y /\ y <= z /\ Permutation.Permutation [a; b; c] [x; y; z].
Proof.
  unfold sort3. cbn.
  repeat match goal with |- context[?u <=? ?v] => destruct (N.leb_spec u v) end;
    do 3 eexists; (split; [reflexivity|]); (split; [lia|]); (split; [lia|]).
  - reflexivity.
  - apply Permutation.perm_swap.
  - eapply Permutation.perm_trans; [apply Permutation.perm_swap|]. apply Permutation.perm_skip, Permutation.perm_swap.
  - apply Permutation.perm_skip, Permutation.perm_swap.
  - eapply Permutation.perm_trans; [apply Permutation.perm_skip, Permutation.perm_swap|]. apply Permutation.perm_swap.
  - eapply Permutation.perm_trans; [apply Permutation.perm_swap|].
    eapply Permutation.perm_trans; [apply Permutation.perm_skip, Permutation.perm_swap|]. apply Permutation.perm_swap.
Qed.

Lemma flop_spec p is_ws a b c n1 n2 n3 w1 w2 tail :
  not_ranks is_ws -> short_name n1 a -> short_name n2 b -> short_name n3 c ->
  forallb is_ws w1 = true -> forallb is_ws w2 = true ->
  exists r, flop_from_str is_ws p (n1 ++ w1 ++ n2 ++ w2 ++ n3 ++ tail) = Ret r /\
    (tail <> [] -> exists e, r = RErr e) /\
    (tail = [] -> NoDup [a; b; c] -> exists x y z, r = ROk [x; y; z] /\ x < y /\ y < z /\ Permutation.Permutation [a; b; c] [x; y; z]) /\
    (tail = [] -> ~ NoDup [a; b; c] -> exists e, r = RErr e).
Proof.
  intros Hws H1 H2 H3 W1 W2. unfold flop_from_str.
  rewrite (short_name_chars p n1 a _ H1). cbn [bind].
  assert (S2 : skip_ws is_ws (w1 ++ n2 ++ w2 ++ n3 ++ tail) = n2 ++ w2 ++ n3 ++ tail).
  { destruct H2 as (Hb & r & -> & Hr). eapply skip_ws_all; [exact W1|reflexivity|].
    eapply Hws; [|exact Hr]. apply split_card. exact Hb. }
  rewrite S2, (short_name_chars p n2 b _ H2). cbn [bind].
  assert (S3 : skip_ws is_ws (w2 ++ n3 ++ tail) = n3 ++ tail).
  { destruct H3 as (Hc & r & -> & Hr). eapply skip_ws_all; [exact W2|reflexivity|].
    eapply Hws; [|exact Hr]. apply split_card. exact Hc. }
  rewrite S3, (short_name_chars p n3 c _ H3). cbn [bind].
  destruct tail as [|t tail].
  - destruct (sort3_cases a b c) as (x & y & z & -> & Hxy & Hyz & HP).
    assert (HN : NoDup [a; b; c] <-> x <> y /\ y <> z).
    { split.
      - intros HD. apply (Permutation.Permutation_NoDup HP) in HD. inversion HD as [|? ? N1 D1]. inversion D1 as [|? ? N2 D2].
        subst. simpl in *. intuition.
      - intros [A B]. apply (Permutation.Permutation_NoDup (Permutation.Permutation_sym HP)).
        constructor; [simpl; intros [|[|[]]]; lia|]. constructor; [simpl; intros [|[]]; lia|]. constructor; [simpl; tauto|constructor]. }
    destruct ((x =? y) || (y =? z) || (x =? z)) eqn:E.
    + eexists. split; [reflexivity|]. split; [intros T; congruence|]. split.
      * intros _ HD. apply HN in HD as [A B]. exfalso.
        apply orb_true_iff in E as [E|E]; [apply orb_true_iff in E as [E|E]|]; apply N.eqb_eq in E; lia.
      * intros _ _. eauto.
    + apply orb_false_iff in E as [E E3]. apply orb_false_iff in E as [E1 E2]. apply N.eqb_neq in E1, E2, E3.
      eexists. split; [reflexivity|]. split; [intros T; congruence|]. split.
      * intros _ _. exists x, y, z. split; [reflexivity|]. split; [lia|]. split; [lia|exact HP].
      * intros _ HD. exfalso. apply HD, HN. auto.
  - eexists. split; [reflexivity|]. split; [eauto|]. split; intros T; discriminate T.
Qed.

(* ------------------------------------------------------------------------- *)
(** * Display of a combo as a key of the results *)
From Verif Require Import Sim.

Lemma display_unpaired p hr player c : hole (c_1 c) (c_2 c) -> rank_of (c_2 c) < rank_of (c_1 c) ->
  N.of_nat (length hr) < 2 ^ 64 -> (1326 * (player + 1) <= length hr)%nat ->
  exists d i u, combo_display c = Ret d /\ get_card_index p (c_1 c) (c_2 c) = Ret i /\
    nth_error hr (1326 * player + N.to_nat i) = Some u /\ get_hand_result p hr (N.of_nat player) d = Ret (ROk u).
Proof.
  intros H Hr Hm64 Hl. destruct (hand_lookup p hr player (c_1 c) (c_2 c) H (or_introl Hr) Hm64 Hl) as (i & u & H1 & H2 & H3).
  exists (hand_name (c_1 c) (c_2 c)), i, u. destruct H as (Ha & Hb & _). split; [now apply combo_display_spec|]. auto.
Qed.

Lemma display_paired p hr player c : hole (c_1 c) (c_2 c) -> rank_of (c_2 c) = rank_of (c_1 c) -> c_2 c < c_1 c ->
  exists d, combo_display c = Ret d /\ get_hand_result p hr player d = Ret (RErr InvalidHand).
Proof.
  intros H Hr Hlt. destruct H as (Ha & Hb & Hab). exists (hand_name (c_1 c) (c_2 c)). split; [now apply combo_display_spec|].
  apply hand_lookup_other. intros a b (Ha' & Hb' & _) Ho E.
  unfold hand_name in E. injection E as E1 E2 E3 E4.
  assert (c_1 c = a) by (apply card_name_inj; auto; unfold card_name; congruence).
  assert (c_2 c = b) by (apply card_name_inj; auto; unfold card_name; congruence). subst a b.
  apply split_card in Ha, Hb. unfold name_order in Ho. lia.
Qed.
