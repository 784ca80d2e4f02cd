(* C101-C107: the masks of a hand, numbers which are not cards, repeated cards, and the
   order of HandWithIndex. *)
From Verif Require Import Base Hand HandIndex SpecPoker SpecHand SpecRange HandExprProofs MaskProofs.
Local Open Scope N_scope.

(* six spades (suit 0) and the deuce of suit 3; four aces and four kings *)
Definition six_spades : hexpr := EAdd (EAdd (ECard 48) EDefault) (EAdd (EHole 44 8) (EAdd (EHole 12 20) (EHole 24 3))).
Definition aces_and_kings : list N := [48; 49; 50; 51; 44; 45; 46; 47].

(* C101: bit r of a suit mask, of the rank mask and of the flush key *)
Theorem C101_masks_exact : forall p e, bases e = 1%nat -> cards (cards_in e) -> (forall s, s < 4 -> (of_suit s (cards_in e) <= 12)%nat) ->
  exists h, run p e = Ret h /\
    (forall s, s < 4 -> exists m, get_suit_mask p h s = Ret m /\ forall r, N.testbit m r = true <-> In (4 * r + s) (cards_in e)) /\
    (forall r, N.testbit (get_rank_mask h) r = true <-> exists c, In c (cards_in e) /\ rank_of c = r) /\
    (forall s, s < 4 -> (5 <= of_suit s (cards_in e))%nat -> (forall t, s < t < 4 -> (of_suit t (cards_in e) < 5)%nat) ->
       forall r, N.testbit (get_flush_key h) r = true <-> In (4 * r + s) (cards_in e)) /\
    ((forall s, s < 4 -> (of_suit s (cards_in e) < 5)%nat) -> get_flush_key h = 0).
Proof. exact masks_exact. Qed.
Example C101_example : exists h, run Debug six_spades = Ret h /\ get_suit_mask Debug h 0 = Ret (2 ^ 12 + 2 ^ 11 + 2 ^ 6 + 2 ^ 5 + 2 ^ 3 + 2 ^ 2) /\
  get_suit_mask Debug h 3 = Ret 1 /\ get_rank_mask h = 2 ^ 12 + 2 ^ 11 + 2 ^ 6 + 2 ^ 5 + 2 ^ 3 + 2 ^ 2 + 1 /\
  get_flush_key h = 2 ^ 12 + 2 ^ 11 + 2 ^ 6 + 2 ^ 5 + 2 ^ 3 + 2 ^ 2.
Proof. eexists. vm_compute. repeat split. Qed.

(* C102: false.  A hand which holds only the deuce of suit 2 says that it contains 67. *)
Theorem C102_refuted : ~ (forall p e h c, bases e = 1%nat -> cards (cards_in e) -> run p e = Ret h -> 52 <= c < 256 -> contains p h c <> Ret true).
Proof.
  intros H. refine (H Debug (EAdd EDefault (ECard 2)) _ 67 _ _ _ _ _); [reflexivity|apply cardsb_ok; vm_compute; reflexivity|vm_compute; reflexivity|lia|vm_compute; reflexivity].
Qed.

(* C103: 52 to 63 are never contained; a number from 64 to 115 which four does not divide is
   read as the card 65 below it; if four divides it, a build with overflow checks panics *)
Theorem C103_beyond_the_deck : forall p e c, bases e = 1%nat -> cards (cards_in e) -> (forall s, s < 4 -> (of_suit s (cards_in e) <= 12)%nat) ->
  (52 <= c < 64 -> exists h, run p e = Ret h /\ contains p h c = Ret false) /\
  (64 <= c < 116 -> 0 < c mod 4 -> exists h b, run p e = Ret h /\ contains p h c = Ret b /\ (b = true <-> In (c - 65) (cards_in e))).
Proof. intros p e c Hb Hc Hf. split; [apply contains_beyond; assumption|apply contains_wraps; assumption]. Qed.
Theorem C103_panics : forall h c, 64 <= c < 256 -> c mod 4 = 0 -> contains Debug h c = Fail Overflow.
Proof. exact contains_panics. Qed.
Example C103_example : exists h, run Debug six_spades = Ret h /\ map (contains Debug h) [52; 63; 64; 113; 114; 109] =
  [Ret false; Ret false; Fail Overflow; Ret true; Ret false; Ret true].
Proof. eexists. vm_compute. repeat split. Qed.

(* C104: false.  Eight different cards, or seven cards with repetitions, are enough to make
   evaluate read outside its tables. *)
Theorem C104_refuted :
  ~ (forall p e h, bases e = 1%nat -> cards (cards_in e) -> run p e = Ret h -> evaluate h <> Fail UnsafeOOB) /\
  ~ (forall p e h, bases e = 1%nat -> Forall is_card (cards_in e) -> (length (cards_in e) <= 7)%nat -> run p e = Ret h -> evaluate h <> Fail UnsafeOOB).
Proof.
  split; intros H.
  - refine (H Release (add_all aces_and_kings) _ _ _ _ _); [reflexivity|apply cardsb_ok; vm_compute; reflexivity|vm_compute; reflexivity|vm_compute; reflexivity].
  - refine (H Release (add_all [48; 49; 50; 51; 48; 49; 50]) _ _ _ _ _ _); [reflexivity|repeat constructor|vm_compute; lia|vm_compute; reflexivity|vm_compute; reflexivity].
Qed.

(* C105: false.  The same ace twice is a pair of aces: it is not the hand with one ace, and
   its value is the value of two different aces. *)
Theorem C105_refuted : ~ (forall p e h h' c, bases e = 1%nat -> cards (cards_in e) -> In c (cards_in e) ->
  run p e = Ret h -> run p (EAdd e (ECard c)) = Ret h' -> h' = h \/ evaluate h' = evaluate h).
Proof.
  intros H. destruct (H Debug (add_all [48; 0]) _ _ 48 eq_refl (cardsb_ok [48; 0] eq_refl) (or_introl eq_refl) ltac:(vm_compute; reflexivity) ltac:(vm_compute; reflexivity)) as [E|E];
    vm_compute in E; discriminate.
Qed.
Example C105_example : (h <- run Debug (add_all [48; 48]) ;; evaluate h) = (h <- run Debug (add_all [48; 49]) ;; evaluate h).
Proof. vm_compute. reflexivity. Qed.

(* C106: HandWithIndex is ordered by ranks, then by suits *)
Theorem C106_order : forall x y z, hwi_cmp x x = Eq /\ hwi_cmp y x = CompOpp (hwi_cmp x y) /\
  (hwi_cmp x y <> Gt -> hwi_cmp y z <> Gt -> hwi_cmp x z <> Gt).
Proof. exact hwi_order. Qed.
Theorem C106_meaning : forall x y, hwi_partial_cmp x y = Some Lt <-> hand_before (hw_1 x, hw_2 x) (hw_1 y, hw_2 y).
Proof. intros x y. unfold hwi_partial_cmp. rewrite hwi_meaning. unfold hand_before. split; [intros E; injection E as E; exact E|intros E; f_equal; exact E]. Qed.
Example C106_example : hwi_cmp (mkHWI 51 0 7 1) (mkHWI 48 5 9 0) = Lt /\ hwi_cmp (mkHWI 51 0 7 1) (mkHWI 47 44 9 0) = Gt /\ hwi_cmp (mkHWI 51 0 7 1) hwi_default = Lt.
Proof. vm_compute. repeat split. Qed.

(* C107: false.  The order ignores the weight and the player, equality does not. *)
Theorem C107_refuted : ~ (forall x y, hwi_cmp x y = Eq -> hwi_eqb x y = true).
Proof. intros H. specialize (H (mkHWI 51 0 7 1) (mkHWI 51 0 7 2) eq_refl). discriminate. Qed.

Print Assumptions C101_masks_exact.
Print Assumptions C102_refuted.
Print Assumptions C103_beyond_the_deck.
Print Assumptions C103_panics.
Print Assumptions C104_refuted.
Print Assumptions C105_refuted.
Print Assumptions C106_order.
Print Assumptions C106_meaning.
Print Assumptions C107_refuted.
