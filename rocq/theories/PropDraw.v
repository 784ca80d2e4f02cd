(* C53, C71-C76: the draw flags. *)
From Verif Require Import Base Hand SpecPoker SpecHand SpecFinal SpecDraw DrawFlagProofs.
Local Open Scope N_scope.

(* C53: flush draws, and straight draws open at both ends *)
Theorem C53_flush_draws : forall p a b board d, draw_flags p a b board = Ret d ->
  cards (a :: b :: mask_cards board) -> (length (mask_cards board) <= 4)%nat -> category_of (a :: b :: mask_cards board) < 5 ->
  (N.testbit d 5 = true <-> exists s, s < 4 /\ of_suit s (a :: b :: mask_cards board) = 4%nat) /\
  (N.testbit d 6 = true <-> (length (mask_cards board) < 4)%nat /\ exists s, s < 4 /\ of_suit s (a :: b :: mask_cards board) = 3%nat).
Proof. intros p a b board d. by_flags flags_flush. Qed.
Theorem C53_returns : forall p a b board, cards (a :: b :: mask_cards board) -> (length (mask_cards board) <= 4)%nat ->
  exists d, draw_flags p a b board = Ret d.
Proof. exact flags_exist. Qed.
(* Jc Tc on Kc Qc 2d: an open-ended straight draw and a flush draw; Ad 5d on Kd 9h 3s 3c: nothing;
   Ac 5c on Kc 9h 3s: a backdoor flush draw, with the ace *)
Example C53_example :
  draw_flags Debug 38 34 (2 ^ 46 + 2 ^ 42 + 2 ^ 3) = Ret (2 ^ 0 + 2 ^ 5) /\
  draw_flags Debug 51 15 (2 ^ 47 + 2 ^ 29 + 2 ^ 4 + 2 ^ 6) = Ret 0 /\
  draw_flags Debug 50 14 (2 ^ 46 + 2 ^ 29 + 2 ^ 4) = Ret (2 ^ 6 + 2 ^ 7) /\
  category_of (38 :: 34 :: mask_cards (2 ^ 46 + 2 ^ 42 + 2 ^ 3)) = 0.
Proof. vm_compute. auto. Qed.
(* 5d 4c on 3d 2c Kh: an ace or a six gives a straight, but there is no open-ended flag *)
Theorem C53_refuted : ~ forall p a b board d, draw_flags p a b board = Ret d ->
  cards (a :: b :: mask_cards board) -> (length (mask_cards board) <= 4)%nat -> category_of (a :: b :: mask_cards board) < 4 ->
  forall i low high, (forall k, k < 4 -> In (i + k) (map rank_of (a :: b :: mask_cards board))) ->
  category_of (low :: a :: b :: mask_cards board) = 4 -> category_of (high :: a :: b :: mask_cards board) = 4 -> rank_of low <> rank_of high ->
  N.testbit d 0 = true.
Proof.
  intros H. specialize (H Debug 15 10 (2 ^ 7 + 2 ^ 2 + 2 ^ 45) 2 ltac:(vm_compute; reflexivity)).
  change (mask_cards (2 ^ 7 + 2 ^ 2 + 2 ^ 45)) with [2; 7; 45] in H.
  assert (Hc : cards [15; 10; 2; 7; 45]) by (split; repeat constructor; cbn [In]; try lia; unfold is_card; lia).
  specialize (H Hc ltac:(cbn; lia) ltac:(vm_compute; reflexivity) 0 51 19).
  assert (Hr : forall k, k < 4 -> In (0 + k) (map rank_of [15; 10; 2; 7; 45])).
  { intros k Hk. change (map rank_of [15; 10; 2; 7; 45]) with [3; 2; 0; 1; 11]. cbn [In]. lia. }
  specialize (H Hr ltac:(vm_compute; reflexivity) ltac:(vm_compute; reflexivity) ltac:(vm_compute; discriminate)). vm_compute in H. discriminate.
Qed.

(* C71: the straight draws not using the ace as the lowest rank *)
Theorem C71_straight_draws : forall p a b board d, draw_flags p a b board = Ret d ->
  cards (a :: b :: mask_cards board) -> (length (mask_cards board) <= 4)%nat -> category_of (a :: b :: mask_cards board) < 4 ->
  let rs := map rank_of (a :: b :: mask_cards board) in
  let any := N.testbit d 0 || N.testbit d 1 || N.testbit d 2 in
  (any = true <-> exists r, completes rs r) /\
  (N.testbit d 0 || N.testbit d 2 = true <-> exists r r', r <> r' /\ completes rs r /\ completes rs r') /\
  (N.testbit d 3 = true -> (length (mask_cards board) < 4)%nat /\ exists x y, high_straight (x :: y :: rs)) /\
  ((length (mask_cards board) < 4)%nat -> any = false -> (exists x y, high_straight (x :: y :: rs)) -> N.testbit d 3 = true).
Proof. intros p a b board d. by_flags flags_straight. Qed.
Theorem C71_open_ended : forall p a b board d, draw_flags p a b board = Ret d ->
  cards (a :: b :: mask_cards board) -> (length (mask_cards board) <= 4)%nat -> category_of (a :: b :: mask_cards board) < 4 ->
  (N.testbit d 0 = true <-> exists i, 1 <= i <= 8 /\ forall k, k < 4 -> In (i + k) (map rank_of (a :: b :: mask_cards board))).
Proof. intros p a b board d. by_flags flags_open_ended. Qed.
(* 9d 8c on 7h 6s 2d, 9d 8c on 7h 5s 2d, 9d 7c on 6h 5s 3d, 9d 8c on 7h 2s 2d *)
Example C71_example :
  draw_flags Debug 31 26 (2 ^ 21 + 2 ^ 16 + 2 ^ 3) = Ret (2 ^ 0) /\
  draw_flags Debug 31 26 (2 ^ 21 + 2 ^ 12 + 2 ^ 3) = Ret (2 ^ 1 + 2 ^ 3) /\
  draw_flags Debug 31 22 (2 ^ 17 + 2 ^ 12 + 2 ^ 7) = Ret (2 ^ 1 + 2 ^ 2) /\
  draw_flags Debug 31 26 (2 ^ 21 + 2 ^ 0 + 2 ^ 3) = Ret (2 ^ 3).
Proof. vm_compute. auto. Qed.

(* C72: every hand one rank short of a straight has a straight draw flag *)
(* Ac 2h on 3d 4s 9c: a five gives a straight, but there is no flag at all *)
Theorem C72_refuted : ~ forall p a b board d, draw_flags p a b board = Ret d ->
  cards (a :: b :: mask_cards board) -> (length (mask_cards board) <= 4)%nat -> category_of (a :: b :: mask_cards board) < 4 ->
  forall c, category_of (c :: a :: b :: mask_cards board) = 4 -> N.testbit d 0 || N.testbit d 1 || N.testbit d 2 = true.
Proof.
  intros H. specialize (H Debug 50 1 (2 ^ 7 + 2 ^ 8 + 2 ^ 30) 8 ltac:(vm_compute; reflexivity)).
  change (mask_cards (2 ^ 7 + 2 ^ 8 + 2 ^ 30)) with [7; 8; 30] in H.
  assert (Hc : cards [50; 1; 7; 8; 30]) by (split; repeat constructor; cbn [In]; try lia; unfold is_card; lia).
  specialize (H Hc ltac:(cbn; lia) ltac:(vm_compute; reflexivity) 15 ltac:(vm_compute; reflexivity)). vm_compute in H. discriminate.
Qed.

(* C73: the nut straight flag *)
Theorem C73_nut_straight : forall p a b board d, draw_flags p a b board = Ret d ->
  cards (a :: b :: mask_cards board) -> (length (mask_cards board) <= 4)%nat ->
  let rs := map rank_of (a :: b :: mask_cards board) in
  (category_of (a :: b :: mask_cards board) = 4 ->
     (N.testbit d 4 = true <-> exists i, i <= 8 /\ has_run rs i /\ forall j x y, i < j -> j <= 8 -> ~ has_run (x :: y :: map rank_of (mask_cards board)) j)) /\
  (category_of (a :: b :: mask_cards board) <> 4 -> N.testbit d 4 = false).
Proof. intros p a b board d. by_flags flags_nut_straight. Qed.
(* Jd Th on 9d 8h 7s is the nut straight, 6d 5h is not *)
Example C73_example :
  draw_flags Debug 39 33 (2 ^ 31 + 2 ^ 25 + 2 ^ 20) = Ret (2 ^ 4) /\ draw_flags Debug 19 13 (2 ^ 31 + 2 ^ 25 + 2 ^ 20) = Ret 0 /\
  category_of (39 :: 33 :: mask_cards (2 ^ 31 + 2 ^ 25 + 2 ^ 20)) = 4 /\ category_of (19 :: 13 :: mask_cards (2 ^ 31 + 2 ^ 25 + 2 ^ 20)) = 4.
Proof. vm_compute. auto. Qed.

(* C74: a straight that no two cards beat is flagged *)
(* 4d 5h on Ad 2h 3s makes the only possible straight, but has no flag *)
Theorem C74_refuted : ~ forall p a b board d, draw_flags p a b board = Ret d ->
  cards (a :: b :: mask_cards board) -> (length (mask_cards board) <= 4)%nat -> category_of (a :: b :: mask_cards board) = 4 ->
  (forall x y, ~ high_straight (x :: y :: map rank_of (mask_cards board))) -> N.testbit d 4 = true.
Proof.
  intros H. specialize (H Debug 11 13 (2 ^ 51 + 2 ^ 1 + 2 ^ 4) 0 ltac:(vm_compute; reflexivity)).
  change (mask_cards (2 ^ 51 + 2 ^ 1 + 2 ^ 4)) with [1; 4; 51] in H.
  assert (Hc : cards [11; 13; 1; 4; 51]) by (split; repeat constructor; cbn [In]; try lia; unfold is_card; lia).
  specialize (H Hc ltac:(cbn; lia) ltac:(vm_compute; reflexivity)).
  assert (Hno : forall x y, ~ high_straight (x :: y :: map rank_of [1; 4; 51])).
  { intros x y (i & Hi & Hrun). change (map rank_of [1; 4; 51]) with [0; 1; 12] in Hrun. unfold has_run in Hrun.
    pose proof (Hrun 0 eq_refl) as R0. pose proof (Hrun 1 eq_refl) as R1. pose proof (Hrun 2 eq_refl) as R2. pose proof (Hrun 3 eq_refl) as R3. pose proof (Hrun 4 eq_refl) as R4.
    clear Hrun H. cbn [In] in *. lia. }
  specialize (H Hno). vm_compute in H. discriminate.
Qed.

(* C75: the nut flush flag *)
Theorem C75_nut_flush : forall p a b board d, draw_flags p a b board = Ret d ->
  cards (a :: b :: mask_cards board) -> (length (mask_cards board) <= 4)%nat ->
  let bl := mask_cards board in
  let l := a :: b :: bl in
  (category_of l < 5 -> (N.testbit d 7 = true <->
     exists s, s < 4 /\ (of_suit s l = 4%nat \/ of_suit s l = 3%nat /\ (length bl < 4)%nat) /\ top_of_suit s [a; b] bl)) /\
  (category_of l = 5 -> (N.testbit d 7 = true <-> exists s, s < 4 /\ (5 <= of_suit s l)%nat /\ top_of_suit s [a; b] bl)) /\
  (5 < category_of l -> N.testbit d 7 = false).
Proof. intros p a b board d. by_flags flags_nut_flush. Qed.
(* Kc 3c on Ac 7c 2h: the nut flush draw; Qc 3c: a flush draw; Kc 3c on Ac 7c 2c: the nut flush; Qc 3c: a flush *)
Example C75_example :
  draw_flags Debug 46 6 (2 ^ 50 + 2 ^ 22 + 2 ^ 1) = Ret (2 ^ 5 + 2 ^ 7) /\ draw_flags Debug 42 6 (2 ^ 50 + 2 ^ 22 + 2 ^ 1) = Ret (2 ^ 5) /\
  draw_flags Debug 46 6 (2 ^ 50 + 2 ^ 22 + 2 ^ 2) = Ret (2 ^ 7) /\ draw_flags Debug 42 6 (2 ^ 50 + 2 ^ 22 + 2 ^ 2) = Ret 0.
Proof. vm_compute. auto. Qed.

Print Assumptions C53_flush_draws.
Print Assumptions C53_returns.
Print Assumptions C53_refuted.
Print Assumptions C71_straight_draws.
Print Assumptions C71_open_ended.
Print Assumptions C72_refuted.
Print Assumptions C73_nut_straight.
Print Assumptions C74_refuted.
Print Assumptions C75_nut_flush.
