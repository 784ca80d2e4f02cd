(* C11-C15: numbers and names of starting hands. *)
From Verif Require Import Base Hand Range Sim SpecPoker SpecNames IndexProofs TextProofs.
Local Open Scope N_scope.

(* C11: get_card_index numbers the starting hands 0..1325, each once, in either order *)
Theorem C11_index_bijection : forall p,
  (forall a b, hole a b -> exists i, i < 1326 /\ get_card_index p a b = Ret i /\ get_card_index p b a = Ret i) /\
  (forall i, i < 1326 -> exists a b, hole a b /\ get_card_index p a b = Ret i /\
     forall c d, hole c d -> get_card_index p c d = Ret i -> c = a /\ d = b \/ c = b /\ d = a).
Proof. exact index_bijection. Qed.
Example C11_example : hole 51 46 /\ get_card_index Debug 51 46 = Ret 401 /\ get_card_index Release 46 51 = Ret 401.
Proof. split; [repeat split; discriminate|]. vm_compute. auto. Qed.

(* C12: the hands of the n-th preflop combination have exactly the numbers of block n *)
Theorem C12_layout : forall p a b i k n, hole a b -> get_card_index p a b = Ret i -> nth_error kinds n = Some k ->
  (of_kind k a b <-> n = N.to_nat (block i)).
Proof. exact index_layout. Qed.
Theorem C12_block_exists : forall p a b i, hole a b -> get_card_index p a b = Ret i ->
  exists k, nth_error kinds (N.to_nat (block i)) = Some k /\ of_kind k a b.
Proof. exact index_block. Qed.
Example C12_example : nth_error kinds 91 = Some (Offsuit 12 11) /\ of_kind (Offsuit 12 11) 51 46 /\ block 401 = 91 /\
  nth_error kinds 13 = Some (Suited 12 11) /\ block 78 = 13 /\ block 77 = 12 /\ block 389 = 90 /\ block 390 = 91 /\ length kinds = 169%nat.
Proof. vm_compute. intuition discriminate. Qed.

(* C13: the method on Hand and the free function give the same number *)
Theorem C13_same_index : forall p a b, hole a b ->
  exists h i, from_hole_cards p a b = Ret h /\ hand_card_index p h = Ret i /\ get_card_index p a b = Ret i.
Proof. exact both_indices. Qed.
Example C13_example : (h <- from_hole_cards Debug 3 2 ;; hand_card_index Debug h) = Ret 77 /\ get_card_index Debug 3 2 = Ret 77.
Proof. vm_compute. auto. Qed.

(* C14: a hand's name finds that hand's result; any other text is an error *)
Theorem C14_hand_by_name : forall p hr player a b, hole a b -> name_order a b -> N.of_nat (length hr) < 2 ^ 64 -> (1326 * (player + 1) <= length hr)%nat ->
  exists i u, get_card_index p a b = Ret i /\ nth_error hr (1326 * player + N.to_nat i) = Some u /\
    get_hand_result p hr (N.of_nat player) (hand_name a b) = Ret (ROk u).
Proof. exact hand_lookup. Qed.
Theorem C14_no_other_hand_name : forall p hr player text,
  (forall a b, hole a b -> name_order a b -> text <> hand_name a b) ->
  get_hand_result p hr player text = Ret (RErr InvalidHand).
Proof. exact hand_lookup_other. Qed.
Theorem C14_combo_by_name : forall p cr player n k, nth_error kinds n = Some k -> N.of_nat (length cr) < 2 ^ 64 -> (169 * (player + 1) <= length cr)%nat ->
  exists u, nth_error cr (169 * player + n) = Some u /\ get_combo_result p cr (N.of_nat player) (kind_name k) = Ret (ROk u).
Proof. exact combo_lookup. Qed.
Theorem C14_no_other_combo_name : forall p cr player text, (forall k, In k kinds -> text <> kind_name k) ->
  get_combo_result p cr player text = Ret (RErr InvalidCombo).
Proof. exact combo_lookup_other. Qed.
Example C14_example :
  hand_name 51 46 = chars "AdKc" /\ name_order 51 46 /\ hand_name 50 51 = chars "AcAd" /\ name_order 50 51 /\
  kind_name (Offsuit 12 11) = chars "AKo" /\
  get_hand_result Debug [] 1 (chars "AhAs") = Ret (RErr InvalidHand) /\ get_combo_result Release [] 0 (chars "KAs") = Ret (RErr InvalidCombo).
Proof. vm_compute. intuition. Qed.

(* C15 is false: the printed form of a pocket pair is never accepted.  It holds for every
   hand that is not a pair.  (Combos of ranges have the higher card first, see C22.) *)
Theorem C15_refuted : exists hands c d, from_string_ascii Debug (chars "AA") = Ret hands /\ In c hands /\
  combo_display c = Ret d /\ d = chars "AhAs" /\ forall p hr player, get_hand_result p hr player d = Ret (RErr InvalidHand).
Proof.
  eexists. exists (49, 48, 100), (chars "AhAs"). split; [vm_compute; reflexivity|].
  split; [left; reflexivity|]. split; [reflexivity|]. split; [reflexivity|]. intros. vm_compute. reflexivity.
Qed.
Theorem C15_pairs_rejected : forall p hr player c,
  hole (c_1 c) (c_2 c) -> rank_of (c_2 c) = rank_of (c_1 c) -> c_2 c < c_1 c ->
  exists d, combo_display c = Ret d /\ get_hand_result p hr player d = Ret (RErr InvalidHand).
Proof. exact display_paired. Qed.
Theorem C15_unpaired_accepted : forall p hr player c,
  hole (c_1 c) (c_2 c) -> rank_of (c_2 c) < rank_of (c_1 c) -> N.of_nat (length hr) < 2 ^ 64 -> (1326 * (player + 1) <= length hr)%nat ->
  exists d i u, combo_display c = Ret d /\ get_card_index p (c_1 c) (c_2 c) = Ret i /\
    nth_error hr (1326 * player + N.to_nat i) = Some u /\ get_hand_result p hr (N.of_nat player) d = Ret (ROk u).
Proof. exact display_unpaired. Qed.
Example C15_example : combo_display (51, 46, 100) = Ret (chars "AdKc") /\ hole 51 46 /\ rank_of 46 < rank_of 51.
Proof. vm_compute. intuition discriminate. Qed.

Print Assumptions C11_index_bijection.
Print Assumptions C12_layout.
Print Assumptions C12_block_exists.
Print Assumptions C13_same_index.
Print Assumptions C14_hand_by_name.
Print Assumptions C14_no_other_hand_name.
Print Assumptions C14_combo_by_name.
Print Assumptions C14_no_other_combo_name.
Print Assumptions C15_refuted.
Print Assumptions C15_pairs_rejected.
Print Assumptions C15_unpaired_accepted.
