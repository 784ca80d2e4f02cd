(* C148, C149, C150: one more card on the board, and more cards out of play. *)
From Verif Require Import Base Hand Range Sim SpecPoker SpecNames SpecHand SpecEquity SpecResults SpecRun SpecStreet
  WitnessProofs StreetProofs SpareProofs PropEquity PropFavourite.
Local Open Scope N_scope.

(* C148: the counters of all boards with one more card add up to the counter of the board times
   the number of cards to come.  A run that reports conflicting ranges counts nothing. *)
Theorem C148_masks : forall p ranges board dead m x f, usable ranges -> (length ranges <= 8)%nat -> (length (mask_cards board) < 5)%nat -> m < 2 ^ N.of_nat (length ranges) ->
  reported p ranges board dead (mask_count m) x -> (forall c, In c (in_play board dead) -> reported p ranges (with_card board c) dead (mask_count m) (f c)) ->
  sum_of f (in_play board dead) = N.of_nat (5 - length (mask_cards board)) * x.
Proof. exact next_masks. Qed.
Theorem C148_hands : forall p ranges board dead field i a b k x f, usable ranges -> In field [u_wins; u_ties; u_total] -> (length (mask_cards board) < 5)%nat ->
  (i < length ranges)%nat -> hole a b -> get_card_index p a b = Ret k ->
  reported p ranges board dead (hand_count field i k) x -> (forall c, In c (in_play board dead) -> reported p ranges (with_card board c) dead (hand_count field i k) (f c)) ->
  sum_of f (in_play board dead) = N.of_nat (5 - length (mask_cards board)) * x.
Proof. exact next_hands. Qed.
(* Kd Qd Jd, only 2s, 3s, 3h and 3d are left besides the aces: Ad Ac wins against Ah As if the 3d
   comes *)
Definition diamond_flop : N := 2 ^ 47 + 2 ^ 43 + 2 ^ 39.
Example C148_example : in_play diamond_flop all_but_threes = [0; 4; 5; 7; 48; 49; 50; 51] /\ won_by aces diamond_flop all_but_threes 1 = 18 /\
  map (fun c => won_by aces (with_card diamond_flop c) all_but_threes 1) [0; 4; 5; 7; 48; 49; 50; 51] = [6; 6; 6; 18; 0; 0; 0; 0] /\
  exists x, reported Debug aces diamond_flop all_but_threes (mask_count 1) x.
Proof.
  split; [vm_compute; reflexivity|]. split; [vm_compute; reflexivity|]. split; [vm_compute; reflexivity|].
  destruct (RunProofs.call_can_finish Debug aces diamond_flop all_but_threes 1 false) as (sched & o & Hc & E); try reflexivity.
  - apply aces_usable.
  - unfold aces. small_arguments.
  - left. vm_compute. reflexivity.
  - vm_compute. discriminate.
  - eexists. split; [left; reflexivity|]. exists 1%nat, sched. split; [lia|]. split; [exact Hc|]. left. exists o. split; [exact E|reflexivity].
Qed.

(* C149: taking more cards out of play raises no counter *)
Theorem C149_masks : forall p ranges board dead dead' m x y, usable ranges -> (length ranges <= 8)%nat -> m < 2 ^ N.of_nat (length ranges) -> within dead dead' ->
  reported p ranges board dead (mask_count m) x -> reported p ranges board dead' (mask_count m) y -> y <= x.
Proof. exact dead_masks. Qed.
Theorem C149_hands : forall p ranges board dead dead' field i a b k x y, usable ranges -> In field [u_wins; u_ties; u_total] ->
  (i < length ranges)%nat -> hole a b -> get_card_index p a b = Ret k -> within dead dead' ->
  reported p ranges board dead (hand_count field i k) x -> reported p ranges board dead' (hand_count field i k) y -> y <= x.
Proof. exact dead_hands. Qed.
(* the same without the 3d, or without the 3h *)
Example C149_example : within all_but_threes (all_but_threes + 2 ^ 7) /\ won_by aces diamond_flop (all_but_threes + 2 ^ 7) 1 = 0 /\ won_by aces diamond_flop (all_but_threes + 2 ^ 5) 1 = 12.
Proof.
  split; [|split; vm_compute; reflexivity]. intros c Hc. replace (all_but_threes + 2 ^ 7) with (N.lor all_but_threes (2 ^ 7)) by (vm_compute; reflexivity). rewrite N.lor_spec, Hc. reflexivity.
Qed.

(* C150: each counter is missing from the runs without one card exactly as often as it needs
   that card: two cards of every player and the cards to come *)
Theorem C150_masks : forall p ranges board dead m x f, usable ranges -> (length ranges <= 8)%nat -> (length (mask_cards board) <= 5)%nat -> m < 2 ^ N.of_nat (length ranges) ->
  reported p ranges board dead (mask_count m) x -> (forall c, In c (in_play board dead) -> reported p ranges board (with_card dead c) (mask_count m) (f c)) ->
  sum_of f (in_play board dead) + N.of_nat (2 * length ranges + (5 - length (mask_cards board))) * x = N.of_nat (length (in_play board dead)) * x.
Proof. exact spared_masks. Qed.
Theorem C150_hands : forall p ranges board dead field i a b k x f, usable ranges -> In field [u_wins; u_ties; u_total] -> (length (mask_cards board) <= 5)%nat ->
  (i < length ranges)%nat -> hole a b -> get_card_index p a b = Ret k ->
  reported p ranges board dead (hand_count field i k) x -> (forall c, In c (in_play board dead) -> reported p ranges board (with_card dead c) (hand_count field i k) (f c)) ->
  sum_of f (in_play board dead) + N.of_nat (2 * length ranges + (5 - length (mask_cards board))) * x = N.of_nat (length (in_play board dead)) * x.
Proof. exact spared_hands. Qed.
(* without one of 2s, 3s, 3h, 3d and the aces: 12 + 12 + 12 + 0 + 0 = (8 - 6) * 18 *)
Example C150_example : map (fun c => won_by aces diamond_flop (with_card all_but_threes c) 1) [0; 4; 5; 7; 48; 49; 50; 51] = [12; 12; 12; 0; 0; 0; 0; 0].
Proof. vm_compute. reflexivity. Qed.

Print Assumptions C148_masks.
Print Assumptions C148_hands.
Print Assumptions C149_masks.
Print Assumptions C149_hands.
Print Assumptions C150_masks.
Print Assumptions C150_hands.
