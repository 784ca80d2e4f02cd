(* C01-C10: building and evaluating hands. *)
From Verif Require Import Base Hand SpecPoker SpecHand HandExprProofs.
Local Open Scope N_scope.

(* hands used in the examples: cards are 4 * rank + suit *)
Definition wheel : hexpr :=        (* A-5 straight with a pair and a king *)
  EAdd (EHole 48 0) (EMask (2 ^ 5 + 2 ^ 10 + 2 ^ 15 + 2 ^ 1 + 2 ^ 44)).
Definition nut_flush : hexpr :=    (* six spades *)
  EAdd (EAdd (ECard 48) EDefault) (EAdd (EHole 44 8) (EAdd (EHole 12 20) (EHole 24 3))).

Example wheel_cards : cards (cards_in wheel) /\ length (cards_in wheel) = 7%nat /\ bases wheel = 1%nat.
Proof. split; [apply cardsb_ok|split]; vm_compute; reflexivity. Qed.
Example nut_flush_cards : cards (cards_in nut_flush) /\ length (cards_in nut_flush) = 7%nat /\ bases nut_flush = 1%nat.
Proof. split; [apply cardsb_ok|split]; vm_compute; reflexivity. Qed.

(* C01: hands built in any way compare as their best five cards do under the rules of poker *)
Theorem C01_evaluate_orders_hands : forall p e1 e2, bases e1 = 1%nat -> bases e2 = 1%nat ->
  cards (cards_in e1) -> cards (cards_in e2) ->
  (2 <= length (cards_in e1) <= 7)%nat -> (2 <= length (cards_in e2) <= 7)%nat ->
  exists h1 h2 v1 v2, run p e1 = Ret h1 /\ run p e2 = Ret h2 /\ evaluate h1 = Ret v1 /\ evaluate h2 = Ret v2 /\
    N.compare v1 v2 = lex (best (cards_in e1)) (best (cards_in e2)).
Proof. exact compare_hands. Qed.
Example C01_example :
  (h <- run Debug wheel ;; evaluate h) = Ret 20481 /\ (h <- run Debug nut_flush ;; evaluate h) = Ret 26764 /\
  best (cards_in wheel) = [4; 3] /\ best (cards_in nut_flush) = [5; 12; 11; 6; 5; 3].
Proof. vm_compute. auto. Qed.

(* C02: value / 4096 - 1 is the category of the best hand; the value fits 16 bits *)
Theorem C02_category : forall p e, bases e = 1%nat -> cards (cards_in e) -> (2 <= length (cards_in e) <= 7)%nat ->
  exists h v, run p e = Ret h /\ evaluate h = Ret v /\ v < 2 ^ 16 /\ v / 4096 = category_of (cards_in e) + 1.
Proof. exact hand_category. Qed.
Example C02_example : category_of (cards_in wheel) = 4 /\ category_of (cards_in nut_flush) = 5.
Proof. vm_compute. auto. Qed.

(* C03: no read outside the tables, no panic, for at most seven cards *)
Theorem C03_no_out_of_bounds : forall p e, (bases e <= 1)%nat -> cards (cards_in e) -> (length (cards_in e) <= 7)%nat ->
  exists h v w, run p e = Ret h /\ evaluate h = Ret v /\ evaluate_without_flush h = Ret w.
Proof. exact evaluate_safe. Qed.
Example C03_example : (h <- run Debug (EHole 51 50) ;; evaluate h) = Ret 11781 /\
  (h <- run Debug EDefault ;; evaluate_without_flush h) = Ret 32773.
Proof. vm_compute. auto. Qed.

(* C04: equal exactly when the cards are the same set *)
Theorem C04_set_of_cards : forall p e1 e2, bases e1 = bases e2 -> (bases e1 <= 1)%nat ->
  cards (cards_in e1) -> cards (cards_in e2) ->
  (forall s, s < 4 -> (of_suit s (cards_in e1) <= 12)%nat) ->
  (forall s, s < 4 -> (of_suit s (cards_in e2) <= 12)%nat) ->
  exists h1 h2, run p e1 = Ret h1 /\ run p e2 = Ret h2 /\
    (hand_eqb h1 h2 = true <-> forall c, In c (cards_in e1) <-> In c (cards_in e2)) /\
    (hand_eqb h1 h2 = true -> h1 = h2).
Proof. exact hand_determined. Qed.
Example C04_example :
  (a <- run Debug nut_flush ;; b <- run Debug (add_all [3; 8; 12; 20; 24; 44; 48]) ;; Ret (hand_eqb a b)) = Ret true /\
  (a <- run Debug nut_flush ;; b <- run Debug (add_all [3; 8; 12; 20; 24; 44; 49]) ;; Ret (hand_eqb a b)) = Ret false.
Proof. vm_compute. auto. Qed.

(* C05: without five cards of a suit the fast path is the full evaluation *)
Theorem C05_flush_free_path : forall p e, bases e = 1%nat -> cards (cards_in e) ->
  (forall s, s < 4 -> (of_suit s (cards_in e) < 5)%nat) ->
  exists h, run p e = Ret h /\ evaluate h = evaluate_without_flush h.
Proof. exact flush_free. Qed.
Example C05_example : map (fun s => of_suit s (cards_in wheel)) [0; 1; 2; 3] = [3; 2; 1; 1]%nat /\
  (h <- run Debug nut_flush ;; evaluate_without_flush h) <> (h <- run Debug nut_flush ;; evaluate h).
Proof. vm_compute. split; [reflexivity|discriminate]. Qed.

(* C06: renaming suits does not change the value *)
Theorem C06_suits_interchangeable : forall p f e1 e2, suit_permutation f ->
  bases e1 = 1%nat -> bases e2 = 1%nat -> cards (cards_in e1) -> (2 <= length (cards_in e1) <= 7)%nat ->
  cards_in e2 = map (rename_suits f) (cards_in e1) ->
  exists h1 h2 v, run p e1 = Ret h1 /\ run p e2 = Ret h2 /\ evaluate h1 = Ret v /\ evaluate h2 = Ret v.
Proof. exact suits_interchangeable. Qed.
Example C06_example : suit_permutation (fun s => (s + 1) mod 4) /\
  map (rename_suits (fun s => (s + 1) mod 4)) [48; 51; 3] = [49; 48; 0].
Proof.
  split; [|reflexivity]. split; [intros s _; apply N.mod_lt; discriminate|].
  intros s t Hs Ht.
  assert (Hs' : s = 0 \/ s = 1 \/ s = 2 \/ s = 3) by lia. assert (Ht' : t = 0 \/ t = 1 \/ t = 2 \/ t = 3) by lia.
  destruct Hs' as [->|[->|[->| ->]]], Ht' as [->|[->|[->| ->]]]; vm_compute; congruence.
Qed.

(* C07: adding cards never lowers the value *)
Theorem C07_more_cards_never_hurt : forall p e1 e2, bases e1 = 1%nat -> bases e2 = 1%nat ->
  cards (cards_in e1) -> cards (cards_in e2) -> incl (cards_in e1) (cards_in e2) ->
  (2 <= length (cards_in e1))%nat -> (length (cards_in e2) <= 7)%nat ->
  exists h1 h2 v1 v2, run p e1 = Ret h1 /\ run p e2 = Ret h2 /\ evaluate h1 = Ret v1 /\ evaluate h2 = Ret v2 /\
    v1 <= v2.
Proof. exact more_never_hurts. Qed.
Example C07_example :
  map (fun l => h <- run Debug (add_all l) ;; evaluate h)
      [[48; 0]; [48; 0; 1]; [48; 0; 1; 5]; [48; 0; 1; 5; 10]; [48; 0; 1; 5; 10; 15]] =
  [Ret 5662; Ret 8425; Ret 8426; Ret 8428; Ret 20481].
Proof. vm_compute. reflexivity. Qed.

(* C08: counters *)
Theorem C08_counters_exact : forall p e, bases e = 1%nat -> cards (cards_in e) ->
  (forall s, s < 4 -> (of_suit s (cards_in e) <= 12)%nat) ->
  exists h, run p e = Ret h /\
    ((length (cards_in e) <= 15)%nat -> count h = N.of_nat (length (cards_in e))) /\
    (forall s, s < 4 -> suit_count p h s = Ret (Z.of_nat (of_suit s (cards_in e)))) /\
    (forall c, is_card c -> exists b, contains p h c = Ret b /\ (b = true <-> In c (cards_in e))) /\
    (has_flush h = true <-> exists s, s < 4 /\ (5 <= of_suit s (cards_in e))%nat).
Proof. exact counters_exact. Qed.
Example C08_example : exists h, run Debug nut_flush = Ret h /\ count h = 7 /\
  suit_count Debug h 0 = Ret 6%Z /\ contains Debug h 48 = Ret true /\ contains Debug h 49 = Ret false /\ has_flush h = true.
Proof. eexists. vm_compute. repeat split. Qed.

(* C09: from_bit_mask adds the cards of the mask; bits 52..63 are not cards *)
Theorem C09_from_bit_mask : forall p m, (forall s, s < 4 -> (of_suit s (mask_cards m) <= 12)%nat) ->
  exists h, from_bit_mask p m = Ret h /\ run p (add_all (mask_cards m)) = Ret h.
Proof. exact bit_mask_hand. Qed.
Example C09_example : mask_cards (2 ^ 51 + 2 ^ 7 + 2 ^ 60) = [7; 51] /\
  from_bit_mask Debug (2 ^ 51 + 2 ^ 7 + 2 ^ 60) = run Debug (add_all [7; 51]).
Proof. vm_compute. auto. Qed.

(* C10 is false: the empty hand evaluates to the value of a four of a kind and beats a full
   house; a single deuce also does. *)
Theorem C10_refuted : exists v0 v1 w,
  (h <- run Release EDefault ;; evaluate h) = Ret v0 /\
  (h <- run Release (EAdd EDefault (ECard 0)) ;; evaluate h) = Ret v1 /\
  (h <- run Release (add_all [0; 1; 2; 4; 5]) ;; evaluate h) = Ret w /\
  category_of [0; 1; 2; 4; 5] = 6 /\ w < v0 /\ w < v1.
Proof. exact small_hand_values. Qed.

Print Assumptions C01_evaluate_orders_hands.
Print Assumptions C02_category.
Print Assumptions C03_no_out_of_bounds.
Print Assumptions C04_set_of_cards.
Print Assumptions C05_flush_free_path.
Print Assumptions C06_suits_interchangeable.
Print Assumptions C07_more_cards_never_hurt.
Print Assumptions C08_counters_exact.
Print Assumptions C09_from_bit_mask.
Print Assumptions C10_refuted.
