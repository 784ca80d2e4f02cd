(* C151-C153: which values hands of five to seven cards have. *)
From Verif Require Import Base Hand SpecPoker SpecHand SpecValue HandExprProofs ValueProofs ValueCountProofs.
Local Open Scope N_scope.

(* C151: the value of up to seven cards is the highest value of five of them *)
Theorem C151_best_five : forall p e n, hand_with n e -> (5 <= n <= 7)%nat ->
  (exists e', hand_with 5 e' /\ incl (cards_in e') (cards_in e) /\ value_of p e' = value_of p e) /\
  (forall e', hand_with 5 e' -> incl (cards_in e') (cards_in e) -> exists v' v, value_of p e' = Ret v' /\ value_of p e = Ret v /\ v' <= v).
Proof. exact value_best_five. Qed.
(* the straight A-5 with a second ace and a king; its best five cards, and five others *)
Example C151_example :
  let e := EAdd (EHole 48 0) (EMask (2 ^ 5 + 2 ^ 10 + 2 ^ 15 + 2 ^ 49 + 2 ^ 44)) in
  hand_with 7 e /\ value_of Debug e = Ret 20481 /\
  map (value_of Debug) [add_all [48; 0; 5; 10; 15]; add_all [48; 49; 44; 15; 10]] = [Ret 20481; Ret 12023].
Proof. split; [split; [reflexivity|split; [apply cardsb_ok; vm_compute; reflexivity|vm_compute; reflexivity]]|vm_compute; auto]. Qed.

(* C152: five cards have the same value exactly if they have the same ranks and both or
   neither are a flush; so there are 7462 values *)
Theorem C152_same_value : forall p e1 e2, hand_with 5 e1 -> hand_with 5 e2 ->
  (value_of p e1 = value_of p e2 <-> same_ranks (cards_in e1) (cards_in e2) /\ is_flush (cards_in e1) = is_flush (cards_in e2)).
Proof. exact same_value. Qed.
Theorem C152_number_of_values : forall p, exists vs, NoDup vs /\ N.of_nat (length vs) = 7462 /\
  forall v, In v vs <-> exists e, hand_with 5 e /\ value_of p e = Ret v.
Proof. exact number_of_values. Qed.
(* A K Q J 9 in mixed suits twice, in one suit, and with an eight *)
Example C152_example : map (value_of Release) [add_all [48; 45; 40; 36; 28]; add_all [29; 47; 50; 37; 42]; add_all [48; 44; 40; 36; 28]; add_all [48; 45; 40; 36; 24]] =
  [Ret 6452; Ret 6452; Ret 26932; Ret 6451].
Proof. vm_compute. reflexivity. Qed.

(* C153: how many of them each category has, from high card to straight flush *)
Theorem C153_categories : forall p c n, nth_error [1277; 2860; 858; 858; 10; 1277; 156; 156; 10] c = Some n ->
  exists vs, NoDup vs /\ N.of_nat (length vs) = n /\
    forall v, In v vs <-> v / 4096 = N.of_nat c + 1 /\ exists e, hand_with 5 e /\ value_of p e = Ret v.
Proof. exact values_by_category. Qed.
Example C153_example : fold_right N.add 0 [1277; 2860; 858; 858; 10; 1277; 156; 156; 10] = 7462 /\
  map (value_of Debug) (map (fun t => add_all (map (N.mul 4) (straight_ranks t))) [12; 11; 10; 9; 8; 7; 6; 5; 4; 3]) = map (fun i => Ret (36864 + i)) [10; 9; 8; 7; 6; 5; 4; 3; 2; 1].
Proof. vm_compute. auto. Qed.

Print Assumptions C151_best_five.
Print Assumptions C152_same_value.
Print Assumptions C152_number_of_values.
Print Assumptions C153_categories.
