(* The assertions of the repository's own unit tests, evaluated on the model.  They are not
   properties; they show that the model gives the answers which the source's authors expect.  The
   tests that run whole simulations are left out here because they are too slow for the checker;
   DESIGN.md says what the model answers for them. *)
From Coq Require Import Strings.String.
From Verif Require Import Base Hand FastDivide Range Combined Sim.
Local Open Scope N_scope.

Definition ret_is {A : Type} (eqb : A -> A -> bool) (x : outcome A) (a : A) : bool :=
  match x with Ret b => eqb b a | Fail _ => false end.
Definition size_is (x : outcome (list combo)) (n : nat) : bool :=
  match x with Ret l => (length l =? n)%nat | Fail _ => false end.
(* Hand::default() + CARDS[..] + ... *)
Definition plus_cards (p : profile) (cs : list N) : outcome hand :=
  foldM (fun h c => k <- CARDS_get c ;; hand_add p h k) cs hand_default.
Definition both (f : profile -> bool) : bool := f Debug && f Release.

(** * hand.rs *)
(* hand.rs:346-355 *)
Example test_card_constants :
  match CARDS_get 0 with Ret h => (mask h =? N.shiftl 1 48) && (count h =? 1) && negb (has_flush h) | Fail _ => false end = true.
Proof. vm_compute. reflexivity. Qed.
(* hand.rs:357-363 *)
Example test_from_hole_cards :
  both (fun p => match from_hole_cards p 0 1 with Ret h => (count h =? 2) && negb (has_flush h) | Fail _ => false end) = true.
Proof. vm_compute. reflexivity. Qed.
(* hand.rs:365-370 *)
Example test_rank_key :
  both (fun p => match from_hole_cards p 0 1 with Ret h => get_rank_key h =? nth 0 RANKS 0 + nth 0 RANKS 0 | Fail _ => false end) = true.
Proof. vm_compute. reflexivity. Qed.
(* hand.rs:372-379 *)
Example test_flush_key :
  both (fun p => match plus_cards p [0; 4; 8; 12; 16], plus_cards p [0; 4; 8; 12] with
                 | Ret f, Ret g => (get_flush_key f =? 31) && (get_flush_key g =? 0)
                 | _, _ => false
                 end) = true.
Proof. vm_compute. reflexivity. Qed.
(* hand.rs:381-387 *)
Example test_has_flush :
  both (fun p => match plus_cards p [0; 8; 12; 16; 20], plus_cards p [0; 8; 12; 16; 21] with
                 | Ret f, Ret g => has_flush f && negb (has_flush g)
                 | _, _ => false
                 end) = true.
Proof. vm_compute. reflexivity. Qed.
(* hand.rs:389-395 *)
Example test_suit_count :
  both (fun p => match plus_cards p [0; 8; 12; 16; 21], plus_cards p [1; 9; 13] with
                 | Ret f, Ret g => ret_is Z.eqb (suit_count p f 0) 4%Z && ret_is Z.eqb (suit_count p g 1) 3%Z
                 | _, _ => false
                 end) = true.
Proof. vm_compute. reflexivity. Qed.

(** * fastdivide.rs *)
(* fastdivide.rs:200-207 *)
Example test_divide_op :
  both (fun p => match divide_by p 2 with Ret d => ret_is N.eqb (divide p d 4) 2 && ret_is N.eqb (divide p d 8) 4 | Fail _ => false end) = true.
Proof. vm_compute. reflexivity. Qed.
(* fastdivide.rs:209-213 *)
Example test_divide_by_4 : forall p, divide_by p 4 = Ret (BitShift 2).
Proof. destruct p; vm_compute; reflexivity. Qed.
(* fastdivide.rs:215-219 *)
Example test_divide_by_7 : forall p, exists magic_low shift, divide_by p 7 = Ret (General magic_low shift).
Proof. destruct p; do 2 eexists; vm_compute; reflexivity. Qed.
(* fastdivide.rs:221-231 *)
Example test_divide_by_11 : forall p, divide_by p 11 = Ret (Fast 13415813871788764812 3).
Proof. destruct p; vm_compute; reflexivity. Qed.
(* fastdivide.rs:234-243; for u64::MAX the upper bound is 2^63 - 1 + 2^63, which fits *)
Example test_floor_log2 :
  forallb (fun i => match floor_log2 i with
                    | Ret l => (2 ^ l <=? i) && (i <=? 2 ^ l - 1 + 2 ^ l)
                    | Fail _ => false
                    end) [1; 2; 3; 4; 10; 15; 16; 31; 32; 33; 2 ^ 64 - 1] = true.
Proof. vm_compute. reflexivity. Qed.
(* fastdivide.rs:245-256 is an instance of C32 in PropDivide.v, for every divisor and number *)

(** * hand_range.rs *)
(* hand_range.rs:597-605 *)
Example test_char_to_suit :
  map (fun s => map char_to_suit (chars s)) ["shx "%string] = [[0; 1; 255; 255]].
Proof. vm_compute. reflexivity. Qed.
(* hand_range.rs:607-615 *)
Example test_char_to_rank : map char_to_rank (chars "a2x ") = [12; 0; 255; 255].
Proof. vm_compute. reflexivity. Qed.
(* hand_range.rs:623-639 *)
Example test_hand_range_remove_duplicates :
  let twice := add_combos (add_combos [] 1 1 true true 100) 1 1 true true 100 in
  let mixed := add_combos (add_combos [] 1 0 true false 100) 1 0 false true 100 in
  map (@length combo) [twice; remove_duplicates twice; mixed; remove_duplicates mixed] = [12%nat; 6%nat; 16%nat; 16%nat].
Proof. vm_compute. reflexivity. Qed.
(* hand_range.rs:641-651 *)
Example test_hand_range_add_combo : add_combo [] 52 0 100 = [] /\ add_combo [] 0 0 100 = [].
Proof. vm_compute. auto. Qed.
(* hand_range.rs:653-671 *)
Example test_hand_range_add_combos :
  map (@length combo) [add_combos [] 1 1 true true 100; add_combos [] 1 0 true false 100; add_combos [] 1 0 false true 100; add_combos [] 1 0 true true 100] =
  [6%nat; 4%nat; 12%nat; 16%nat].
Proof. vm_compute. reflexivity. Qed.
(* hand_range.rs:673-677 *)
Example test_hand_range_random : size_is (from_string_ascii Debug (chars "random")) 1326 = true.
Proof. vm_compute. reflexivity. Qed.
(* hand_range.rs:679-711 *)
Example test_hand_range_from_str :
  both (fun p => forallb (fun tn => size_is (from_string_ascii p (chars (fst tn))) (snd tn))
    [("33", 6%nat); ("a2o", 12%nat); ("a2s", 4%nat); ("a2+", 192%nat); ("a2o+", 144%nat); ("a2s+", 48%nat);
     ("22,a2s+", 54%nat); ("a2s+,a4s+", 48%nat); ("as2h@50,AA@25,KK@100", 13%nat)]%string) = true.
Proof. vm_compute. reflexivity. Qed.

(** * simulator.rs *)
(* simulator.rs:1332-1390: the weights while the simulation runs and afterwards *)
Definition weights_during (p : profile) (texts : list string) : outcome (list N * list N) :=
  rs <- from_strings (map to_ascii_lowercase) p (map chars texts) ;;
  '(hr, flag) <- save_hand_weights p rs (repeat unit_default (NUM_HANDS * length rs)) ;;
  hr' <- fix_hand_weights p flag rs hr ;;
  Ret (nodup N.eq_dec (map u_weight hr), nodup N.eq_dec (map u_weight hr')).
Example test_weight_optimization :
  weights_during Debug ["22+"; "A2+"]%string = Ret ([1; 0], [100; 0]) /\
  weights_during Debug ["22+@50"; "A2+@5"]%string = Ret ([50; 5; 0], [50; 5; 0]).
Proof. vm_compute. auto. Qed.
