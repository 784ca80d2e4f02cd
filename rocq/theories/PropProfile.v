(* C87: builds with and without overflow checks. *)
From Verif Require Import Base Float64 Hand Range FastDivide Combined Sim Approx SpecPoker SpecNames SpecHand SpecEquity SpecResults SpecRun SpecApprox
  ProfileProofs ShareProofs.
Local Open Scope N_scope.

(* The only difference between the two builds is what happens on an overflow: unless the checked
   build panics on one, the unchecked build has the same outcome - the same value, the same
   error or the same panic. *)
Definition same_unless_overflow {A} (f : profile -> outcome A) : Prop := f Debug = Fail Overflow \/ f Release = f Debug.

Theorem C87_runs :
  (forall ranges board dead threads cancelled sched, same_unless_overflow (fun p => exact_equity p ranges board dead threads cancelled sched)) /\
  (forall ranges board dead threads target cancelled shuf rngs fuel sched,
     same_unless_overflow (fun p => approx_equity p ranges board dead threads target cancelled shuf rngs fuel sched)).
Proof. split; [exact ag_exact|exact ag_approx]. Qed.
Theorem C87_hands_and_text :
  (forall a b, same_unless_overflow (fun p => hand_add p a b)) /\
  (forall a b, same_unless_overflow (fun p => from_hole_cards p a b)) /\
  (forall m, same_unless_overflow (fun p => from_bit_mask p m)) /\
  (forall h c, same_unless_overflow (fun p => contains p h c)) /\
  (forall h s, same_unless_overflow (fun p => suit_count p h s)) /\
  (forall a b, same_unless_overflow (fun p => get_card_index p a b)) /\
  (forall hole board rank, same_unless_overflow (fun p => get_draw p hole board rank)) /\
  (forall d, same_unless_overflow (fun p => divide_by p d)) /\
  (forall d n, same_unless_overflow (fun p => divide p d n)) /\
  (forall lower text, same_unless_overflow (fun p => from_string lower p text)) /\
  (forall text, same_unless_overflow (fun p => card_from_str p text)) /\
  (forall is_ws text, same_unless_overflow (fun p => flop_from_str is_ws p text)) /\
  (forall h, same_unless_overflow (fun p => hole_to_string p h)).
Proof.
  repeat match goal with |- _ /\ _ => split end.
  - exact ag_hand_add.
  - exact ag_from_hole_cards.
  - exact ag_from_bit_mask.
  - exact ag_contains.
  - exact ag_suit_count.
  - exact ag_get_card_index.
  - exact ag_get_draw.
  - exact ag_divide_by.
  - exact ag_divide.
  - exact ag_from_string.
  - exact ag_card_from_str.
  - exact ag_flop_from_str.
  - exact ag_hole_to_string.
Qed.
(* ... so runs whose weights fit give the same results in both builds *)
Theorem C87_same_results :
  (forall p q ranges board dead threads cancelled sched o, usable ranges -> weights_fit ranges board ->
     exact_equity p ranges board dead threads cancelled sched = Ret (ROk o) -> exact_equity q ranges board dead threads cancelled sched = Ret (ROk o)) /\
  (forall p q ranges board dead threads target cancelled shuf rngs fuel sched o, Forall range_ok ranges -> permutes shuf -> N.of_nat (length sched) * heaviest ranges < 2 ^ 64 ->
     approx_equity p ranges board dead threads target cancelled shuf rngs fuel sched = Ret (ROk o) ->
     approx_equity q ranges board dead threads target cancelled shuf rngs fuel sched = Ret (ROk o)).
Proof. split; [exact exact_same|exact approx_same]. Qed.
(* the builds differ in earnest: C21 and C28 have a text, C44 a run *)
Example C87_example : from_string_ascii Debug (chars "AA@4294967297") = Fail Overflow /\ exists hands, from_string_ascii Release (chars "AA@4294967297") = Ret hands.
Proof. split; [vm_compute; reflexivity|]. eexists. vm_compute. reflexivity. Qed.

Print Assumptions C87_runs.
Print Assumptions C87_hands_and_text.
Print Assumptions C87_same_results.
