(* The order of the two cards of a hand, symmetric suits and dead cards that are on the board:
   C135-C137. *)
From Verif Require Import Base Float64 Hand Range FastDivide Combined Sim SpecPoker SpecNames SpecHand SpecEquity SpecResults SpecRun SpecSymmetry SpecTurn TurnProofs PropSymmetry.
From Coq Require Import Permutation.
Local Open Scope N_scope.

(* C135: it does not matter which card of a hand is first *)
Theorem C135_order : forall p ranges ranges' board dead o o', usable ranges -> Forall2 same_hands ranges ranges' ->
  completes p ranges board dead o -> completes p ranges' board dead o' -> forall c, has_figure (length ranges) c -> figure_of p o' c = figure_of p o c.
Proof. exact order_of_cards. Qed.
Example C135_example : Forall2 same_hands [one; two] [[(50, 51, 2); (40, 43, 7); (3, 2, 1)]; [(48, 49, 4); (47, 46, 3)]] /\ ~ same_hands one two /\
  won_by [one; two] river 0 1 = 13 /\ won_by [[(50, 51, 2); (40, 43, 7); (3, 2, 1)]; [(48, 49, 4); (47, 46, 3)]] river 0 1 = 13.
Proof.
  split; [|split; [|vm_compute; auto]].
  - constructor; [vm_compute; apply perm_skip, perm_swap|]. constructor; [vm_compute; apply perm_swap|constructor].
  - intros H. apply Permutation_length in H. discriminate.
Qed.

(* C136: if renaming the suits changes nothing, hands that differ only by this renaming have
   the same counters.  Example: spades and hearts swapped; Ad As and Ad Ah against Kh Ks, Qs Js,
   Qh Jh on 2c 7d 9c Jd Kc. *)
Theorem C136_alike : forall p f ranges board dead o, usable ranges -> suits_alike f ranges board dead -> completes p ranges board dead o ->
  forall c, has_figure (length ranges) c -> figure_of p o (rename_figure f c) = figure_of p o c.
Proof. exact alike_figures. Qed.
Example C136_example : usable flip_ranges /\ suits_alike flip flip_ranges flip_board 0 /\ rename_figure flip (Wins 0 51 48) = Wins 0 51 49 /\
  hand_wins flip_ranges flip_board 0 0 51 48 = 4 /\ hand_wins flip_ranges flip_board 0 0 51 49 = 4 /\ hand_total flip_ranges flip_board 0 1 44 45 = 6.
Proof. split; [exact flip_usable|]. split; [exact flip_alike|]. vm_compute. auto. Qed.

(* C137: results depend only on which cards are on the board and which are on the board or
   dead *)
Theorem C137_table : forall p ranges board dead board' dead' o o', usable ranges -> same_table board dead board' dead' ->
  completes p ranges board dead o -> completes p ranges board' dead' o' -> forall c, has_figure (length ranges) c -> figure_of p o' c = figure_of p o c.
Proof. exact table_figures. Qed.
Example C137_example : same_table river (2 ^ 51) river (2 ^ 51 + 2 ^ 23) /\ ~ same_table river 0 river (2 ^ 51) /\
  won_by [one; two] river (2 ^ 51) 1 = 7 * won_by [[(43, 40, 1)]; two] river 0 1 + won_by [[(3, 2, 1)]; two] river 0 1 /\
  won_by [one; two] river (2 ^ 51 + 2 ^ 23) 1 = won_by [one; two] river (2 ^ 51) 1.
Proof.
  split; [|split; [|vm_compute; auto]].
  - intros c Hc. split; [reflexivity|]. unfold on_table. destruct (N.eq_dec c 23) as [->|Hne]; [vm_compute; reflexivity|].
    assert (E : N.testbit (2 ^ 51 + 2 ^ 23) c = N.testbit (2 ^ 51) c); [|rewrite E; reflexivity].
    replace (2 ^ 51 + 2 ^ 23) with (N.lor (2 ^ 51) (2 ^ 23)) by (vm_compute; reflexivity). rewrite N.lor_spec, (N.pow2_bits_false 23 c) by congruence. apply Bool.orb_false_r.
  - intros H. destruct (H 51 ltac:(reflexivity)) as [_ H']. vm_compute in H'. discriminate.
Qed.

Print Assumptions C135_order.
Print Assumptions C136_alike.
Print Assumptions C137_table.
