(* Changes of the arguments of exact_equity whose effect on all integer counters is known:
   C112-C116. *)
From Verif Require Import Base Float64 Hand Range FastDivide Combined Sim SpecPoker SpecNames SpecHand SpecEquity SpecResults SpecRun SpecSymmetry WitnessProofs SymmetryProofs.
From Coq Require Import Permutation.
Local Open Scope N_scope.

(* three hands against two on the board 2s 3h 4c 7d 9s *)
Definition one : list whand := [(51, 50, 2); (3, 2, 1); (43, 40, 7)].
Definition two : list whand := [(47, 46, 3); (49, 48, 4)].
Definition river : N := 2 ^ 0 + 2 ^ 5 + 2 ^ 10 + 2 ^ 23 + 2 ^ 28.

(* a complete run: two hands that tie *)
Example completes_example : exists o, completes Debug tie_ranges royal 0 o /\ figure_of Debug o (Winners 3) = Some 1 /\ figure_of Debug o (Winner 0) = Some 0.
Proof.
  destruct tied_run as (o & H & H1 & H2 & _). exists o. split; [|cbn [figure_of]; rewrite H1, H2; auto]. exists 1%nat, tie_schedule. split; [repeat constructor|]. split; [|exact H].
  cbn [tie_schedule repeat In]. intuition discriminate.
Qed.

(* C112: the order of the hands in a range does not matter *)
Theorem C112_order : forall p ranges ranges' board dead o o', usable ranges -> Forall2 (@Permutation whand) ranges ranges' ->
  completes p ranges board dead o -> completes p ranges' board dead o' -> forall c, has_figure (length ranges) c -> figure_of p o' c = figure_of p o c.
Proof. exact order_of_hands. Qed.
Example C112_example : won_by [one; two] river 0 1 = 13 /\ won_by [rev one; rev two] river 0 1 = 13 /\ hand_ties [rev one; two] river 0 1 48 49 = 8.
Proof. vm_compute. auto. Qed.

(* C113: hands that use a card of the board or a dead card do not matter *)
Theorem C113_unusable : forall p ranges board dead o o', usable ranges -> completes p ranges board dead o ->
  completes p (map (filter (usable_hand board dead)) ranges) board dead o' -> forall c, has_figure (length ranges) c -> figure_of p o' c = figure_of p o c.
Proof. exact usable_hands. Qed.
Example C113_example : map (filter (usable_hand river 0)) [(0, 1, 9) :: one; two] = [one; two].
Proof. reflexivity. Qed.

(* C114: renaming the suits everywhere renames the hands in the results *)
Theorem C114_suits : forall p f ranges board board' dead dead' o o', suit_permutation f -> renamed_mask f board board' -> renamed_mask f dead dead' -> usable ranges ->
  completes p ranges board dead o -> completes p (map (map (rename_hand f)) ranges) board' dead' o' ->
  forall c, has_figure (length ranges) c -> figure_of p o' (rename_figure f c) = figure_of p o c.
Proof. exact renamed_suits. Qed.
Definition turn (s : N) : N := (s + 1) mod 4.
Definition turned_river : N := 2 ^ 1 + 2 ^ 6 + 2 ^ 11 + 2 ^ 20 + 2 ^ 29.
Example C114_example : forallb (fun c => Bool.eqb (N.testbit turned_river (rename_suits turn c)) (N.testbit river c)) (nseq 0 52) = true /\
  map (map (rename_hand turn)) [one; two] = [[(48, 51, 2); (0, 3, 1); (40, 41, 7)]; [(44, 47, 3); (50, 49, 4)]].
Proof. vm_compute. auto. Qed.

(* C115: multiplying the weights of players multiplies every counter *)
Theorem C115_weights : forall p ranges ks board dead o o', usable ranges -> usable (scaled ks ranges) -> length ks = length ranges ->
  completes p ranges board dead o -> completes p (scaled ks ranges) board dead o' -> forall c, has_figure (length ranges) c ->
  exists x x', figure_of p o c = Some x /\ figure_of p o' c = Some x' /\ counter p x' (prod_of (fun k => k) ks * x).
Proof. exact scaled_weights. Qed.
Example C115_example : scaled [3; 2] [one; two] = [[(51, 50, 6); (3, 2, 3); (43, 40, 21)]; [(47, 46, 6); (49, 48, 8)]] /\ usable (scaled [3; 2] [one; two]) /\
  won_by [one; two] river 0 1 = 13 /\ won_by (scaled [3; 2] [one; two]) river 0 1 = 78.
Proof. split; [reflexivity|]. split; [repeat split; repeat constructor; discriminate|]. vm_compute. auto. Qed.

(* C116: the counters of a range are the sums of those of its parts; a part without any
   possible deal adds nothing *)
Theorem C116_parts : forall p ranges i r1 r2 board dead o o1 o2, (i < length ranges)%nat -> usable (replaced ranges i (r1 ++ r2)) ->
  completes p (replaced ranges i (r1 ++ r2)) board dead o -> completes p (replaced ranges i r1) board dead o1 -> completes p (replaced ranges i r2) board dead o2 ->
  forall c, has_figure (length ranges) c ->
  exists x x1 x2, figure_of p o c = Some x /\ figure_of p o1 c = Some x1 /\ figure_of p o2 c = Some x2 /\ counter p x (x1 + x2).
Proof. exact split_range. Qed.
Theorem C116_conflict : forall p ranges i r1 r2 board dead threads cancelled sched o o2, (i < length ranges)%nat -> usable (replaced ranges i (r1 ++ r2)) ->
  completes p (replaced ranges i (r1 ++ r2)) board dead o -> exact_equity p (replaced ranges i r1) board dead threads cancelled sched = Ret (RErr ConflictingRanges) ->
  completes p (replaced ranges i r2) board dead o2 ->
  forall c, has_figure (length ranges) c -> figure_of p o2 c = figure_of p o c.
Proof. exact split_conflict. Qed.
Example C116_example : replaced [one; two] 0 (firstn 1 one ++ skipn 1 one) = [one; two] /\ won_by [one; two] river 0 2 = 49 /\
  won_by (replaced [one; two] 0 (firstn 1 one)) river 0 2 = 0 /\ won_by (replaced [one; two] 1 (firstn 1 two)) river 0 2 = 21 /\ won_by (replaced [one; two] 1 (skipn 1 two)) river 0 2 = 28.
Proof. vm_compute. auto. Qed.

Print Assumptions C112_order.
Print Assumptions C113_unusable.
Print Assumptions C114_suits.
Print Assumptions C115_weights.
Print Assumptions C116_parts.
Print Assumptions C116_conflict.
