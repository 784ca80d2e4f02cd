(* Approximate runs of ranges given as texts. *)
From Verif Require Import Base Float64 Hand Range FastDivide Combined Sim Approx SpecPoker SpecHand SpecNames SpecEquity SpecResults SpecRun SpecApprox SpecTable
  ConvergeResultProofs TableSampleProofs PropBatch.
Local Open Scope N_scope.

(* C161: in a run of texts with few enough steps nothing overflows, and both builds do the same.  OutOfFuel stands
   for a thread that is still looking for a first deal. *)
Theorem C161_no_overflow : forall lower p texts (ranges : list (list whand)) board dead q threads target cancelled shuf rngs fuel sched, from_strings lower p texts = Ret ranges -> permutes shuf ->
  accepted (length texts) board dead -> board < 2 ^ 64 -> dead < 2 ^ 64 -> N.of_nat (length sched) * 100 ^ N.of_nat (length texts) < 2 ^ 64 ->
  let run q := approx_equity q ranges board dead threads target cancelled shuf rngs fuel sched in
  run Release = run Debug /\ (run q = Ret (RErr ConflictingRanges) /\ deals ranges board dead = [] \/ (exists o, run q = Ret (ROk o)) \/ run q = Fail OutOfFuel).
Proof. exact text_samples. Qed.
(* aces against kings with two threads: the 16391 steps weigh far less than 2^64 *)
Definition high_texts : list (list char) := [chars "AcAd"; chars "KcKd@7"].
Definition high_ranges : list (list whand) := [[(51, 50, 100)]; [(47, 46, 7)]].
Example C161_example : from_strings (map to_ascii_lowercase) Debug high_texts = Ret high_ranges /\
  exists o, r_eval_count (o_results o) = 8192 /\ forall q, approx_equity q high_ranges wit_board 0 2 wit_target false wit_shuffle wit_rngs 0 two_sched = Ret (ROk o).
Proof.
  assert (HT : from_strings (map to_ascii_lowercase) Debug high_texts = Ret high_ranges) by (vm_compute; reflexivity). split; [exact HT|].
  assert (Hr : Forall range_ok high_ranges) by (repeat constructor; cbn; lia || discriminate).
  assert (Ha : no_common_card high_ranges).
  { intros i j a b c Hij Ha Hb H1 H2. unfold high_ranges in *.
    assert (Hi : forall k x, In x (nth k [[(51, 50, 100)]; [(47, 46, 7)]] []) -> (k = 0%nat /\ x = (51, 50, 100)) \/ (k = 1%nat /\ x = (47, 46, 7))).
    { intros [|[|[|k]]] x Hx; cbn [nth In] in Hx; try tauto; [left|right]; split; try reflexivity; destruct Hx as [<-|[]]; reflexivity. }
    destruct (Hi _ _ Ha) as [[-> ->]|[-> ->]], (Hi _ _ Hb) as [[-> ->]|[-> ->]]; try congruence; cbn in H1, H2; destruct H1 as [<-|[<-|[]]]; destruct H2 as [H2|[H2|[]]]; discriminate. }
  assert (H1 : exists o, approx_equity Debug high_ranges wit_board 0 2 wit_target false wit_shuffle wit_rngs 0 two_sched = Ret (ROk o) /\ r_eval_count (o_results o) = 4096 * N.of_nat 2).
  { apply C83_ends; [exact Hr|exact wit_permutes|vm_compute; reflexivity|exact Ha|reflexivity|vm_compute; reflexivity|vm_compute; reflexivity|vm_compute; discriminate|vm_compute; reflexivity|exact two_steps]. }
  destruct H1 as (o & H & E). exists o. split; [exact E|].
  assert (HA : accepted (length high_texts) wit_board 0) by (vm_compute; repeat split; lia || discriminate).
  destruct (C161_no_overflow _ _ _ _ wit_board 0 Debug 2%nat wit_target false wit_shuffle wit_rngs 0%nat two_sched HT wit_permutes HA eq_refl eq_refl ltac:(vm_compute; reflexivity)) as [HS _].
  intros [|]; [exact H|]. rewrite <- H. exact HS.
Qed.

Print Assumptions C161_no_overflow.
