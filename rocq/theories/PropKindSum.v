(* Adding up the results of all preflop combinations. *)
From Verif Require Import Base Float64 Hand Range FastDivide Combined Sim SpecPoker SpecHand SpecNames SpecEquity SpecResults SpecRun SpecFinal SpecTable KindSumProofs PropKind.
Local Open Scope N_scope.

(* C163: after such a run the wins, ties and totals found under the 169 names add up to everything the player
   won alone, to everything they tied for, and to the weight of all deals and boards *)
Theorem C163_all_combos : forall lower p texts (ranges : list (list whand)) board dead q threads sched o, from_strings lower p texts = Ret ranges -> small_table (length texts) board ->
  exact_equity q ranges board dead threads false sched = Ret (ROk o) -> ~ In Cancel sched -> (0 < threads)%nat ->
  forall i, (i < length texts)%nat -> exists us, Forall2 (fun k u => get_combo_result q (r_combo_results (o_results o)) (N.of_nat i) (kind_name k) = Ret (ROk u)) kinds us /\
    sum_of u_wins us = total_of ranges board dead (fun d l => nats_eqb (winners d l) [i]) /\
    sum_of u_ties us = total_of ranges board dead (fun d l => existsb (Nat.eqb i) (winners d l) && (2 <=? length (winners d l))%nat) /\
    sum_of u_total us = total_of ranges board dead (fun _ _ => true).
Proof. exact text_combos. Qed.
(* the run of C162: five deals with ace king, four of them won, and four of half the weight with queen jack, of which only the
   hearts win *)
Example C163_example : forall q threads sched o, exact_equity q suited_ranges suited_board 0 (S threads) false sched = Ret (ROk o) -> ~ In Cancel sched ->
  exists us vs, Forall2 (fun k u => get_combo_result q (r_combo_results (o_results o)) 0 (kind_name k) = Ret (ROk u)) kinds us /\
    Forall2 (fun k u => get_combo_result q (r_combo_results (o_results o)) 1 (kind_name k) = Ret (ROk u)) kinds vs /\
    sum_of u_wins us = 45000 /\ sum_of u_total us = 70000 /\ sum_of u_wins vs = 25000 /\ sum_of u_total vs = 70000.
Proof.
  intros q threads sched o H Hc.
  destruct (C163_all_combos _ _ _ _ suited_board 0 q (S threads) sched o (proj1 C162_example) (or_introl (le_n 2)) H Hc ltac:(lia) 0%nat ltac:(cbn; lia)) as (us & HU & W & _ & T).
  destruct (C163_all_combos _ _ _ _ suited_board 0 q (S threads) sched o (proj1 C162_example) (or_introl (le_n 2)) H Hc ltac:(lia) 1%nat ltac:(cbn; lia)) as (vs & HV & W' & _ & T').
  exists us, vs. split; [exact HU|]. split; [exact HV|]. rewrite W, T, W', T'. vm_compute. repeat split; reflexivity.
Qed.

Print Assumptions C163_all_combos.
