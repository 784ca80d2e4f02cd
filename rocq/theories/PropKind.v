(* Asking for preflop combinations by name. *)
From Verif Require Import Base Float64 Hand Range FastDivide Combined Sim SpecPoker SpecHand SpecNames SpecEquity SpecResults SpecRun SpecFinal SpecTable SpecKind KindProofs.
Local Open Scope N_scope.

(* C162: after a complete run of two texts, or three on a flop, the name of a preflop combination gives what the
   player won, tied and was dealt with hands of this combination *)
Theorem C162_combo_by_name : forall lower p texts (ranges : list (list whand)) board dead q threads sched o, from_strings lower p texts = Ret ranges -> small_table (length texts) board ->
  exact_equity q ranges board dead threads false sched = Ret (ROk o) -> ~ In Cancel sched -> (0 < threads)%nat ->
  forall i k, (i < length texts)%nat -> In k kinds -> exists u, get_combo_result q (r_combo_results (o_results o)) (N.of_nat i) (kind_name k) = Ret (ROk u) /\
    u_wins u = kind_wins ranges board dead i k /\ u_ties u = kind_ties ranges board dead i k /\ u_total u = kind_total ranges board dead i k.
Proof. exact text_combo. Qed.
(* On 2h 3h 7h Ad Jd, ace king suited beats the queens, and two pairs only with hearts.  Ad Kd cannot be
   dealt, Ac Kc only against the queens: five deals, four of them won. *)
Definition suited_texts : list (list char) := [chars "AKs,QJs@50"; chars "QdQc,AcJh"].
Definition suited_ranges : list (list whand) := [[(40, 36, 50); (41, 37, 50); (42, 38, 50); (43, 39, 50); (48, 44, 100); (49, 45, 100); (50, 46, 100); (51, 47, 100)]; [(43, 42, 100); (50, 37, 100)]].
Definition suited_board : N := 2 ^ 1 + 2 ^ 5 + 2 ^ 21 + 2 ^ 51 + 2 ^ 39.
Example C162_example : from_strings (map to_ascii_lowercase) Debug suited_texts = Ret suited_ranges /\
  forall q threads sched o, exact_equity q suited_ranges suited_board 0 (S threads) false sched = Ret (ROk o) -> ~ In Cancel sched ->
  exists u, get_combo_result q (r_combo_results (o_results o)) 0 (chars "AKs") = Ret (ROk u) /\ u_wins u = 40000 /\ u_ties u = 0 /\ u_total u = 50000.
Proof.
  assert (HT : from_strings (map to_ascii_lowercase) Debug suited_texts = Ret suited_ranges) by (vm_compute; reflexivity). split; [exact HT|]. intros q threads sched o H Hc.
  assert (HK : In (Suited 12 11) kinds) by (apply (nth_error_In kinds 13); reflexivity).
  destruct (C162_combo_by_name _ _ _ _ suited_board 0 q (S threads) sched o HT (or_introl (le_n 2)) H Hc ltac:(lia) 0%nat (Suited 12 11) ltac:(cbn; lia) HK) as (u & HG & W & T & TT).
  exists u. split; [exact HG|]. split; [rewrite W; vm_compute; reflexivity|]. split; [rewrite T; vm_compute; reflexivity|rewrite TT; vm_compute; reflexivity].
Qed.

Print Assumptions C162_combo_by_name.
