(* C84, C85, C86: the equities a run reports. *)
From Coq Require Import Floats.SpecFloat QArith Qabs.
From Verif Require Import Base Float64 Hand Range FastDivide Combined Sim Approx SpecPoker SpecNames SpecHand SpecEquity SpecResults SpecRun SpecApprox SpecShare
  CombinedProofs MachineProofs ExactProofs WitnessProofs EquityFloatProofs EquityProofs ShareProofs.
Local Open Scope N_scope.

(* 0.0 <= x && x <= 1.0 in Rust *)
Definition in_unit (x : f64) : Prop := SFleb f_zero x = true /\ SFleb x (f_of_N 1) = true.
(* nobody won anything and every equity is NaN *)
Definition nothing_won (r : results) : Prop :=
  Forall (fun w => w = 0) (r_wins r) /\ Forall (fun t => t = f_zero) (r_ties r) /\ Forall (fun e => f_is_nan e = true) (r_equities r).

(* The example: Ad Ac (weight 2) against Ah As (weight 3) on Kd Qd Jd 2s, where all other cards
   are dead but 2d, 3d and 3s.  Ad Ac wins with the diamonds, 3s is a tie. *)
Definition aces : list (list whand) := [[(51, 50, 2)]; [(49, 48, 3)]].
Definition three_diamonds : N := 2 ^ 47 + 2 ^ 43 + 2 ^ 39 + 2 ^ 0.
Definition aces_dead : N := 2 ^ 52 - 1 - three_diamonds - (2 ^ 51 + 2 ^ 50 + 2 ^ 49 + 2 ^ 48) - (2 ^ 3 + 2 ^ 7 + 2 ^ 4).
Definition aces_sched : list event := repeat (Run 0) 4 ++ repeat (Run 1) 10 ++ repeat (Run 0) 10.
Definition equity_part (x : outcome (result observed sim_error)) : option (list N * list N * list f64 * list f64 * nat) :=
  match x with
  | Ret (ROk o) => let r := o_results o in Some (r_wins_by_mask r, r_wins r, r_ties r, r_equities r, length (o_progress o))
  | _ => None
  end.
Lemma aces_usable : usable aces /\ weights_fit aces three_diamonds.
Proof. split; [|vm_compute; reflexivity]. split; [|reflexivity]. repeat constructor; cbn; lia || discriminate. Qed.
(* 15/18 and 3/18 *)
Lemma aces_debug : equity_part (exact_equity Debug aces three_diamonds aces_dead 2 false aces_sched) =
  Some ([0; 12; 0; 6], [12; 0], [f_of_N 3; f_of_N 3], [f_div (f_of_N 15) (f_of_N 18); f_div (f_of_N 3) (f_of_N 18)], 2%nat).
Proof. vm_compute. reflexivity. Qed.
Example aces_run : forall p, equity_part (exact_equity p aces three_diamonds aces_dead 2 false aces_sched) =
  Some ([0; 12; 0; 6], [12; 0], [f_of_N 3; f_of_N 3], [f_div (f_of_N 15) (f_of_N 18); f_div (f_of_N 3) (f_of_N 18)], 2%nat).
Proof.
  pose proof aces_debug as E. assert (HE : exists o, exact_equity Debug aces three_diamonds aces_dead 2 false aces_sched = Ret (ROk o)).
  { destruct (exact_equity Debug aces three_diamonds aces_dead 2 false aces_sched) as [[o|e]|f]; try discriminate E. exists o. reflexivity. }
  destruct HE as [o H]. rewrite H in E. intros p. rewrite (exact_same Debug p aces three_diamonds aces_dead 2 false aces_sched o (proj1 aces_usable) (proj2 aces_usable) H). exact E.
Qed.

(* C84: if anything was won, every equity is between 0 and 1; else all are NaN. *)
Theorem C84_exact : forall p ranges board dead threads cancelled sched o, usable ranges ->
  exact_equity p ranges board dead threads cancelled sched = Ret (ROk o) -> nothing_won (o_results o) \/ Forall in_unit (r_equities (o_results o)).
Proof.
  intros p ranges board dead threads cancelled sched o Hu H. destruct (exact_hist _ _ _ _ _ _ _ _ Hu H) as (bs & HH & _ & HE & Hv).
  unfold nothing_won. rewrite HE. apply (hist_range p (length ranges) bs); [|exact HH]. apply validate_none in Hv. lia.
Qed.
Theorem C84_approx : forall p ranges board dead threads target cancelled shuf rngs fuel sched o, Forall range_ok ranges -> permutes shuf ->
  approx_equity p ranges board dead threads target cancelled shuf rngs fuel sched = Ret (ROk o) -> nothing_won (o_results o) \/ Forall in_unit (r_equities (o_results o)).
Proof.
  intros p ranges board dead threads target cancelled shuf rngs fuel sched o Hr Hs H. destruct (approx_hist _ _ _ _ _ _ _ _ _ _ _ _ Hr Hs H) as (bs & HH & _ & HE & Hv).
  unfold nothing_won. rewrite HE. apply (hist_range p (length ranges) bs); [|exact HH]. apply validate_none in Hv. lia.
Qed.
(* the first case is that of the chopped pot of weight 1 *)
Example C84_example : exists o, exact_equity Debug tie_ranges royal 0 1 false tie_schedule = Ret (ROk o) /\ nothing_won (o_results o).
Proof.
  destruct tied_run as (o & H & _ & H2 & H3 & H4). exists o. split; [exact H|]. unfold nothing_won. rewrite H2, H3. split; [repeat constructor|]. split; [repeat constructor|].
  destruct (r_equities (o_results o)) as [|a [|b [|c l]]]; try discriminate H4. injection H4 as E1 E2. repeat constructor; assumption.
Qed.

(* C85: the equities are the shares of the pots in wins_by_mask, where a pot is split evenly.
   Every batch can lose less than one weight unit per player and mask with several winners. *)
Theorem C85_exact : forall p ranges board dead threads cancelled sched o, usable ranges -> p = Debug \/ weights_fit ranges board ->
  exact_equity p ranges board dead threads cancelled sched = Ret (ROk o) ->
  let r := o_results o in let n := length ranges in
  let w := pots (r_wins_by_mask r) in let d := N.of_nat n * (N.of_nat (length (o_progress o)) * (2 ^ N.of_nat (n - 1) - 1)) in
  sum_of (fun x => x) (r_wins_by_mask r) <= 2 ^ 53 -> d < w ->
  length (r_equities r) = n /\
  forall j, (j < n)%nat -> let e := nth j (r_equities r) f_zero in
    number e /\ (Qabs (value e - ratio (pot_shares n j (r_wins_by_mask r)) (2520 * w)) <= ratio d w + Qpower 2 (-53))%Q.
Proof. exact exact_close. Qed.
Theorem C85_approx : forall p ranges board dead threads target cancelled shuf rngs fuel sched o, Forall range_ok ranges -> permutes shuf ->
  p = Debug \/ N.of_nat (length sched) * heaviest ranges < 2 ^ 64 ->
  approx_equity p ranges board dead threads target cancelled shuf rngs fuel sched = Ret (ROk o) ->
  let r := o_results o in let n := length ranges in
  let w := pots (r_wins_by_mask r) in let d := N.of_nat n * (N.of_nat (length (o_progress o)) * (2 ^ N.of_nat (n - 1) - 1)) in
  sum_of (fun x => x) (r_wins_by_mask r) <= 2 ^ 53 -> d < w ->
  length (r_equities r) = n /\
  forall j, (j < n)%nat -> let e := nth j (r_equities r) f_zero in
    number e /\ (Qabs (value e - ratio (pot_shares n j (r_wins_by_mask r)) (2520 * w)) <= ratio d w + Qpower 2 (-53))%Q.
Proof. exact approx_close. Qed.
Example C85_example : pots [0; 54; 0; 210] = 264 /\ pot_shares 2 0 [0; 54; 0; 210] = 2520 * 159 /\ pot_shares 2 1 [0; 54; 0; 210] = 2520 * 105 /\ 2 * (2 * (2 ^ (2 - 1) - 1)) < 264.
Proof. repeat split. Qed.

(* C86: an exact run of up to eight players reports the true equity of every player: the mean
   share of the pot over all deals and boards, up to the same error. *)
Theorem C86_true_equity : forall p ranges board dead threads sched o, usable ranges -> (length ranges <= 8)%nat -> p = Debug \/ weights_fit ranges board ->
  exact_equity p ranges board dead threads false sched = Ret (ROk o) -> ~ In Cancel sched -> (0 < threads)%nat ->
  let n := length ranges in let w := dealt_pots ranges board dead in
  let d := N.of_nat n * (N.of_nat (length (o_progress o)) * (2 ^ N.of_nat (n - 1) - 1)) in
  w <= 2 ^ 53 -> d < w ->
  length (r_equities (o_results o)) = n /\
  forall j, (j < n)%nat -> let e := nth j (r_equities (o_results o)) f_zero in
    number e /\ (Qabs (value e - ratio (dealt_shares ranges board dead j) (2520 * w)) <= ratio d w + Qpower 2 (-53))%Q.
Proof. exact exact_true. Qed.
Example C86_example : dealt_pots aces three_diamonds aces_dead = 18 /\ dealt_shares aces three_diamonds aces_dead 0 = 2520 * 15 /\ dealt_shares aces three_diamonds aces_dead 1 = 2520 * 3.
Proof. vm_compute. auto. Qed.

Print Assumptions C84_exact.
Print Assumptions C84_approx.
Print Assumptions C85_exact.
Print Assumptions C85_approx.
Print Assumptions C86_true_equity.
