(* C143, C144, C145: what can be counted, and players who are never behind. *)
From Verif Require Import Base Float64 Hand Range FastDivide Combined Sim Approx SpecPoker SpecNames SpecHand SpecEquity SpecResults SpecRun SpecApprox SpecFavourite
  WitnessProofs ConvergeResultProofs SureProofs SupportProofs FavouriteProofs PropEquity.
Local Open Scope N_scope.

(* C143: what an approximate run counts can happen ... *)
Theorem C143_possible : forall p ranges board dead threads target cancelled shuf rngs fuel sched o, Forall range_ok ranges -> permutes shuf ->
  approx_equity p ranges board dead threads target cancelled shuf rngs fuel sched = Ret (ROk o) ->
  ((length ranges <= 8)%nat -> forall m, m < 2 ^ N.of_nat (length ranges) -> nth (N.to_nat m) (r_wins_by_mask (o_results o)) 0 <> 0 -> won_by ranges board dead m <> 0) /\
  (forall i a b k u, (i < length ranges)%nat -> hole a b -> get_card_index p a b = Ret k -> nth_error (r_hand_results (o_results o)) (1326 * i + N.to_nat k) = Some u ->
   (u_wins u <> 0 -> hand_wins ranges board dead i a b <> 0) /\ (u_ties u <> 0 -> hand_ties ranges board dead i a b <> 0) /\ (u_total u <> 0 -> hand_total ranges board dead i a b <> 0)).
Proof. exact approx_possible. Qed.
(* ... and a complete exact run counts it *)
Theorem C143_exact_too : forall p ranges board dead threads target cancelled shuf rngs fuel sched o threads' sched' o', usable ranges -> permutes shuf -> p = Debug \/ weights_fit ranges board ->
  approx_equity p ranges board dead threads target cancelled shuf rngs fuel sched = Ret (ROk o) ->
  exact_equity p ranges board dead threads' false sched' = Ret (ROk o') -> ~ In Cancel sched' -> (0 < threads')%nat ->
  ((length ranges <= 8)%nat -> forall m, m < 2 ^ N.of_nat (length ranges) -> nth (N.to_nat m) (r_wins_by_mask (o_results o)) 0 <> 0 -> nth (N.to_nat m) (r_wins_by_mask (o_results o')) 0 <> 0) /\
  (forall i a b k u u', (i < length ranges)%nat -> hole a b -> get_card_index p a b = Ret k -> nth_error (r_hand_results (o_results o)) (1326 * i + N.to_nat k) = Some u ->
   nth_error (r_hand_results (o_results o')) (1326 * i + N.to_nat k) = Some u' -> (u_wins u <> 0 -> u_wins u' <> 0) /\ (u_ties u <> 0 -> u_ties u' <> 0) /\ (u_total u <> 0 -> u_total u' <> 0)).
Proof. exact approx_in_exact. Qed.
(* The board is Kd Qd Jd 2s, only 3s, 3h and 3d are left.  Ah As can only tie with Ad Ac: no
   approximate run counts a win. *)
Definition all_but_threes : N := 2 ^ 52 - 1 - (three_diamonds + 2 ^ 51 + 2 ^ 50 + 2 ^ 49 + 2 ^ 48 + 2 ^ 7 + 2 ^ 5 + 2 ^ 4).
Example C143_example : won_by aces three_diamonds all_but_threes 2 = 0 /\ won_by aces three_diamonds all_but_threes 1 = 6 /\ won_by aces three_diamonds all_but_threes 3 = 12 /\
  forall p threads target cancelled shuf rngs fuel sched o, permutes shuf -> approx_equity p aces three_diamonds all_but_threes threads target cancelled shuf rngs fuel sched = Ret (ROk o) ->
  nth 2 (r_wins_by_mask (o_results o)) 0 = 0.
Proof.
  assert (E : won_by aces three_diamonds all_but_threes 2 = 0) by (vm_compute; reflexivity). split; [exact E|]. split; [vm_compute; reflexivity|]. split; [vm_compute; reflexivity|].
  intros p threads target cancelled shuf rngs fuel sched o Hs H. destruct (N.eq_dec (nth 2 (r_wins_by_mask (o_results o)) 0) 0) as [E0|E0]; [exact E0|exfalso].
  destruct (C143_possible _ _ _ _ _ _ _ _ _ _ _ _ (proj1 (proj1 aces_usable)) Hs H) as [P _]. apply (P ltac:(cbn; lia) 2 ltac:(reflexivity) E0 E).
Qed.

(* C144: who is never behind another player has at least their equity *)
Theorem C144_exact : forall p ranges board dead threads cancelled sched o j k, usable ranges -> exact_equity p ranges board dead threads cancelled sched = Ret (ROk o) ->
  never_behind ranges board dead j k -> (j < length ranges)%nat -> (j < 8)%nat -> (k < length ranges)%nat -> j <> k ->
  nothing_won (o_results o) \/ f_le (nth k (r_equities (o_results o)) f_zero) (nth j (r_equities (o_results o)) f_zero).
Proof.
  intros p ranges board dead threads cancelled sched o j k Hu H. destruct (EquityProofs.exact_hist _ _ _ _ _ _ _ _ Hu H) as (bs & _ & _ & HE & _). unfold nothing_won. rewrite HE at 1.
  exact (exact_favourite p ranges board dead threads cancelled sched o j k Hu H).
Qed.
Theorem C144_approx : forall p ranges board dead threads target cancelled shuf rngs fuel sched o j k, Forall range_ok ranges -> permutes shuf ->
  approx_equity p ranges board dead threads target cancelled shuf rngs fuel sched = Ret (ROk o) ->
  never_behind ranges board dead j k -> (j < length ranges)%nat -> (j < 8)%nat -> (k < length ranges)%nat -> j <> k ->
  nothing_won (o_results o) \/ f_le (nth k (r_equities (o_results o)) f_zero) (nth j (r_equities (o_results o)) f_zero).
Proof.
  intros p ranges board dead threads target cancelled shuf rngs fuel sched o j k Hr Hs H. destruct (EquityProofs.approx_hist _ _ _ _ _ _ _ _ _ _ _ _ Hr Hs H) as (bs & _ & _ & HE & _). unfold nothing_won. rewrite HE at 1.
  exact (approx_favourite p ranges board dead threads target cancelled shuf rngs fuel sched o j k Hr Hs H).
Qed.
Definition behind_somewhere (ranges : list (list whand)) (board dead : N) (j k : nat) : bool :=
  existsb (fun d => existsb (fun l => existsb (Nat.eqb k) (winners d l) && negb (existsb (Nat.eqb j) (winners d l))) (boards board dead d)) (deals ranges board dead).
Lemma behind_ok ranges board dead j k : behind_somewhere ranges board dead j k = false -> never_behind ranges board dead j k.
Proof.
  intros H d l Hd Hl Hk. destruct (in_dec Nat.eq_dec j (winners d l)) as [Hj|Hj]; [exact Hj|exfalso].
  assert (E : behind_somewhere ranges board dead j k = true); [|rewrite E in H; discriminate]. apply existsb_exists. exists d. split; [exact Hd|]. apply existsb_exists. exists l. split; [exact Hl|].
  apply andb_true_iff. split; [apply existsb_exists; exists k; split; [exact Hk|apply Nat.eqb_refl]|]. apply negb_true_iff.
  destruct (existsb (Nat.eqb j) (winners d l)) eqn:E; [|reflexivity]. apply existsb_exists in E as (x & Hx & Ex). apply Nat.eqb_eq in Ex. subst x. contradiction.
Qed.
(* Ad Ac is never behind Ah As, but ahead when a diamond comes *)
Example C144_example : never_behind aces three_diamonds all_but_threes 0 1 /\ ~ never_behind aces three_diamonds all_but_threes 1 0.
Proof.
  split; [apply behind_ok; vm_compute; reflexivity|]. intros H.
  specialize (H [(51, 50, 2); (49, 48, 3)] [0; 39; 43; 47; 7] ltac:(vm_compute; auto) ltac:(vm_compute; auto 50) ltac:(vm_compute; auto)). vm_compute in H. destruct H as [H|[]]. discriminate.
Qed.

(* C145: players who can only win together have the same equity, bit for bit *)
Theorem C145_exact : forall p ranges board dead threads cancelled sched o j k, usable ranges -> exact_equity p ranges board dead threads cancelled sched = Ret (ROk o) ->
  never_behind ranges board dead j k -> never_behind ranges board dead k j -> (j < length ranges)%nat -> (j < 8)%nat -> (k < length ranges)%nat -> (k < 8)%nat ->
  nth j (r_equities (o_results o)) f_zero = nth k (r_equities (o_results o)) f_zero.
Proof. exact exact_inseparable. Qed.
Theorem C145_approx : forall p ranges board dead threads target cancelled shuf rngs fuel sched o j k, Forall range_ok ranges -> permutes shuf ->
  approx_equity p ranges board dead threads target cancelled shuf rngs fuel sched = Ret (ROk o) ->
  never_behind ranges board dead j k -> never_behind ranges board dead k j -> (j < length ranges)%nat -> (j < 8)%nat -> (k < length ranges)%nat -> (k < 8)%nat ->
  nth j (r_equities (o_results o)) f_zero = nth k (r_equities (o_results o)) f_zero.
Proof. exact approx_inseparable. Qed.
(* Everybody plays the board, whatever the ranges; here Kh Kc, 2s 3s or 2h 3h, and 4s 5h *)
Definition any_three : list (list whand) := [[(45, 46, 7)]; [(0, 4, 3); (1, 5, 9)]; [(8, 13, 1)]].
Example C145_example : deals any_three royal 0 <> [] /\ never_behind any_three royal 0 0 1 /\ never_behind any_three royal 0 1 0 /\
  (forall d l, In d (deals any_three royal 0) -> In l (boards royal 0 d) -> winners d l = [0; 1; 2]%nat).
Proof.
  split; [vm_compute; discriminate|]. split; [apply behind_ok; vm_compute; reflexivity|]. split; [apply behind_ok; vm_compute; reflexivity|].
  intros d l Hd Hl. vm_compute in Hd. destruct Hd as [<-|[<-|[]]]; vm_compute in Hl; destruct Hl as [<-|[]]; vm_compute; reflexivity.
Qed.

Print Assumptions C143_possible.
Print Assumptions C143_exact_too.
Print Assumptions C144_exact.
Print Assumptions C144_approx.
Print Assumptions C145_exact.
Print Assumptions C145_approx.
