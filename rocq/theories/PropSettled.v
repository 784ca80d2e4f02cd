(* C146, C147: situations in which nothing depends on the cards to come. *)
From Verif Require Import Base Float64 Hand Range FastDivide Combined Sim Approx SpecPoker SpecNames SpecHand SpecEquity SpecResults SpecRun SpecApprox SpecSettled
  WitnessProofs SettledProofs ConvergeResultProofs SureProofs PropExact PropEquity PropSure PropNumber.
Local Open Scope N_scope.

(* the players in ws have 1/k each, k their number, and the others 0 *)
Definition split_evenly (n : nat) (ws : list nat) : list f64 :=
  map (fun j => if existsb (Nat.eqb j) ws then f_div (f_of_N 1) (f_of_N (N.of_nat (length ws))) else f_zero) (seq 0 n).

(* C146: if the same players win every deal on every board, they have equal equities *)
Theorem C146_exact : forall p ranges board dead threads cancelled sched o ws, usable ranges -> p = Debug \/ weights_fit ranges board -> (length ranges <= 8)%nat ->
  exact_equity p ranges board dead threads cancelled sched = Ret (ROk o) -> always_share ranges board dead ws -> sum_of (fun x => x) (r_wins_by_mask (o_results o)) <= 2 ^ 53 ->
  nothing_won (o_results o) \/ r_equities (o_results o) = split_evenly (length ranges) ws.
Proof.
  intros p ranges board dead threads cancelled sched o ws Hu Hw H8 H. destruct (EquityProofs.exact_hist _ _ _ _ _ _ _ _ Hu H) as (bs & _ & _ & HE & _). unfold nothing_won. rewrite HE at 1.
  exact (exact_settled p ranges board dead threads cancelled sched o ws Hu Hw H8 H).
Qed.
Theorem C146_approx : forall p ranges board dead threads target cancelled shuf rngs fuel sched o ws, Forall range_ok ranges -> permutes shuf ->
  p = Debug \/ N.of_nat (length sched) * heaviest ranges < 2 ^ 64 -> (length ranges <= 8)%nat ->
  approx_equity p ranges board dead threads target cancelled shuf rngs fuel sched = Ret (ROk o) -> always_share ranges board dead ws -> sum_of (fun x => x) (r_wins_by_mask (o_results o)) <= 2 ^ 53 ->
  nothing_won (o_results o) \/ r_equities (o_results o) = split_evenly (length ranges) ws.
Proof.
  intros p ranges board dead threads target cancelled shuf rngs fuel sched o ws Hr Hs Hw H8 H. destruct (EquityProofs.approx_hist _ _ _ _ _ _ _ _ _ _ _ _ Hr Hs H) as (bs & _ & _ & HE & _). unfold nothing_won. rewrite HE at 1.
  exact (approx_settled p ranges board dead threads target cancelled shuf rngs fuel sched o ws Hr Hs Hw H8 H).
Qed.
(* Everybody plays the royal flush on the board: Kh Kc, 2s 3s or 2h 3h, and 4s 5h *)
Definition board_plays : list (list whand) := [[(45, 46, 7)]; [(0, 4, 3); (1, 5, 9)]; [(8, 13, 2)]].
Lemma board_plays_share : always_share board_plays royal 0 [0; 1; 2]%nat.
Proof. intros d l Hd Hl. vm_compute in Hd. destruct Hd as [<-|[<-|[]]]; vm_compute in Hl; destruct Hl as [<-|[]]; vm_compute; reflexivity. Qed.
Example C146_example : (exists sched o, ~ In Cancel sched /\ exact_equity Debug board_plays royal 0 2 false sched = Ret (ROk o)) /\
  forall threads sched o, exact_equity Debug board_plays royal 0 (S threads) false sched = Ret (ROk o) -> ~ In Cancel sched ->
  r_equities (o_results o) = repeat (f_div (f_of_N 1) (f_of_N 3)) 3.
Proof.
  assert (Hu : usable board_plays) by small_ranges. assert (Hw : weights_fit board_plays royal) by (vm_compute; reflexivity). assert (Hd : deals board_plays royal 0 <> []) by (vm_compute; discriminate).
  split; [apply RunProofs.call_can_finish; try reflexivity; try assumption; [unfold board_plays; small_arguments|left; exact Hw]|].
  intros threads sched o H Hc. destruct (C40_masks Debug board_plays royal 0 (S threads) sched o Hu ltac:(cbn; lia) H Hc ltac:(lia)) as [HL HM].
  assert (HS : sum_of (fun x => x) (r_wins_by_mask (o_results o)) <= 2 ^ 53).
  { assert (EM : forall m, m < 2 ^ N.of_nat (length board_plays) -> nth (N.to_nat m) (r_wins_by_mask (o_results o)) 0 = won_by board_plays royal 0 m) by exact HM.
    rewrite <- ResultProofs.sumf_sum_of, ShareProofs.list_sum, HL. change (2 ^ length board_plays)%nat with 8%nat. cbn [seq].
    rewrite (SumFacts.sumf_ext _ (fun i => won_by board_plays royal 0 (N.of_nat i))); [vm_compute; discriminate|].
    intros i Hi. rewrite <- EM; [rewrite Nat2N.id; reflexivity|]. assert (Hi8 : (i < 8)%nat) by (cbn in Hi; lia). change (2 ^ N.of_nat (length board_plays)) with 8. lia. }
  destruct (C146_exact Debug board_plays royal 0 (S threads) false sched o [0; 1; 2]%nat Hu (or_introl eq_refl) ltac:(cbn; lia) H board_plays_share HS) as [(_ & _ & E)|E]; [exfalso|exact E].
  assert (HU : Forall in_unit (r_equities (o_results o))).
  { apply (C142_complete Debug board_plays royal 0 (S threads) sched o); try assumption; try reflexivity; try lia; [cbn; lia|left; reflexivity|repeat constructor; cbn; lia]. }
  assert (HN : length (r_equities (o_results o)) = 3%nat).
  { destruct (EquityProofs.exact_hist _ _ _ _ _ _ _ _ Hu H) as (bs & HH & _ & -> & _). unfold get_equity. rewrite !map_length, combine_length, (EquityProofs.h_wins _ _ _ _ HH), (EquityProofs.h_ties _ _ _ _ HH). reflexivity. }
  destruct (r_equities (o_results o)) as [|x l]; [discriminate HN|]. inversion E as [|? ? E1 _]; subst. inversion HU as [|? ? [U _] _]; subst. destruct x; discriminate.
Qed.
(* two of three *)
Example C146_two_of_three : split_evenly 3 [0; 2]%nat = [f_div (f_of_N 1) (f_of_N 2); f_zero; f_div (f_of_N 1) (f_of_N 2)].
Proof. reflexivity. Qed.

(* C147: with one hand each and nothing to come, exact and approximate runs report the same
   equities, bit for bit *)
Theorem C147_showdown : forall p p' (ranges : list (list whand)) board dead threads cancelled sched o threads' target cancelled' shuf rngs fuel sched' o', usable ranges -> (length ranges <= 8)%nat ->
  Forall (fun r => length r = 1%nat) ranges -> length (mask_cards board) = 5%nat -> permutes shuf -> p = Debug \/ weights_fit ranges board -> p' = Debug \/ N.of_nat (length sched') * heaviest ranges < 2 ^ 64 ->
  exact_equity p ranges board dead threads cancelled sched = Ret (ROk o) -> approx_equity p' ranges board dead threads' target cancelled' shuf rngs fuel sched' = Ret (ROk o') ->
  sum_of (fun x => x) (r_wins_by_mask (o_results o)) <= 2 ^ 53 -> sum_of (fun x => x) (r_wins_by_mask (o_results o')) <= 2 ^ 53 ->
  nothing_won (o_results o) \/ nothing_won (o_results o') \/ r_equities (o_results o) = r_equities (o_results o').
Proof.
  intros p p' ranges board dead threads cancelled sched o threads' target cancelled' shuf rngs fuel sched' o' Hu H8 H1 H5 Hp Hw Hw' H H'.
  destruct (EquityProofs.exact_hist _ _ _ _ _ _ _ _ Hu H) as (_ & _ & _ & HE & _). destruct (EquityProofs.approx_hist _ _ _ _ _ _ _ _ _ _ _ _ (proj1 Hu) Hp H') as (_ & _ & _ & HE' & _).
  unfold nothing_won. rewrite HE at 1. rewrite HE' at 1. exact (showdown_same p p' ranges board dead threads cancelled sched o threads' target cancelled' shuf rngs fuel sched' o' Hu H8 H1 H5 Hp Hw Hw' H H').
Qed.
(* aces against kings on the river, as in the approximate run of C77 *)
Example C147_example : Forall (fun r => length r = 1%nat) wit_ranges /\ length (mask_cards wit_board) = 5%nat /\ permutes wit_shuffle /\
  exists o, approx_equity Debug wit_ranges wit_board 0 1 wit_target false wit_shuffle wit_rngs 0 wit_schedule = Ret (ROk o) /\ r_equities (o_results o) = [f_of_N 1; f_zero].
Proof.
  split; [repeat constructor|]. split; [vm_compute; reflexivity|]. split; [exact wit_permutes|exact C125_example].
Qed.

Print Assumptions C146_exact.
Print Assumptions C146_approx.
Print Assumptions C147_showdown.
