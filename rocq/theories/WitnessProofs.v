(* Witnesses for properties of exact runs which do not hold. *)
From Verif Require Import Base Float64 Hand Range FastDivide Combined Sim SpecPoker SpecNames SpecHand SpecEquity SpecResults SpecRun
  IndexProofs SetupProofs ExactProofs CombineRunProofs RunProofs LaunchProofs ConsistProofs.
Local Open Scope N_scope.

(* Ten to ace of diamonds *)
Definition royal : N := 2 ^ 35 + 2 ^ 39 + 2 ^ 43 + 2 ^ 47 + 2 ^ 51.
Definition nine_ties : list (list whand) :=
  [[(0, 1, 255)]; [(4, 5, 255)]; [(8, 9, 255)]; [(12, 13, 255)]; [(16, 17, 255)]; [(20, 21, 255)]; [(24, 25, 255)]; [(28, 29, 255)]; [(32, 33, 255)]].
Ltac small_ranges := split; [repeat constructor; cbn; lia || discriminate|vm_compute; reflexivity].
Ltac small_arguments := split; [cbn [length]; lia|split; vm_compute; discriminate].
Lemma nine_ties_overflow : usable nine_ties /\ accepted (length nine_ties) royal 0 /\
  exact_equity Debug nine_ties royal 0 1 false [Run 0; Run 0] = Fail Overflow.
Proof.
  split; [small_ranges|]. split; [unfold nine_ties; small_arguments|]. vm_compute. reflexivity.
Qed.

Definition tie_ranges : list (list whand) := [[(0, 1, 1)]; [(4, 5, 1)]].
Definition tie_schedule : list event := repeat (Run 0) 6.
Lemma tied_run : exists o, exact_equity Debug tie_ranges royal 0 1 false tie_schedule = Ret (ROk o) /\
  r_wins_by_mask (o_results o) = [0; 0; 0; 1] /\ r_wins (o_results o) = [0; 0] /\ r_ties (o_results o) = [f_zero; f_zero] /\
  map f_is_nan (r_equities (o_results o)) = [true; true].
Proof.
  pose (check := fun x : outcome (result observed sim_error) => match x with
    | Ret (ROk o) => Some (r_wins_by_mask (o_results o), r_wins (o_results o), r_ties (o_results o), map f_is_nan (r_equities (o_results o)))
    | _ => None end).
  assert (E : check (exact_equity Debug tie_ranges royal 0 1 false tie_schedule) = Some ([0; 0; 0; 1], [0; 0], [f_zero; f_zero], [true; true])) by (vm_compute; reflexivity).
  destruct (exact_equity Debug tie_ranges royal 0 1 false tie_schedule) as [[o|]|]; [|discriminate E|discriminate E].
  exists o. cbn in E. injection E as E1 E2 E3 E4. auto.
Qed.

Lemma skipped_at {A} k j (l : list A) : nth_error (skipn k l) j = nth_error l (k + j).
Proof. revert l. induction k as [|k IH]; intros l; [reflexivity|]. destruct l; cbn [skipn Nat.add nth_error]; [destruct j; reflexivity|apply IH]. Qed.
(* the ninth player has two aces, the others at most a low pair *)
Definition ninth_ranges : list (list whand) :=
  [[(1, 4, 1)]; [(2, 5, 1)]; [(3, 6, 1)]; [(44, 12, 1)]; [(45, 13, 1)]; [(46, 14, 1)]; [(47, 15, 1)]; [(40, 24, 1)]; [(51, 50, 1)]].
Definition ninth_board : N := 2 ^ 0 + 2 ^ 9 + 2 ^ 18 + 2 ^ 31 + 2 ^ 36.
Lemma ninth_player_wins : exists ranges board sched o u, length ranges = 9%nat /\ usable ranges /\ weights_fit ranges board /\ ~ In Cancel sched /\
  exact_equity Debug ranges board 0 1 false sched = Ret (ROk o) /\
  nth_error (r_wins (o_results o)) 8 = Some 0 /\ In u (skipn (1326 * 8) (r_hand_results (o_results o))) /\ u_wins u = 1.
Proof.
  assert (Hu : usable ninth_ranges) by small_ranges.
  assert (Hw : weights_fit ninth_ranges ninth_board) by (vm_compute; reflexivity).
  assert (Hw1 : hand_wins ninth_ranges ninth_board 0 8 51 50 = 1) by (vm_compute; reflexivity).
  destruct (call_can_finish Debug ninth_ranges ninth_board 0 1 false) as (sched & o & Hc & H).
  - exact Hu.
  - unfold ninth_ranges; small_arguments.
  - vm_compute; reflexivity.
  - vm_compute; reflexivity.
  - left. exact Hw.
  - vm_compute. discriminate.
  - destruct (get_card_index Debug 51 50) as [k|] eqn:Hk; [|vm_compute in Hk; discriminate Hk].
    destruct (hands_spec Debug ninth_ranges ninth_board 0 1 sched o Hu H Hc) with (i := 8%nat) (a := 51) (b := 50) (k := k) as (u & Hn & Hwin & _).
    + lia.
    + cbn. lia.
    + unfold hole, is_card. lia.
    + exact Hk.
    + exists ninth_ranges, ninth_board, sched, o, u. split; [reflexivity|]. split; [exact Hu|]. split; [exact Hw|]. split; [exact Hc|]. split; [exact H|].
      split; [exact (proj1 (ninth_never _ _ _ _ _ _ _ _ Hu H eq_refl))|]. split; [|rewrite <- Hw1; exact Hwin].
      apply (nth_error_In _ (N.to_nat k)). rewrite skipped_at. exact Hn.
Qed.

(* the deals of a run never use a card twice *)
Lemma counted_deals_legal p ranges board dead threads cancelled sched o : usable ranges ->
  exact_equity p ranges board dead threads cancelled sched = Ret (ROk o) ->
  exists D, sums_over p ranges board dead D (o_results o) /\
  forall d l, In d D -> In l (boards board dead d) ->
    NoDup (dealt d ++ l) /\ length l = 5%nat /\ incl (mask_cards board) l /\
    Forall (fun c => N.testbit board c = false /\ N.testbit dead c = false) (dealt d) /\
    Forall (fun c => c < 52 /\ (N.testbit board c = true \/ N.testbit dead c = false)) l.
Proof.
  intros Hu H. destruct (cancelled_run _ _ _ _ _ _ _ _ Hu H) as (D & left & HP & HS). exists D. split; [exact HS|]. intros d l Hin Hl.
  assert (Hdd : In d (deals ranges board dead)) by (eapply Permutation.Permutation_in; [exact HP|apply in_or_app; auto]).
  destruct (exact_common p ranges board dead Hu) as (total & work & _ & _ & _ & Hrun). destruct (Hrun _ _ _ _ H) as [Hv _]. apply validate_none in Hv as (Hn & Hb5 & _).
  assert (Hpos : possible board dead d = true) by (unfold deals in Hdd; apply filter_In in Hdd; exact (proj2 Hdd)).
  pose proof (deal_length _ _ _ _ Hdd) as Hlen. pose proof (mask_cards_length board) as Hm.
  destruct (legal board dead d l Hpos Hl) as (H1 & H2 & H3 & H4 & H5); [lia|lia|]. auto 10.
Qed.
