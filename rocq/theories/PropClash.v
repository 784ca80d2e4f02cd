(* Conflicts of ranges do not go away when there is less choice. *)
From Verif Require Import Base Float64 Hand FastDivide Range Combined Sim Approx SpecPoker SpecNames SpecHand SpecEquity SpecResults SpecRun SpecConflict SpecClash
  ClashProofs PropConflict.
From Coq Require Import Permutation.
Local Open Scope N_scope.

(* C160: with two or three players, ranges that conflict still do with fewer hands or other weights, and more cards on the table ... *)
Theorem C160_fewer : forall p q ranges ranges' board dead board' dead' threads threads' cancelled cancelled' sched sched', small_call ranges board dead -> small_call ranges' board' dead' ->
  Forall2 fewer_hands ranges ranges' -> more_cards board dead board' dead' -> exact_equity p ranges board dead threads cancelled sched = Ret (RErr ConflictingRanges) ->
  exact_equity q ranges' board' dead' threads' cancelled' sched' = Ret (RErr ConflictingRanges).
Proof. intros p q ranges ranges' board dead board' dead' threads threads' cancelled cancelled' sched sched' H1 H2 H3 H4. apply both_exact; [exact H1|exact H2|apply fewer_deals; assumption]. Qed.
Theorem C160_fewer_approx : forall p q ranges ranges' board dead board' dead' threads threads' target target' cancelled cancelled' shuf shuf' rngs rngs' fuel fuel' sched sched',
  small_call ranges board dead -> small_call ranges' board' dead' -> Forall2 fewer_hands ranges ranges' -> more_cards board dead board' dead' ->
  approx_equity p ranges board dead threads target cancelled shuf rngs fuel sched = Ret (RErr ConflictingRanges) ->
  approx_equity q ranges' board' dead' threads' target' cancelled' shuf' rngs' fuel' sched' = Ret (RErr ConflictingRanges).
Proof. intros p q ranges ranges' board dead board' dead' threads threads' target target' cancelled cancelled' shuf shuf' rngs rngs' fuel fuel' sched sched' H1 H2 H3 H4. apply both_approx; [exact H1|exact H2|apply fewer_deals; assumption]. Qed.
(* ... with another player ... *)
Theorem C160_player : forall p q r ranges board dead threads threads' cancelled cancelled' sched sched', small_call ranges board dead -> small_call (r :: ranges) board dead ->
  exact_equity p ranges board dead threads cancelled sched = Ret (RErr ConflictingRanges) -> exact_equity q (r :: ranges) board dead threads' cancelled' sched' = Ret (RErr ConflictingRanges).
Proof. intros p q r ranges board dead threads threads' cancelled cancelled' sched sched' H1 H2. apply both_exact; [exact H1|exact H2|apply player_deals]. Qed.
(* ... and in other seats *)
Theorem C160_seats : forall p q ranges ks board dead threads threads' cancelled cancelled' sched sched', small_call ranges board dead -> small_call (map (range_at ranges) ks) board dead ->
  Permutation ks (seq 0 (length ranges)) ->
  exact_equity p ranges board dead threads cancelled sched = Ret (RErr ConflictingRanges) -> exact_equity q (map (range_at ranges) ks) board dead threads' cancelled' sched' = Ret (RErr ConflictingRanges).
Proof. intros p q ranges ks board dead threads threads' cancelled cancelled' sched sched' H1 H2 H3. apply both_exact; [exact H1|exact H2|apply seat_deals; exact H3]. Qed.
(* the three players who need two aces, with other weights, a hand less, the kings dead, or in other seats *)
Definition fewer_aces : list (list whand) := [[(0, 50, 7)]; [(50, 4, 3); (4, 51, 9)]; [(51, 8, 1); (50, 8, 100)]].
Lemma aces_call : small_call two_aces 0 0.
Proof. split; [repeat constructor; cbn; lia || discriminate|]. split; [reflexivity|]. split; [reflexivity|]. split; [vm_compute; repeat split; lia || discriminate|]. split; [cbn; lia|]. intros _. repeat constructor; cbn; unfold same_two; cbn; lia. Qed.
Example C160_example : (forall p threads sched, exact_equity p fewer_aces 0 (15 * 2 ^ 44) threads false sched = Ret (RErr ConflictingRanges)) /\
  (forall p threads sched, exact_equity p (map (range_at two_aces) [2; 0; 1]%nat) 0 0 threads false sched = Ret (RErr ConflictingRanges)).
Proof.
  assert (HC : exact_equity Release two_aces 0 0 1 false [] = Ret (RErr ConflictingRanges)) by (apply (proj1 C140_example)). split; intros p threads sched.
  - apply (C160_fewer Release p two_aces fewer_aces 0 0 0 (15 * 2 ^ 44) 1 threads false false [] sched aces_call); [|repeat constructor|intros c; discriminate|exact HC].
    + split; [repeat constructor; cbn; lia || discriminate|]. split; [reflexivity|]. split; [reflexivity|]. split; [vm_compute; repeat split; lia || discriminate|]. split; [cbn; lia|]. intros _. repeat constructor; cbn; unfold same_two; cbn; lia.
    + intros h' [<-|[]]. exists (50, 0, 1). split; [right; left; reflexivity|right; split; reflexivity].
    + intros h' [<-|[<-|[]]]; [exists (50, 4, 1)|exists (51, 4, 1)]; (split; [cbn; auto|]); [left|right]; split; reflexivity.
    + intros h' [<-|[<-|[]]]; [exists (51, 8, 1)|exists (50, 8, 1)]; (split; [cbn; auto|]); left; split; reflexivity.
  - apply (C160_seats Release p two_aces [2; 0; 1]%nat 0 0 1 threads false false [] sched aces_call); [| |exact HC].
    + split; [repeat constructor; cbn; lia || discriminate|]. split; [reflexivity|]. split; [reflexivity|]. split; [vm_compute; repeat split; lia || discriminate|]. split; [cbn; lia|]. intros _. repeat constructor; cbn; unfold same_two; cbn; lia.
    + cbn. apply (Permutation_cons_app [0; 1]%nat []). apply Permutation_refl.
Qed.

Print Assumptions C160_fewer.
Print Assumptions C160_fewer_approx.
Print Assumptions C160_player.
Print Assumptions C160_seats.
