(* Conflicts of ranges: fewer hands, more cards on the table, another player, other seats. *)
From Verif Require Import Base BaseProofs SumFacts ListFacts Float64 Hand FastDivide Range Combined Sim Approx SpecPoker SpecNames SpecHand SpecEquity SpecResults SpecRun SpecConflict SpecClash
  CombinedProofs PositionProofs ResultProofs SeatProofs SeatEvenProofs ConflictProofs.
From Coq Require Import Permutation.
Local Open Scope N_scope.

Lemma fewer_picks ranges ranges' : Forall2 fewer_hands ranges ranges' -> forall d', In d' (picks ranges') -> exists d, In d (picks ranges) /\ Permutation (dealt d) (dealt d').
Proof.
  induction 1 as [|r r' rs rs' Hr Hrs IH]; intros d' Hd'.
  - destruct Hd' as [<-|[]]. exists []. split; [left; reflexivity|constructor].
  - cbn [picks] in Hd'. apply in_flat_map in Hd' as (h' & Hh' & Hd'). apply in_map_iff in Hd' as (e' & <- & He'). destruct (IH e' He') as (e & He & HP). destruct (Hr h' Hh') as (h & Hh & HS).
    exists (h :: e). split; [cbn [picks]; apply in_flat_map; exists h; split; [exact Hh|apply in_map; exact He]|]. unfold dealt in *. cbn [flat_map]. apply Permutation_app; [|exact HP].
    unfold two_cards. destruct HS as [[E1 E2]|[E1 E2]]; rewrite E1, E2; [apply Permutation_refl|apply perm_swap].
Qed.
Lemma distinct_NoDup l : distinct l = true <-> NoDup l.
Proof.
  induction l as [|c l IH]; cbn [distinct]; [split; [constructor|reflexivity]|]. rewrite Bool.andb_true_iff, Bool.negb_true_iff, IH. split.
  - intros [H1 H2]. constructor; [|exact H2]. intros Hin. assert (existsb (N.eqb c) l = true); [|congruence]. apply existsb_exists. exists c. split; [exact Hin|apply N.eqb_refl].
  - intros H. inversion H as [|x y Hn Hd]; subst. split; [|exact Hd]. destruct (existsb (N.eqb c) l) eqn:E; [|reflexivity]. apply existsb_exists in E as (x & Hx & Ex). apply N.eqb_eq in Ex. subst. contradiction.
Qed.
Lemma possible_fewer board dead board' dead' (d d' : list whand) : more_cards board dead board' dead' -> Permutation (dealt d) (dealt d') -> possible board' dead' d' = true -> possible board dead d = true.
Proof.
  intros HM HP H. unfold possible in *. apply Bool.andb_true_iff in H as [H1 H2]. apply Bool.andb_true_iff. split.
  - apply distinct_NoDup. apply distinct_NoDup in H1. eapply Permutation_NoDup; [symmetry; exact HP|exact H1].
  - apply forallb_forall. intros c Hc. rewrite forallb_forall in H2. specialize (H2 c (Permutation_in _ HP Hc)). apply Bool.negb_true_iff in H2. apply Bool.negb_true_iff.
    destruct (on_table board dead c) eqn:E; [|reflexivity]. apply HM in E. congruence.
Qed.
Lemma fewer_deals ranges ranges' board dead board' dead' : Forall2 fewer_hands ranges ranges' -> more_cards board dead board' dead' -> deals ranges board dead = [] -> deals ranges' board' dead' = [].
Proof.
  intros HF HM E. destruct (deals ranges' board' dead') as [|d' ds] eqn:E'; [reflexivity|]. exfalso. assert (Hd' : In d' (deals ranges' board' dead')) by (rewrite E'; left; reflexivity).
  apply filter_In in Hd' as [Hd' Hp']. destruct (fewer_picks _ _ HF d' Hd') as (d & Hd & HP). assert (HI : In d (deals ranges board dead)) by (apply filter_In; split; [exact Hd|eapply possible_fewer; eassumption]).
  rewrite E in HI. destruct HI.
Qed.
Lemma player_deals r ranges board dead : deals ranges board dead = [] -> deals (r :: ranges) board dead = [].
Proof.
  intros E. destruct (deals (r :: ranges) board dead) as [|d ds] eqn:E'; [reflexivity|]. exfalso. assert (Hd : In d (deals (r :: ranges) board dead)) by (rewrite E'; left; reflexivity).
  apply filter_In in Hd as [Hd Hp]. cbn [picks] in Hd. apply in_flat_map in Hd as (h & Hh & Hd). apply in_map_iff in Hd as (e & <- & He).
  assert (HI : In e (deals ranges board dead)).
  { apply filter_In. split; [exact He|]. unfold possible in *. apply Bool.andb_true_iff in Hp as [H1 H2]. apply distinct_NoDup in H1. unfold dealt in H1, H2. cbn [flat_map] in H1, H2.
    apply Bool.andb_true_iff. rewrite forallb_app in H2. apply Bool.andb_true_iff in H2 as [_ H2]. split; [|exact H2]. apply distinct_NoDup. unfold two_cards in H1. cbn [app] in H1. inversion H1 as [|x y _ H3]; subst. inversion H3; assumption. }
  rewrite E in HI. destruct HI.
Qed.
Lemma seat_deals ranges ks board dead : Permutation ks (seq 0 (length ranges)) -> deals ranges board dead = [] -> deals (map (range_at ranges) ks) board dead = [].
Proof.
  intros HK E. destruct (deals (map (range_at ranges) ks) board dead) as [|d ds] eqn:E'; [reflexivity|]. exfalso. assert (Hd : In d (deals (map (range_at ranges) ks) board dead)) by (rewrite E'; left; reflexivity).
  apply filter_In in Hd as [Hd Hp]. destruct (picks_reseat _ _ _ HK Hd) as (d0 & Hd0 & Ed). assert (HR : Permutation (reseat ks d0) d0) by (apply (reseat_perm ranges ks HK); apply picks_length; exact Hd0).
  rewrite Ed, (possible_perm _ _ _ _ HR) in Hp. assert (HI : In d0 (deals ranges board dead)) by (apply filter_In; split; assumption). rewrite E in HI. destruct HI.
Qed.

Lemma call_iff p ranges board dead threads cancelled sched : small_call ranges board dead -> exact_equity p ranges board dead threads cancelled sched = Ret (RErr ConflictingRanges) <-> deals ranges board dead = [].
Proof. intros (H1 & H2 & H3 & H4 & H5 & H6). apply (equity_conflict p ranges board dead H1 H2 H3 H4 H5 H6). Qed.
Lemma sampled_iff p ranges board dead threads target cancelled shuf rngs fuel sched : small_call ranges board dead ->
  approx_equity p ranges board dead threads target cancelled shuf rngs fuel sched = Ret (RErr ConflictingRanges) <-> deals ranges board dead = [].
Proof. intros (H1 & H2 & H3 & H4 & H5 & H6). apply (equity_conflict p ranges board dead H1 H2 H3 H4 H5 H6). Qed.

Section Smaller.
  Context (ranges ranges' : list (list whand)) (board dead board' dead' : N).
  Hypothesis Hc : small_call ranges board dead.
  Hypothesis Hc' : small_call ranges' board' dead'.
  Hypothesis Hd : deals ranges board dead = [] -> deals ranges' board' dead' = [].
  Lemma both_exact p q threads threads' cancelled cancelled' sched sched' : exact_equity p ranges board dead threads cancelled sched = Ret (RErr ConflictingRanges) ->
    exact_equity q ranges' board' dead' threads' cancelled' sched' = Ret (RErr ConflictingRanges).
  Proof. intros H. apply (call_iff _ _ _ _ _ _ _ Hc'). apply Hd. apply (call_iff _ _ _ _ _ _ _ Hc) in H. exact H. Qed.
  Lemma both_approx p q threads threads' target target' cancelled cancelled' shuf shuf' rngs rngs' fuel fuel' sched sched' :
    approx_equity p ranges board dead threads target cancelled shuf rngs fuel sched = Ret (RErr ConflictingRanges) ->
    approx_equity q ranges' board' dead' threads' target' cancelled' shuf' rngs' fuel' sched' = Ret (RErr ConflictingRanges).
  Proof. intros H. apply (sampled_iff _ _ _ _ _ _ _ _ _ _ _ Hc'). apply Hd. apply (sampled_iff _ _ _ _ _ _ _ _ _ _ _ Hc) in H. exact H. Qed.
End Smaller.
