(* One showdown: who wins, and which counters change. *)
From Verif Require Import Base BaseProofs SumFacts Ghost Hand Range Combined Sim SpecPoker ListFacts PokerFacts HandProofs
  EvalProofs HandExprProofs SpecNames SpecHand SpecEquity EnumProofs.
From Coq Require Import Permutation.
Local Open Scope N_scope.

Lemma not_better_lle a b : not_better a b = true <-> lle a b.
Proof. unfold not_better, lle. destruct (lex a b); split; congruence. Qed.

Lemma nth_firstn {A} (l : list A) j k x : (j < k)%nat -> nth j (firstn k l) x = nth j l x.
Proof.
  revert j k. induction l as [|y l IH]; intros j k H.
  - rewrite firstn_nil. destruct j; reflexivity.
  - destruct k as [|k]; [lia|]. destruct j as [|j]; [reflexivity|]. cbn [firstn nth]. apply IH. lia.
Qed.
Lemma holding_in_firstn d j k : (j < k)%nat -> (k <= length d)%nat -> In (holding d j) (firstn k d).
Proof.
  intros H1 H2. unfold holding. rewrite <- (nth_firstn d j k) by exact H1. apply nth_In. rewrite firstn_length. lia.
Qed.
Lemma in_firstn_holding d k h : In h (firstn k d) -> exists j, (j < k)%nat /\ (j < length d)%nat /\ h = holding d j.
Proof.
  intros H. apply (In_nth _ _ (0, 0, 0)) in H as (j & Hj & <-). rewrite firstn_length in Hj. exists j.
  split; [lia|]. split; [lia|]. unfold holding. apply nth_firstn. lia.
Qed.

Section Scan.
  Variable p : profile.
  Variable d : list whand.          (* the deal *)
  Variable L : list N.              (* the board *)
  Variable hands : list hand.
  Variable bd : hand.
  Variable fl : bool.

  Definition val (h : whand) : list N := best (two_cards h ++ L).
  Definition wmask (l : list nat) : N := fold_left (fun m i => N.lor m (trunc 8 (2 ^ N.of_nat i))) l 0.
  Definition winners_upto (k : nat) : list nat :=
    filter (fun i => forallb (fun h => not_better (val h) (val (holding d i))) (firstn k d)) (seq 0 k).

  Lemma winners_all : winners_upto (length d) = winners d L.
  Proof. unfold winners_upto, winners. rewrite firstn_all. reflexivity. Qed.

  (* the score of each player stands for the value of their hand *)
  Hypothesis Hscore : forall i, (i < length d)%nat -> exists x h v,
    get hands i = Ret x /\ hand_add p bd x = Ret h /\ (if fl then evaluate h else evaluate_without_flush h) = Ret v /\
    valued v (val (holding d i)) /\ 0 < v.
  Hypothesis Hn : (length d <= 9)%nat.

  Definition scan_ok (k : nat) (s : scan) : Prop :=
    sc_counter s = length (winners_upto k) /\ length (sc_indexes s) = 9%nat /\
    firstn (length (winners_upto k)) (sc_indexes s) = winners_upto k /\
    sc_winner_mask s = wmask (winners_upto k) /\ sc_player_mask s = trunc 8 (2 ^ N.of_nat k) /\
    (k = 0%nat -> sc_best s = 0) /\
    ((0 < k)%nat -> exists i, In i (winners_upto k) /\ valued (sc_best s) (val (holding d i))).

  Lemma winners_upto_in k i : (k <= length d)%nat ->
    (In i (winners_upto k) <-> (i < k)%nat /\ forall j, (j < k)%nat -> lle (val (holding d j)) (val (holding d i))).
  Proof.
    intros Hk. unfold winners_upto. rewrite filter_In, in_seq, forallb_forall. split.
    - intros [H1 H2]. split; [lia|]. intros j Hj. apply not_better_lle, H2, holding_in_firstn; lia.
    - intros [H1 H2]. split; [lia|]. intros h Hh. apply not_better_lle.
      apply in_firstn_holding in Hh as (j & Hj & _ & ->). apply H2. exact Hj.
  Qed.

  Lemma firstn_S_nth k : (k < length d)%nat -> firstn (S k) d = firstn k d ++ [holding d k].
  Proof.
    unfold holding. clear. revert k. induction d as [|h l IH]; intros k Hk; [cbn in Hk; lia|].
    destruct k as [|k]; [reflexivity|]. change (firstn (S (S k)) (h :: l)) with (h :: firstn (S k) l).
    cbn [nth]. cbn [length] in Hk. rewrite IH by lia. reflexivity.
  Qed.

  Lemma winners_S k : (k < length d)%nat ->
    winners_upto (S k) =
      filter (fun i => not_better (val (holding d k)) (val (holding d i))) (winners_upto k) ++
      (if forallb (fun h => not_better (val h) (val (holding d k))) (firstn k d) then [k] else []).
  Proof.
    intros Hk. unfold winners_upto. rewrite seq_S, filter_app. cbn [filter].
    rewrite firstn_S_nth by exact Hk. cbn [Nat.add]. f_equal.
    - generalize (seq 0 k). induction l as [|i l IH]; [reflexivity|]. cbn [filter]. rewrite forallb_app. cbn [forallb]. rewrite andb_true_r.
      destruct (forallb _ (firstn k d)) eqn:E1; cbn [andb filter]; [|exact IH].
      destruct (not_better (val (holding d k)) (val (holding d i))); [rewrite IH; reflexivity|exact IH].
    - rewrite forallb_app. cbn [forallb]. rewrite andb_true_r.
      replace (not_better (val (holding d k)) (val (holding d k))) with true; [rewrite andb_true_r; reflexivity|].
      symmetry. apply not_better_lle, lle_refl.
  Qed.

  Lemma firstn_set_nth {A} (l : list A) k v : (k < length l)%nat -> firstn (S k) (set_nth l k v) = firstn k l ++ [v].
  Proof.
    revert k. induction l as [|x l IH]; intros k Hk; [cbn in Hk; lia|]. cbn [length] in Hk. destruct k as [|k]; [reflexivity|].
    cbn [set_nth]. change (firstn (S (S k)) (x :: set_nth l k v)) with (x :: firstn (S k) (set_nth l k v)).
    rewrite IH by lia. reflexivity.
  Qed.

  Lemma wmask_snoc l i : wmask (l ++ [i]) = N.lor (wmask l) (trunc 8 (2 ^ N.of_nat i)).
  Proof. unfold wmask. rewrite fold_left_app. reflexivity. Qed.

  Lemma next_player_mask k : trunc 8 (N.shiftl (trunc 8 (2 ^ N.of_nat k)) 1) = trunc 8 (2 ^ N.of_nat (S k)).
  Proof.
    unfold trunc. rewrite N.shiftl_mul_pow2, Nat2N.inj_succ, N.pow_succ_r'. change (2 ^ 1) with 2.
    rewrite (N.mul_comm 2), N.mul_mod_idemp_l by discriminate. reflexivity.
  Qed.

  Lemma winners_upto_length k : (length (winners_upto k) <= k)%nat.
  Proof. unfold winners_upto. etransitivity; [apply filter_length_le|]. rewrite seq_length. reflexivity. Qed.

  Lemma scan_step_ok k s : (k < length d)%nat -> scan_ok k s ->
    exists s', scan_step p hands bd fl s k = Ret s' /\ scan_ok (S k) s'.
  Proof.
    intros Hk (H1 & H2 & H3 & H4 & H5 & H6 & H7).
    destruct (Hscore k Hk) as (x & h & v & E1 & E2 & E3 & Hv & Hpos).
    unfold scan_step. rewrite E1. cbn [bind]. rewrite E2. cbn [bind]. rewrite E3. cbn [bind].
    pose proof (winners_upto_length k) as Hwl.
    (* the comparison of scores is the comparison of values *)
    assert (Hcmp : k = 0%nat \/ exists i, In i (winners_upto k) /\ N.compare (sc_best s) v = lex (val (holding d i)) (val (holding d k))).
    { destruct (Nat.eq_dec k 0) as [->|Hk0]; [left; reflexivity|right]. destruct (H7 ltac:(lia)) as (i & Hi & Hbest).
      exists i. split; [exact Hi|]. apply valued_compare; assumption. }
    assert (Hall : forall i, In i (winners_upto k) -> forall j, In j (winners_upto k) -> val (holding d i) = val (holding d j)).
    { intros i Hi j Hj. apply winners_upto_in in Hi, Hj; try lia. apply lle_antisym; [apply Hj|apply Hi]; lia. }
    destruct (N.ltb_spec (sc_best s) v) as [Hlt|Hge].
    - (* a better hand *)
      assert (Hf1 : filter (fun i => not_better (val (holding d k)) (val (holding d i))) (winners_upto k) = []).
      { apply filter_none. intros j Hj. destruct Hcmp as [->|(i & Hi & Hc)]; [contradiction|].
        rewrite (Hall j Hj i Hi). unfold not_better. rewrite lex_opp, <- Hc, (proj2 (N.compare_lt_iff _ _) Hlt). reflexivity. }
      assert (Hf2 : forallb (fun h0 => not_better (val h0) (val (holding d k))) (firstn k d) = true).
      { apply forallb_forall. intros h0 Hh0. apply in_firstn_holding in Hh0 as (j & Hj & _ & ->).
        destruct Hcmp as [->|(i & Hi & Hc)]; [lia|]. apply winners_upto_in in Hi as [Hi1 Hi2]; [|lia].
        apply not_better_lle. apply lle_trans with (val (holding d i)).
        - apply Hi2. exact Hj.
        - unfold lle. rewrite <- Hc, (proj2 (N.compare_lt_iff _ _) Hlt). discriminate. }
      rewrite upd_ok by lia. cbn [bind]. eexists. split; [reflexivity|].
      unfold scan_ok. rewrite (winners_S k Hk), Hf1, Hf2. cbn [app length sc_counter sc_indexes sc_winner_mask sc_player_mask sc_best].
      split; [reflexivity|]. split; [rewrite set_nth_length; exact H2|]. split; [rewrite firstn_set_nth by lia; reflexivity|].
      split; [rewrite H5; unfold wmask; cbn [fold_left]; symmetry; apply N.lor_0_l|]. split; [rewrite H5; apply next_player_mask|].
      split; [discriminate|]. intros _. exists k. split; [left; reflexivity|exact Hv].
    - destruct (N.eqb_spec v (sc_best s)) as [Heq|Hne].
      + (* a tie *)
        destruct Hcmp as [->|(i & Hi & Hc)]; [rewrite H6 in Heq by reflexivity; lia|].
        rewrite <- Heq, N.compare_refl in Hc. symmetry in Hc. apply lex_eq in Hc.
        assert (Hf1 : filter (fun j => not_better (val (holding d k)) (val (holding d j))) (winners_upto k) = winners_upto k).
        { apply filter_all, forallb_forall. intros j Hj. apply not_better_lle. rewrite (Hall j Hj i Hi), Hc. apply lle_refl. }
        assert (Hf2 : forallb (fun h0 => not_better (val h0) (val (holding d k))) (firstn k d) = true).
        { unfold winners_upto in Hi. apply filter_In in Hi as [_ Hi]. rewrite <- Hc. exact Hi. }
        rewrite upd_ok by lia. cbn [bind]. eexists. split; [reflexivity|].
        unfold scan_ok. rewrite (winners_S k Hk), Hf1, Hf2, app_length. cbn [length sc_counter sc_indexes sc_winner_mask sc_player_mask sc_best].
        split; [lia|]. split; [rewrite set_nth_length; exact H2|].
        split; [rewrite Nat.add_1_r, H1, firstn_set_nth, H3 by lia; reflexivity|].
        split; [rewrite wmask_snoc, H4, H5; reflexivity|]. split; [rewrite H5; apply next_player_mask|].
        split; [discriminate|]. intros _. exists k. split; [apply in_or_app; right; left; reflexivity|]. rewrite <- Heq. exact Hv.
      + (* a worse hand *)
        assert (Hlt : v < sc_best s) by lia.
        destruct Hcmp as [->|(i & Hi & Hc)]; [rewrite H6 in Hlt by reflexivity; lia|].
        rewrite (proj2 (N.compare_gt_iff _ _) Hlt) in Hc.
        assert (Hf1 : filter (fun j => not_better (val (holding d k)) (val (holding d j))) (winners_upto k) = winners_upto k).
        { apply filter_all, forallb_forall. intros j Hj. apply not_better_lle. rewrite (Hall j Hj i Hi).
          unfold lle. rewrite lex_opp, <- Hc. discriminate. }
        assert (Hf2 : forallb (fun h0 => not_better (val h0) (val (holding d k))) (firstn k d) = false).
        { apply not_true_is_false. intros Hf. rewrite forallb_forall in Hf.
          apply winners_upto_in in Hi as [Hi1 _]; [|lia].
          assert (Hin : In (holding d i) (firstn k d)).
          { apply holding_in_firstn; lia. }
          apply Hf in Hin. unfold not_better in Hin. rewrite <- Hc in Hin. discriminate. }
        cbn [bind]. eexists. split; [reflexivity|].
        unfold scan_ok. rewrite (winners_S k Hk), Hf1, Hf2, app_nil_r. cbn [sc_counter sc_indexes sc_winner_mask sc_player_mask sc_best].
        split; [exact H1|]. split; [exact H2|]. split; [exact H3|]. split; [exact H4|]. split; [rewrite H5; apply next_player_mask|].
        split; [discriminate|]. intros _. apply H7. destruct k; [contradiction|lia].
  Qed.

  Lemma scan_all : forall k, (k <= length d)%nat ->
    exists s, foldM (scan_step p hands bd fl) (seq 0 k) scan_init = Ret s /\ scan_ok k s.
  Proof.
    induction k as [|k IH]; intros Hk.
    - exists scan_init. split; [reflexivity|]. unfold scan_ok. cbn. repeat (split; [reflexivity|]). intros H; inversion H.
    - destruct IH as (s & Hs & Hok); [lia|]. destruct (scan_step_ok k s) as (s' & Hs' & Hok'); [lia|exact Hok|].
      exists s'. split; [|exact Hok']. rewrite seq_S, foldM_app, Hs. cbn [bind foldM Nat.add]. rewrite Hs'. reflexivity.
  Qed.

  Lemma winners_nonempty : (0 < length d)%nat -> winners d L <> [].
  Proof.
    intros H. destruct (scan_all (length d) ltac:(lia)) as (s & _ & Hok). destruct Hok as (_ & _ & _ & _ & _ & _ & H7).
    destruct (H7 H) as (i & Hi & _). rewrite winners_all in Hi. intros E. rewrite E in Hi. destruct Hi.
  Qed.
End Scan.

(* ------------------------------------------------------------------------- *)
(** * Counters *)

Inductive fld := FTotal | FWins | FTies.
Definition fget (f : fld) (u : unit_results) : N :=
  match f with FTotal => u_total u | FWins => u_wins u | FTies => u_ties u end.
Definition hget (f : fld) (hs : list unit_results) (k : nat) : N := fget f (nth k hs unit_default).

(* the counters of the statistics of a thread *)
Inductive obs := OMask (m : nat) | OHand (f : fld) (k : nat) | OCount.
Definition rd (o : obs) (st : stats) : N :=
  match o with
  | OMask m => nth m (b_wins_by_mask (s_batch st)) 0
  | OHand f k => hget f (s_hands st) k
  | OCount => b_eval_count (s_batch st)
  end.

Definition b2n (b : bool) : N := if b then 1 else 0.
Lemma fld_dec (f g : fld) : {f = g} + {f <> g}.
Proof. decide equality. Qed.

Section Slots.
  Variable p : profile.
  Variable B : Prop.
  Variable W w : N.                 (* the true weight and its machine value *)
  Variable F : fld.
  Variable g : unit_results -> outcome unit_results.
  Variable lookup : list nat.
  Variable slot : nat -> nat.

  Hypothesis Hg : forall u x, agr p (fget F u) x -> (B -> x + W < 2 ^ 64) ->
    may p B (g u) (fun u' => agr p (fget F u') (x + W) /\ forall f, f <> F -> fget f u' = fget f u).

  Lemma hget_set hs k u f j : (k < length hs)%nat -> hget f (set_nth hs k u) j = if (j =? k)%nat then fget f u else hget f hs j.
  Proof. intros H. unfold hget. rewrite nth_set_nth by exact H. destruct (j =? k)%nat; reflexivity. Qed.

  Lemma slots_fold l : forall hs v, NoDup (map slot l) ->
    (forall i, In i l -> get lookup i = Ret (slot i) /\ (slot i < length hs)%nat) ->
    (forall k, agr p (hget F hs k) (v k)) -> (B -> forall i, In i l -> v (slot i) + W < 2 ^ 64) ->
    may p B (foldM (fun hs i => k <- get lookup i ;; updf hs k g) l hs)
      (fun hs' => length hs' = length hs /\
         (forall k, agr p (hget F hs' k) (v k + W * b2n (existsb (fun i => (slot i =? k)%nat) l))) /\
         (forall f k, f <> F -> hget f hs' k = hget f hs k)).
  Proof.
    induction l as [|i l IH]; intros hs v Hnd Hl Hv HB; cbn [foldM].
    - apply may_ret. split; [reflexivity|]. split; [|reflexivity]. intros k. cbn. rewrite N.mul_0_r, N.add_0_r. apply Hv.
    - cbn [map] in Hnd. inversion Hnd as [|? ? Hni Hnd']; subst. destruct (Hl i (or_introl eq_refl)) as [Hi1 Hi2].
      rewrite Hi1. cbn [bind]. unfold updf at 1. rewrite (get_nth hs (slot i) unit_default Hi2). cbn [bind].
      eapply may_bind.
      { eapply may_bind; [apply (Hg (nth (slot i) hs unit_default) (v (slot i)))|].
        - apply Hv.
        - intros b. apply HB; [exact b|left; reflexivity].
        - intros u' Hu'. rewrite upd_ok by exact Hi2. apply (may_ret p B _ (fun hs1 => exists u', hs1 = set_nth hs (slot i) u' /\
            agr p (fget F u') (v (slot i) + W) /\ forall f, f <> F -> fget f u' = fget f (nth (slot i) hs unit_default))).
          exists u'. split; [reflexivity|exact Hu']. }
      intros hs1 (u' & -> & Hu1 & Hu2).
      eapply may_weaken.
      { apply (IH (set_nth hs (slot i) u') (fun k => if (k =? slot i)%nat then v k + W else v k)).
        - exact Hnd'.
        - intros j Hj. rewrite set_nth_length. apply Hl. right. exact Hj.
        - intros k. rewrite hget_set by exact Hi2. destruct (Nat.eqb_spec k (slot i)) as [->|]; [exact Hu1|apply Hv].
        - intros b j Hj. destruct (Nat.eqb_spec (slot j) (slot i)) as [E|_].
          + exfalso. apply Hni. rewrite <- E. apply in_map. exact Hj.
          + apply HB; [exact b|right; exact Hj]. }
      intros hs' (H1 & H2 & H3). split; [rewrite H1; apply set_nth_length|]. split.
      + intros k. specialize (H2 k). cbv beta in H2. cbn [existsb]. rewrite (Nat.eqb_sym (slot i) k).
        destruct (Nat.eqb_spec k (slot i)) as [E|Hne]; cbn [orb]; [|exact H2]. rewrite E in *. clear E k.
        replace (existsb (fun i0 => (slot i0 =? slot i)%nat) l) with false in H2; [cbn [b2n] in *; rewrite N.mul_0_r, N.add_0_r in H2; rewrite N.mul_1_r; exact H2|].
        symmetry. apply not_true_is_false. intros He. apply existsb_exists in He as (j & Hj & He). apply Nat.eqb_eq in He.
        apply Hni. rewrite <- He. apply in_map. exact Hj.
      + intros f k Hf. rewrite H3 by exact Hf. rewrite hget_set by exact Hi2.
        destruct (Nat.eqb_spec k (slot i)) as [->|]; [|reflexivity]. rewrite Hu2 by exact Hf. reflexivity.
  Qed.
End Slots.

Lemma agr_fields p u f v : agr p (fget f u) v -> forall u', fget f u' = fget f u -> agr p (fget f u') v.
Proof. intros H u' ->. exact H. Qed.

Lemma update_total_ok p (B : Prop) w W u x : agr p w W -> agr p (fget FTotal u) x -> (B -> x + W < 2 ^ 64) ->
  may p B (update_total p w u) (fun u' => agr p (fget FTotal u') (x + W) /\ forall f, f <> FTotal -> fget f u' = fget f u).
Proof.
  intros Hw Hx HB. unfold update_total. eapply may_bind; [apply (may_add p B _ _ x W Hx Hw HB)|].
  intros t Ht. apply may_ret. split; [exact Ht|]. intros [] Hf; [congruence|reflexivity|reflexivity].
Qed.
Lemma update_wins_ok p (B : Prop) w W u x : agr p w W -> agr p (fget FWins u) x -> (B -> x + W < 2 ^ 64) ->
  may p B (update_wins p w u) (fun u' => agr p (fget FWins u') (x + W) /\ forall f, f <> FWins -> fget f u' = fget f u).
Proof.
  intros Hw Hx HB. unfold update_wins. eapply may_bind; [apply (may_add p B _ _ x W Hx Hw HB)|].
  intros t Ht. apply may_ret. split; [exact Ht|]. intros [] Hf; [reflexivity|congruence|reflexivity].
Qed.
Lemma update_ties_ok p (B : Prop) w W c u x : agr p w W -> agr p (fget FTies u) x -> (B -> x + W < 2 ^ 64) ->
  may p B (update_ties p w c u) (fun u' => agr p (fget FTies u') (x + W) /\ forall f, f <> FTies -> fget f u' = fget f u).
Proof.
  intros Hw Hx HB. unfold update_ties. eapply may_bind; [apply (may_add p B _ _ x W Hx Hw HB)|].
  intros t Ht. apply may_ret. split; [exact Ht|]. intros [] Hf; [reflexivity|reflexivity|congruence].
Qed.

Lemma NoDup_map_in {A C} (f : A -> C) l : NoDup l -> (forall x y, In x l -> In y l -> f x = f y -> x = y) -> NoDup (map f l).
Proof.
  induction l as [|x l IH]; intros Hn Hf; [constructor|]. inversion Hn; subst. cbn [map]. constructor.
  - intros Hin. apply in_map_iff in Hin as (y & E & Hy). assert (y = x) by (apply Hf; [right; exact Hy|left; reflexivity|exact E]).
    subst. contradiction.
  - apply IH; [assumption|]. intros a b Ha Hb. apply Hf; right; assumption.
Qed.

Lemma wmask_lt l : wmask l < 256.
Proof.
  unfold wmask. assert (H : forall l m, m < 256 -> fold_left (fun m i => N.lor m (trunc 8 (2 ^ N.of_nat i))) l m < 256).
  { clear l. induction l as [|i l IH]; intros m Hm; [exact Hm|]. cbn [fold_left]. apply IH.
    assert (Ht : trunc 8 (2 ^ N.of_nat i) < 256) by (apply N.mod_lt; discriminate).
    change 256 with (2 ^ 8) in *. destruct (N.eq_dec (N.lor m (trunc 8 (2 ^ N.of_nat i))) 0) as [->|Hne]; [reflexivity|].
    apply N.log2_lt_pow2; [lia|]. rewrite N.log2_lor. apply N.max_lub_lt.
    - destruct (N.eq_dec m 0) as [->|]; [reflexivity|]. apply N.log2_lt_pow2; lia.
    - destruct (N.eq_dec (trunc 8 (2 ^ N.of_nat i)) 0) as [->|]; [reflexivity|]. apply N.log2_lt_pow2; lia. }
  apply H. reflexivity.
Qed.

Section Showdown.
  Variable p : profile.
  Variable d : list whand.
  Variable slot : nat -> nat.
  Variable lookup : list nat.
  Variable hands : list hand.
  Variable nh : nat.                (* number of hand slots *)
  Variable ids : list nat.

  Definition shape (st : stats) : Prop :=
    length (b_wins_by_mask (s_batch st)) = 512%nat /\ length (s_hands st) = nh /\ b_player_ids (s_batch st) = ids.

  (* what one board adds to a counter *)
  Definition eff (o : obs) (L : list N) : N :=
    match o with
    | OMask m => b2n (N.to_nat (wmask (winners d L)) =? m)%nat
    | OHand FTotal k => b2n (existsb (fun i => (slot i =? k)%nat) (seq 0 (length d)))
    | OHand FWins k => b2n ((length (winners d L) =? 1)%nat && existsb (fun i => (slot i =? k)%nat) (winners d L))
    | OHand FTies k => b2n (negb (length (winners d L) =? 1)%nat && existsb (fun i => (slot i =? k)%nat) (winners d L))
    | OCount => 0
    end.
  Definition one (o : obs) : N := match o with OCount => 1 | _ => 0 end.

  Hypothesis Hn : (length d <= 9)%nat.
  Hypothesis Hslot : forall i, (i < length d)%nat -> get lookup i = Ret (slot i) /\ (slot i < nh)%nat.
  Hypothesis Hinj : forall i j, (i < length d)%nat -> (j < length d)%nat -> slot i = slot j -> i = j.

  Lemma winners_lt L i : In i (winners d L) -> (i < length d)%nat.
  Proof. unfold winners. rewrite filter_In, in_seq. lia. Qed.
  Lemma winners_NoDup L : NoDup (winners d L).
  Proof. apply NoDup_filter, seq_NoDup. Qed.

  Definition scored (L : list N) (bd : hand) (fl : bool) : Prop :=
    forall i, (i < length d)%nat -> exists x h v,
    get hands i = Ret x /\ hand_add p bd x = Ret h /\ (if fl then evaluate h else evaluate_without_flush h) = Ret v /\
    valued v (best (two_cards (holding d i) ++ L)) /\ 0 < v.

  Lemma evaluate_hands_ok (B : Prop) w W L bd fl st v : agr p w W -> scored L bd fl -> shape st ->
    (forall o, agr p (rd o st) (v o)) -> (B -> forall o, v o + W * eff o L + one o < 2 ^ 64) ->
    may p B (evaluate_hands p (length d) hands lookup w bd fl st)
      (fun st' => shape st' /\ forall o, agr p (rd o st') (v o + W * eff o L + one o)).
  Proof.
    intros Hw Hsc (Hs1 & Hs2 & Hs3) Hv HB. unfold evaluate_hands.
    destruct (scan_all p d L hands bd fl Hsc Hn (length d) (le_n _)) as (s & Hs & Hok). rewrite Hs. cbn [bind]. clear Hs.
    unfold scan_ok in Hok. rewrite winners_all in Hok. destruct Hok as (H1 & H2 & H3 & H4 & _).
    eapply may_bind.
    { apply (slots_fold p B W FTotal (update_total p w) lookup slot (fun u x => update_total_ok p B w W u x Hw) (seq 0 (length d)) (s_hands st)
               (fun k => v (OHand FTotal k))).
      - apply NoDup_map_in; [apply seq_NoDup|]. intros i j Hi Hj. apply in_seq in Hi, Hj. apply Hinj; lia.
      - intros i Hi. apply in_seq in Hi. rewrite Hs2. apply Hslot. lia.
      - intros k. apply (Hv (OHand FTotal k)).
      - intros b i Hi. specialize (HB b (OHand FTotal (slot i))). cbn [eff one] in HB.
        replace (existsb (fun i0 => (slot i0 =? slot i)%nat) (seq 0 (length d))) with true in HB; [cbn [b2n] in HB; lia|].
        symmetry. apply existsb_exists. exists i. split; [exact Hi|apply Nat.eqb_refl]. }
    intros hs1 (Hl1 & Ht1 & Hf1).
    assert (Hl1' : length hs1 = nh) by congruence.
    eapply may_bind.
    { instantiate (1 := fun hs2 => length hs2 = nh /\ (forall f k, agr p (hget f hs2 k) (v (OHand f k) + W * eff (OHand f k) L))).
      destruct (Nat.eqb_spec (sc_counter s) 1) as [Hc|Hc].
      - (* one winner *)
        rewrite Hc in *. destruct (winners d L) as [|i [|]] eqn:Ew; try discriminate. cbn [length firstn] in H3.
        destruct (sc_indexes s) as [|i0 idx]; [discriminate|]. inversion H3; subst i0. clear H3. cbn [get nth_error bind].
        assert (Hi : (i < length d)%nat) by (apply (winners_lt L); rewrite Ew; left; reflexivity).
        eapply may_weaken.
        { pose proof (slots_fold p B W FWins (update_wins p w) lookup slot (fun u x => update_wins_ok p B w W u x Hw) [i] hs1
                   (fun k => v (OHand FWins k))) as HS.
          assert (Hone : foldM (fun hs i => k <- get lookup i ;; updf hs k (update_wins p w)) [i] hs1 = (k <- get lookup i ;; updf hs1 k (update_wins p w))).
          { cbn [foldM]. destruct (get lookup i) as [k|]; cbn [bind]; [|reflexivity]. destruct (updf hs1 k (update_wins p w)); reflexivity. }
          rewrite Hone in HS. apply HS.
          - constructor; [intros []|constructor].
          - intros j [<-|[]]. rewrite Hl1'. apply Hslot. exact Hi.
          - intros k. rewrite Hf1 by discriminate. apply (Hv (OHand FWins k)).
          - intros b j [<-|[]]. specialize (HB b (OHand FWins (slot i))). cbn [eff one] in HB. rewrite Ew in HB. cbn [length existsb Nat.eqb] in HB.
            rewrite Nat.eqb_refl in HB. cbn in HB. lia. }
        intros hs2 (Hl2 & Ht2 & Hf2). split; [congruence|]. intros f k. destruct f; cbn [eff]; rewrite ?Ew; cbn [length Nat.eqb negb andb].
        + rewrite Hf2 by discriminate. apply Ht1.
        + apply Ht2.
        + cbn [b2n]. rewrite N.mul_0_r, N.add_0_r, Hf2, Hf1 by discriminate. apply (Hv (OHand FTies k)).
      - (* a tie *)
        eapply may_weaken.
        { pose proof (slots_fold p B W FTies (update_ties p w (sc_counter s)) lookup slot (fun u x => update_ties_ok p B w W _ u x Hw)
                   (winners d L) hs1 (fun k => v (OHand FTies k))) as HS.
          rewrite H1 at 1.
          assert (Hfold : forall l k hs, firstn (length l) (skipn k (sc_indexes s)) = l ->
            foldM (fun hs j => i <- get (sc_indexes s) j ;; k <- get lookup i ;; updf hs k (update_ties p w (sc_counter s))) (seq k (length l)) hs =
            foldM (fun hs i => k <- get lookup i ;; updf hs k (update_ties p w (sc_counter s))) l hs).
          { induction l as [|i l IH]; intros k hs E; [reflexivity|]. cbn [length seq foldM].
            destruct (skipn k (sc_indexes s)) as [|i0 r] eqn:Esk; [discriminate|]. cbn [length firstn] in E.
            assert (Ei : i0 = i) by congruence. assert (Er : firstn (length l) r = l) by congruence. subst i0.
            assert (En : nth_error (sc_indexes s) k = Some i).
            { rewrite <- (Nat.add_0_r k), <- nth_error_skipn, Esk. reflexivity. }
            rewrite (proj2 (get_ret _ _ _) En). cbn [bind].
            destruct (get lookup i) as [k'|]; cbn [bind]; [|reflexivity].
            destruct (updf hs k' (update_ties p w (sc_counter s))) as [hs'|]; cbn [bind]; [|reflexivity].
            apply IH. rewrite (skipn_cons_nth _ _ _ En) in Esk. assert (Hr : r = skipn (S k) (sc_indexes s)) by congruence. rewrite <- Hr. exact Er. }
          rewrite Hfold by exact H3. apply HS.
          - apply NoDup_map_in; [apply winners_NoDup|]. intros i j Hi Hj. apply winners_lt in Hi, Hj. apply Hinj; assumption.
          - intros i Hi. rewrite Hl1'. apply Hslot. eapply winners_lt. exact Hi.
          - intros k. rewrite Hf1 by discriminate. apply (Hv (OHand FTies k)).
          - intros b i Hi. specialize (HB b (OHand FTies (slot i))). cbn [eff one] in HB.
            replace (length (winners d L) =? 1)%nat with false in HB by (symmetry; apply Nat.eqb_neq; congruence).
            replace (existsb (fun i0 => (slot i0 =? slot i)%nat) (winners d L)) with true in HB; [cbn [b2n negb andb] in HB; lia|].
            symmetry. apply existsb_exists. exists i. split; [exact Hi|apply Nat.eqb_refl]. }
        intros hs2 (Hl2 & Ht2 & Hf2). split; [congruence|]. intros f k.
        assert (Hc1 : (length (winners d L) =? 1)%nat = false) by (apply Nat.eqb_neq; congruence).
        destruct f; cbn [eff]; rewrite ?Hc1; cbn [negb andb].
        + rewrite Hf2 by discriminate. apply Ht1.
        + cbn [b2n]. rewrite N.mul_0_r, N.add_0_r, Hf2, Hf1 by discriminate. apply (Hv (OHand FWins k)).
        + apply Ht2. }
    intros hs2 (Hl2 & Ht2). cbv beta.
    assert (Hm : (N.to_nat (sc_winner_mask s) < length (b_wins_by_mask (s_batch st)))%nat).
    { rewrite H4, Hs1. pose proof (wmask_lt (winners d L)). lia. }
    unfold updf. rewrite (get_nth _ _ 0 Hm). cbn [bind].
    eapply may_bind.
    { eapply may_bind; [apply (may_add p B _ _ (v (OMask (N.to_nat (sc_winner_mask s)))) W)|].
      - apply (Hv (OMask (N.to_nat (sc_winner_mask s)))).
      - exact Hw.
      - intros b. specialize (HB b (OMask (N.to_nat (sc_winner_mask s)))). cbn [eff one] in HB. rewrite H4, Nat.eqb_refl in HB.
        cbn [b2n] in HB. rewrite H4. lia.
      - intros y Hy. rewrite upd_ok by exact Hm.
        apply (may_ret p B _ (fun wbm => exists y, wbm = set_nth (b_wins_by_mask (s_batch st)) (N.to_nat (sc_winner_mask s)) y /\
          agr p y (v (OMask (N.to_nat (sc_winner_mask s))) + W))). exists y. auto. }
    intros wbm (y & -> & Hy). eapply may_bind.
    { apply (may_add p B _ _ (v OCount) 1); [apply (Hv OCount)|apply agr_1|]. intros b. specialize (HB b OCount). cbn [eff one] in HB. lia. }
    intros ec Hec. apply may_ret. split.
    - split; [cbn; rewrite set_nth_length; exact Hs1|]. split; [exact Hl2|exact Hs3].
    - intros [m|f k|]; cbn [rd s_batch s_hands b_wins_by_mask b_eval_count one].
      + rewrite nth_set_nth by exact Hm. rewrite N.add_0_r. cbn [eff]. rewrite <- H4.
        rewrite (Nat.eqb_sym m). destruct (Nat.eqb_spec (N.to_nat (sc_winner_mask s)) m) as [<-|Hne]; cbn [b2n].
        * rewrite N.mul_1_r. exact Hy.
        * rewrite N.mul_0_r, N.add_0_r. apply (Hv (OMask m)).
      + rewrite N.add_0_r. apply Ht2.
      + cbn [eff]. rewrite N.mul_0_r, N.add_0_r. exact Hec.
  Qed.
End Showdown.
