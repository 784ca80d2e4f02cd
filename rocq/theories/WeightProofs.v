(* The per-hand entries before the threads start: validity, weight, rank and draw. *)
From Verif Require Import Base BaseProofs SumFacts Ghost Float64 Hand FastDivide FastDivideProofs Range Combined Sim SpecPoker ListFacts
  HandProofs HandExprProofs SpecNames SpecHand SpecRange SpecEquity EvalProofs EnumProofs ShowdownProofs BoardProofs CombinedProofs PositionProofs MergeProofs
  SetupProofs DrawProofs.
Local Open Scope N_scope.

Notation unth k l := (nth k l unit_default).

(* ------------------------------------------------------------------------- *)
(** * Updating the entries of the hands of one player *)

Section Slots.
  Variable p : profile.

  Definition hslot (i : nat) (h : combo) : nat := (NUM_HANDS * i + idx p (c_1 h) (c_2 h))%nat.
  Lemma hand_slot_ok i h : hole_hand h -> hand_slot p i h = Ret (hslot i h) /\ (NUM_HANDS * i <= hslot i h < NUM_HANDS * i + NUM_HANDS)%nat.
  Proof.
    intros H. destruct (idx_spec p (c_1 h) (c_2 h) H) as [E Hlt]. unfold hand_slot, hslot. rewrite E. cbn [bind]. rewrite Nat2N.id.
    split; [reflexivity|]. unfold NUM_HANDS. lia.
  Qed.

  (* the effect on entry k of applying g h to the entry of every hand h *)
  Definition touch (i : nat) (g : combo -> unit_results -> unit_results) (hands : list combo) (k : nat) (u : unit_results) : unit_results :=
    fold_left (fun u h => if (hslot i h =? k)%nat then g h u else u) hands u.

  Lemma slot_step n i (g : combo -> unit_results -> unit_results) h hr : (i < n)%nat -> hole_hand h -> length hr = (NUM_HANDS * n)%nat ->
    exists hr', (k <- hand_slot p i h ;; updf hr k (fun u => Ret (g h u))) = Ret hr' /\ length hr' = length hr /\
      forall k, unth k hr' = if (hslot i h =? k)%nat then g h (unth k hr) else unth k hr.
  Proof.
    intros Hi Hh Hl. destruct (hand_slot_ok i h Hh) as [E Hs]. rewrite E. cbn [bind].
    assert (Hlt : (hslot i h < length hr)%nat) by (rewrite Hl; unfold NUM_HANDS in *; lia).
    rewrite (updf_ok hr (hslot i h) _ (unth (hslot i h) hr) (g h (unth (hslot i h) hr))); [|apply nth_error_nth'; exact Hlt|reflexivity].
    eexists. split; [reflexivity|]. split; [apply set_nth_length|]. intros k. rewrite nth_set_nth by exact Hlt.
    rewrite Nat.eqb_sym. destruct (Nat.eqb_spec (hslot i h) k) as [->|]; reflexivity.
  Qed.

  Lemma slots_fold n i g hands : (i < n)%nat -> Forall hole_hand hands -> forall hr, length hr = (NUM_HANDS * n)%nat ->
    exists hr', foldM (fun hr h => k <- hand_slot p i h ;; updf hr k (fun u => Ret (g h u))) hands hr = Ret hr' /\
      length hr' = length hr /\ forall k, unth k hr' = touch i g hands k (unth k hr).
  Proof.
    intros Hi HF. induction HF as [|h hands Hh _ IH]; intros hr Hl; cbn [foldM].
    - exists hr. auto.
    - destruct (slot_step n i g h hr Hi Hh Hl) as (hr1 & E1 & L1 & N1). rewrite E1. cbn [bind].
      destruct (IH hr1 ltac:(congruence)) as (hr2 & E2 & L2 & N2). exists hr2. split; [exact E2|]. split; [congruence|].
      intros k. rewrite N2, N1. reflexivity.
  Qed.

  Lemma touch_other i g hands k u : Forall hole_hand hands -> (k < NUM_HANDS * i \/ NUM_HANDS * i + NUM_HANDS <= k)%nat -> touch i g hands k u = u.
  Proof.
    intros HF Hk. unfold touch. revert u. induction HF as [|h hands Hh _ IH]; intros u; [reflexivity|]. cbn [fold_left].
    destruct (hand_slot_ok i h Hh) as [_ Hs]. destruct (Nat.eqb_spec (hslot i h) k); [lia|]. apply IH.
  Qed.

  (* the last hand of the list in entry k *)
  Definition last_at (i : nat) (hands : list combo) (k : nat) : option combo :=
    fold_left (fun acc h => if (hslot i h =? k)%nat then Some h else acc) hands None.
  Lemma last_at_snoc i hands h k : last_at i (hands ++ [h]) k = if (hslot i h =? k)%nat then Some h else last_at i hands k.
  Proof. unfold last_at. rewrite fold_left_app. reflexivity. Qed.
  Lemma touch_snoc i g hands h k u : touch i g (hands ++ [h]) k u = if (hslot i h =? k)%nat then g h (touch i g hands k u) else touch i g hands k u.
  Proof. unfold touch. rewrite fold_left_app. reflexivity. Qed.
  Lemma last_at_some i hands k h : last_at i hands k = Some h -> In h hands /\ hslot i h = k.
  Proof.
    induction hands as [|x hands IH] using rev_ind; [discriminate|]. rewrite last_at_snoc, in_app_iff.
    destruct (Nat.eqb_spec (hslot i x) k) as [E|_]; [intros H; injection H as <-; split; [right; left; reflexivity|exact E]|].
    intros H. apply IH in H as [H1 H2]. auto.
  Qed.
  Lemma last_at_none i hands k : last_at i hands k = None <-> existsb (fun h => (hslot i h =? k)%nat) hands = false.
  Proof.
    induction hands as [|x hands IH] using rev_ind; [split; reflexivity|]. rewrite last_at_snoc, existsb_app. cbn [existsb]. rewrite orb_false_r.
    destruct (hslot i x =? k)%nat; [rewrite orb_true_r; split; discriminate|]. rewrite orb_false_r. exact IH.
  Qed.
  (* a later update hides the earlier ones *)
  Lemma touch_last i g hands k u : (forall h h' u, g h (g h' u) = g h u) ->
    touch i g hands k u = match last_at i hands k with Some h => g h u | None => u end.
  Proof.
    intros Hg. induction hands as [|x hands IH] using rev_ind; [reflexivity|]. rewrite touch_snoc, last_at_snoc, IH.
    destruct (hslot i x =? k)%nat; [|reflexivity]. destruct (last_at i hands k); [apply Hg|reflexivity].
  Qed.

  (* ----------------------------------------------------------------------- *)
  (** ** save_hand_weights *)

  Definition plain (hands : list combo) : bool := forallb (fun h => c_w h =? 100) hands.
  Definition saved (i : nat) (hands : list combo) (k : nat) (u : unit_results) : unit_results :=
    match last_at i hands k with
    | Some h => with_weight u (if plain hands then 1 else c_w h) true
    | None => u
    end.
  Lemma saved_other i hands k u : Forall hole_hand hands -> (k < NUM_HANDS * i \/ NUM_HANDS * i + NUM_HANDS <= k)%nat -> saved i hands k u = u.
  Proof.
    intros HF Hk. unfold saved. destruct (last_at i hands k) as [h|] eqn:E; [|reflexivity]. apply last_at_some in E as [Hin E].
    rewrite Forall_forall in HF. destruct (hand_slot_ok i h (HF h Hin)) as [_ Hs]. lia.
  Qed.

  Lemma save_player_weights_ok n i hands hr flag : (i < n)%nat -> Forall hole_hand hands -> length hr = (NUM_HANDS * n)%nat ->
    exists hr' flag', save_player_weights p i hands hr flag = Ret (hr', flag') /\ length hr' = length hr /\
      (forall k, unth k hr' = saved i hands k (unth k hr)) /\
      forall j, N.testbit flag' j = if j =? N.of_nat i then plain hands else N.testbit flag j.
  Proof.
    intros Hi HF Hl. unfold save_player_weights.
    set (bit := N.shiftl 1 (N.of_nat i)). set (w := fun h u => with_weight u (c_w h) true).
    assert (Hbit : forall j, N.testbit bit j = (j =? N.of_nat i)) by (intros j; unfold bit; rewrite N.shiftl_1_l; apply bit_of).
    assert (G : forall hands, Forall hole_hand hands -> forall hr check flag, length hr = (NUM_HANDS * n)%nat ->
      exists hr', foldM (fun '(hr, check, flag) h => k <- hand_slot p i h ;; hr <- updf hr k (fun u => Ret (with_weight u (c_w h) true)) ;;
          if check && negb (c_w h =? 100) then Ret (hr, false, N.lxor flag bit) else Ret (hr, check, flag)) hands (hr, check, flag) =
        Ret (hr', check && plain hands, if check && negb (plain hands) then N.lxor flag bit else flag) /\
        length hr' = length hr /\ forall k, unth k hr' = touch i w hands k (unth k hr)).
    { clear hr flag HF Hl hands. intros hands HF. induction HF as [|h hands Hh _ IH]; intros hr check flag Hl; cbn [foldM].
      - exists hr. unfold plain. cbn [forallb negb]. rewrite andb_true_r, andb_false_r. auto.
      - destruct (slot_step n i w h hr Hi Hh Hl) as (hr1 & E1 & L1 & N1).
        destruct (hand_slot p i h) as [k|f]; [|discriminate]. cbn [bind] in E1 |- *. unfold w in E1. rewrite E1. cbn [bind].
        unfold plain. cbn [forallb]. fold (plain hands). destruct check; cbn [andb].
        + destruct (c_w h =? 100); cbn [negb andb]; cbn [bind].
          * destruct (IH hr1 true flag ltac:(congruence)) as (hr2 & E2 & L2 & N2). exists hr2. split; [exact E2|]. split; [congruence|].
            intros k'. rewrite N2, N1. reflexivity.
          * destruct (IH hr1 false (N.lxor flag bit) ltac:(congruence)) as (hr2 & E2 & L2 & N2). exists hr2. split; [exact E2|]. split; [congruence|].
            intros k'. rewrite N2, N1. reflexivity.
        + destruct (IH hr1 false flag ltac:(congruence)) as (hr2 & E2 & L2 & N2). exists hr2. split; [exact E2|]. split; [congruence|].
          intros k'. rewrite N2, N1. reflexivity. }
    destruct (G hands HF hr true (N.lor flag bit) Hl) as (hr1 & E1 & L1 & N1). clear G. cbn [andb] in E1. rewrite E1. cbn [bind]. clear E1.
    assert (Ew : forall k u, touch i w hands k u = match last_at i hands k with Some h => w h u | None => u end) by (intros; apply touch_last; reflexivity).
    destruct (plain hands) eqn:Ep; cbn [negb].
    - destruct (slots_fold n i (fun _ u => if u_valid u then with_weight u 1 true else u) hands Hi HF hr1 ltac:(congruence)) as (hr2 & E2 & L2 & N2).
      rewrite E2. cbn [bind]. do 2 eexists. split; [reflexivity|]. split; [congruence|]. split.
      + intros k. rewrite N2, N1, Ew, touch_last.
        2:{ intros _ _ u. destruct (u_valid u) eqn:Ev; [reflexivity|]. rewrite Ev. reflexivity. }
        unfold saved. rewrite Ep. destruct (last_at i hands k); reflexivity.
      + intros j. rewrite N.lor_spec, Hbit. destruct (j =? N.of_nat i); [apply orb_true_r|apply orb_false_r].
    - cbn [bind]. do 2 eexists. split; [reflexivity|]. split; [exact L1|]. split.
      + intros k. rewrite N1, Ew. unfold saved. rewrite Ep. reflexivity.
      + intros j. rewrite N.lxor_spec, N.lor_spec, Hbit. destruct (j =? N.of_nat i); [rewrite orb_true_r; reflexivity|].
        rewrite orb_false_r, xorb_false_r. reflexivity.
  Qed.

  (* ----------------------------------------------------------------------- *)
  (** ** One step per player *)

  Section Players.
    Variable ok : list combo -> Prop.
    Variable n : nat.

    Lemma players_fold (step : list unit_results -> nat * list combo -> outcome (list unit_results)) (F : nat -> list combo -> nat -> unit_results -> unit_results) :
      (forall i hands hr, (i < n)%nat -> ok hands -> length hr = (NUM_HANDS * n)%nat ->
         exists hr', step hr (i, hands) = Ret hr' /\ length hr' = length hr /\ forall k, unth k hr' = F i hands k (unth k hr)) ->
      (forall i hands k u, ok hands -> (k < NUM_HANDS * i \/ NUM_HANDS * i + NUM_HANDS <= k)%nat -> F i hands k u = u) ->
      forall ranges, Forall ok ranges -> length ranges = n -> forall hr, length hr = (NUM_HANDS * n)%nat ->
      exists hr', foldM step (combine (seq 0 (length ranges)) ranges) hr = Ret hr' /\ length hr' = length hr /\
        forall i j, (i < n)%nat -> (j < NUM_HANDS)%nat -> unth (NUM_HANDS * i + j)%nat hr' = F i (nth i ranges []) (NUM_HANDS * i + j)%nat (unth (NUM_HANDS * i + j)%nat hr).
    Proof.
      intros Hstep Hother.
      assert (G : forall ranges a, Forall ok ranges -> (a + length ranges <= n)%nat -> forall hr, length hr = (NUM_HANDS * n)%nat ->
        exists hr', foldM step (combine (seq a (length ranges)) ranges) hr = Ret hr' /\ length hr' = length hr /\
          forall i j, (j < NUM_HANDS)%nat -> unth (NUM_HANDS * i + j)%nat hr' =
            if (a <=? i)%nat && (i <? a + length ranges)%nat then F i (nth (i - a) ranges []) (NUM_HANDS * i + j)%nat (unth (NUM_HANDS * i + j)%nat hr) else unth (NUM_HANDS * i + j)%nat hr).
      { induction ranges as [|r ranges IH]; intros a HF Ha hr Hl; cbn [length seq combine foldM] in *.
        - exists hr. split; [reflexivity|]. split; [reflexivity|]. intros i j _. destruct (Nat.leb_spec a i), (Nat.ltb_spec i (a + 0)); cbn [andb]; try reflexivity; lia.
        - inversion HF; subst. destruct (Hstep a r hr) as (hr1 & E1 & L1 & N1); [lia|assumption|assumption|]. rewrite E1. cbn [bind].
          destruct (IH (S a) ltac:(assumption) ltac:(lia) hr1 ltac:(congruence)) as (hr2 & E2 & L2 & N2). exists hr2. split; [exact E2|]. split; [congruence|].
          intros i j Hj. rewrite N2, N1 by exact Hj. destruct (Nat.eq_dec i a) as [->|Hne].
          + rewrite (proj2 (Nat.leb_gt (S a) a)), (proj2 (Nat.leb_le a a)), (proj2 (Nat.ltb_lt a (a + S (length ranges)))) by lia.
            cbn [andb]. rewrite Nat.sub_diag. reflexivity.
          + rewrite (Hother a r (NUM_HANDS * i + j)%nat) by (try assumption; unfold NUM_HANDS in *; lia).
            destruct (Nat.leb_spec (S a) i), (Nat.ltb_spec i (S a + length ranges)), (Nat.leb_spec a i), (Nat.ltb_spec i (a + S (length ranges))); try lia; cbn [andb]; try reflexivity.
            replace (i - a)%nat with (S (i - S a)) by lia. reflexivity. }
      intros ranges HF Hn hr Hl. destruct (G ranges 0%nat HF ltac:(lia) hr Hl) as (hr' & E & L & Nt). exists hr'. split; [exact E|]. split; [exact L|].
      intros i j Hi Hj. rewrite Nt by exact Hj. rewrite (proj2 (Nat.ltb_lt i (0 + length ranges))) by lia. cbn [Nat.leb andb]. rewrite Nat.sub_0_r. reflexivity.
    Qed.

    Lemma players_fold_flag (step : list unit_results * N -> nat * list combo -> outcome (list unit_results * N)) (F : nat -> list combo -> nat -> unit_results -> unit_results) (b : list combo -> bool) :
      (forall i hands hr flag, (i < n)%nat -> ok hands -> length hr = (NUM_HANDS * n)%nat ->
         exists hr' flag', step (hr, flag) (i, hands) = Ret (hr', flag') /\ length hr' = length hr /\ (forall k, unth k hr' = F i hands k (unth k hr)) /\
           forall j, N.testbit flag' j = if j =? N.of_nat i then b hands else N.testbit flag j) ->
      (forall i hands k u, ok hands -> (k < NUM_HANDS * i \/ NUM_HANDS * i + NUM_HANDS <= k)%nat -> F i hands k u = u) ->
      forall ranges, Forall ok ranges -> length ranges = n -> forall hr flag, length hr = (NUM_HANDS * n)%nat ->
      exists hr' flag', foldM step (combine (seq 0 (length ranges)) ranges) (hr, flag) = Ret (hr', flag') /\ length hr' = length hr /\
        forall i, (i < n)%nat -> (forall j, (j < NUM_HANDS)%nat -> unth (NUM_HANDS * i + j)%nat hr' = F i (nth i ranges []) (NUM_HANDS * i + j)%nat (unth (NUM_HANDS * i + j)%nat hr)) /\
          N.testbit flag' (N.of_nat i) = b (nth i ranges []).
    Proof.
      intros Hstep Hother.
      assert (G : forall ranges a, Forall ok ranges -> (a + length ranges <= n)%nat -> forall hr flag, length hr = (NUM_HANDS * n)%nat ->
        exists hr' flag', foldM step (combine (seq a (length ranges)) ranges) (hr, flag) = Ret (hr', flag') /\ length hr' = length hr /\
          forall i, (forall j, (j < NUM_HANDS)%nat -> unth (NUM_HANDS * i + j)%nat hr' =
            if (a <=? i)%nat && (i <? a + length ranges)%nat then F i (nth (i - a) ranges []) (NUM_HANDS * i + j)%nat (unth (NUM_HANDS * i + j)%nat hr) else unth (NUM_HANDS * i + j)%nat hr) /\
            N.testbit flag' (N.of_nat i) = if (a <=? i)%nat && (i <? a + length ranges)%nat then b (nth (i - a) ranges []) else N.testbit flag (N.of_nat i)).
      { induction ranges as [|r ranges IH]; intros a HF Ha hr flag Hl; cbn [length seq combine foldM] in *.
        - exists hr, flag. split; [reflexivity|]. split; [reflexivity|]. intros i. assert (E : (a <=? i)%nat && (i <? a + 0)%nat = false) by (destruct (Nat.leb_spec a i), (Nat.ltb_spec i (a + 0)); cbn [andb]; try reflexivity; lia).
          rewrite E. auto.
        - inversion HF; subst. destruct (Hstep a r hr flag) as (hr1 & flag1 & E1 & L1 & N1 & F1); [lia|assumption|assumption|]. rewrite E1. cbn [bind].
          destruct (IH (S a) ltac:(assumption) ltac:(lia) hr1 flag1 ltac:(congruence)) as (hr2 & flag2 & E2 & L2 & N2). exists hr2, flag2. split; [exact E2|]. split; [congruence|].
          intros i. destruct (N2 i) as [N2a N2b]. split; [intros j Hj; rewrite N2a, N1 by exact Hj|rewrite N2b, F1]; destruct (Nat.eq_dec i a) as [->|Hne].
          + rewrite (proj2 (Nat.leb_gt (S a) a)), (proj2 (Nat.leb_le a a)), (proj2 (Nat.ltb_lt a (a + S (length ranges)))) by lia.
            cbn [andb]. rewrite Nat.sub_diag. reflexivity.
          + rewrite (Hother a r (NUM_HANDS * i + j)%nat) by (try assumption; unfold NUM_HANDS in *; lia).
            destruct (Nat.leb_spec (S a) i), (Nat.ltb_spec i (S a + length ranges)), (Nat.leb_spec a i), (Nat.ltb_spec i (a + S (length ranges))); try lia; cbn [andb]; try reflexivity.
            replace (i - a)%nat with (S (i - S a)) by lia. reflexivity.
          + rewrite (proj2 (Nat.leb_gt (S a) a)), (proj2 (Nat.leb_le a a)), (proj2 (Nat.ltb_lt a (a + S (length ranges)))), N.eqb_refl by lia.
            cbn [andb]. rewrite Nat.sub_diag. reflexivity.
          + rewrite (proj2 (N.eqb_neq (N.of_nat i) (N.of_nat a))) by lia.
            destruct (Nat.leb_spec (S a) i), (Nat.ltb_spec i (S a + length ranges)), (Nat.leb_spec a i), (Nat.ltb_spec i (a + S (length ranges))); try lia; cbn [andb]; try reflexivity.
            replace (i - a)%nat with (S (i - S a)) by lia. reflexivity. }
      intros ranges HF Hn hr flag Hl. destruct (G ranges 0%nat HF ltac:(lia) hr flag Hl) as (hr' & flag' & E & L & Nt). exists hr', flag'. split; [exact E|]. split; [exact L|].
      intros i Hi. destruct (Nt i) as [N1 N2]. rewrite (proj2 (Nat.ltb_lt i (0 + length ranges))) in N1, N2 by lia. cbn [Nat.leb andb] in N1, N2. rewrite Nat.sub_0_r in N1, N2. auto.
    Qed.
  End Players.

  Lemma save_hand_weights_ok ranges hr : Forall (Forall hole_hand) ranges -> length hr = (NUM_HANDS * length ranges)%nat ->
    exists hr' flag, save_hand_weights p ranges hr = Ret (hr', flag) /\ length hr' = length hr /\
      forall i, (i < length ranges)%nat -> (forall j, (j < NUM_HANDS)%nat -> unth (NUM_HANDS * i + j)%nat hr' = saved i (nth i ranges []) (NUM_HANDS * i + j)%nat (unth (NUM_HANDS * i + j)%nat hr)) /\
        N.testbit flag (N.of_nat i) = plain (nth i ranges []).
  Proof.
    intros HF Hl. unfold save_hand_weights.
    apply (players_fold_flag (Forall hole_hand) (length ranges) _ saved plain); try assumption; try reflexivity.
    - intros i hands hr0 flag Hi Hh Hl0. apply (save_player_weights_ok (length ranges)); assumption.
    - intros i hands k u Hh Hk. apply saved_other; assumption.
  Qed.

  (* ----------------------------------------------------------------------- *)
  (** ** fix_hand_weights *)

  Definition fixed (flag : N) (i : nat) (hands : list combo) (k : nat) (u : unit_results) : unit_results :=
    if N.testbit flag (N.of_nat i) then
      match last_at i hands k with
      | Some _ => if u_valid u then with_weight u 100 true else u
      | None => u
      end
    else u.
  Lemma fix_hand_weights_ok flag ranges hr : Forall (Forall hole_hand) ranges -> length hr = (NUM_HANDS * length ranges)%nat ->
    exists hr', fix_hand_weights p flag ranges hr = Ret hr' /\ length hr' = length hr /\
      forall i j, (i < length ranges)%nat -> (j < NUM_HANDS)%nat -> unth (NUM_HANDS * i + j)%nat hr' = fixed flag i (nth i ranges []) (NUM_HANDS * i + j)%nat (unth (NUM_HANDS * i + j)%nat hr).
  Proof.
    intros HF Hl. unfold fix_hand_weights.
    apply (players_fold (Forall hole_hand) (length ranges) _ (fixed flag)); try assumption; try reflexivity.
    - intros i hands hr0 Hi Hh Hl0. unfold fixed. destruct (N.testbit flag (N.of_nat i)); [|exists hr0; auto].
      destruct (slots_fold (length ranges) i (fun _ u => if u_valid u then with_weight u 100 true else u) hands Hi Hh hr0 Hl0) as (hr1 & E1 & L1 & N1).
      exists hr1. split; [exact E1|]. split; [exact L1|]. intros k. rewrite N1, touch_last; [reflexivity|].
      intros _ _ u. destruct (u_valid u) eqn:Ev; [reflexivity|]. rewrite Ev. reflexivity.
    - intros i hands k u Hh Hk. unfold fixed. destruct (N.testbit flag (N.of_nat i)); [|reflexivity].
      destruct (last_at i hands k) as [h|] eqn:E; [|reflexivity]. apply last_at_some in E as [Hin E].
      rewrite Forall_forall in Hh. destruct (hand_slot_ok i h (Hh h Hin)) as [_ Hs]. lia.
  Qed.

  (* ----------------------------------------------------------------------- *)
  (** ** set_ranks *)

  Definition off_board (board : N) (h : combo) : Prop :=
    hole_hand h /\ N.testbit board (first_card h) = false /\ N.testbit board (second_card h) = false.
  Definition now (board : N) (h : combo) : list N := two_cards h ++ mask_cards board.
  (* the draw flags get_draw reports for a hand on a board *)
  Definition draw_of (board : N) (h : combo) : N :=
    if (length (mask_cards board) <? 5)%nat then
      match (holding <- from_hole_cards p (c_1 h) (c_2 h) ;; b <- from_bit_mask p board ;; get_draw p holding b (category_of (now board h))) with
      | Ret d => d | Fail _ => 0 end
    else 0.

  Lemma two_more a b l : is_card a -> is_card b -> a <> b -> ~ In a l -> ~ In b l -> cards l -> cards (a :: b :: l).
  Proof.
    intros Ha Hb Hab Hal Hbl [Hn Hc]. split.
    - constructor; [intros [E|Hin]; [congruence|exact (Hal Hin)]|]. constructor; assumption.
    - constructor; [exact Ha|]. constructor; assumption.
  Qed.
  Lemma off_mask board c : N.testbit board c = false -> ~ In c (mask_cards board).
  Proof. intros Hc Hin. apply filter_In in Hin as [_ Hin]. congruence. Qed.
  Lemma now_cards board h : off_board board h -> cards (now board h).
  Proof.
    intros ((H1 & H2 & H3) & H4 & H5). unfold now, two_cards. cbn [app].
    apply two_more; [exact H1|exact H2|exact H3|apply off_mask; exact H4|apply off_mask; exact H5|apply mask_cards_ok].
  Qed.

  Lemma set_ranks_ok board ranges hr : (length (mask_cards board) <= 5)%nat -> Forall (Forall (off_board board)) ranges ->
    length hr = (NUM_HANDS * length ranges)%nat ->
    exists hr', set_ranks p board ranges hr = Ret hr' /\ length hr' = length hr /\
      forall i j, (i < length ranges)%nat -> (j < NUM_HANDS)%nat -> unth (NUM_HANDS * i + j)%nat hr' =
        match last_at i (nth i ranges []) (NUM_HANDS * i + j)%nat with
        | Some h => with_rank (unth (NUM_HANDS * i + j)%nat hr) (category_of (now board h)) (draw_of board h)
        | None => unth (NUM_HANDS * i + j)%nat hr
        end.
  Proof.
    intros Hb HF Hl. unfold set_ranks.
    destruct (from_bit_mask_of p board) as (b & Eb & Hbo); [apply fits_of_length; lia|]. rewrite Eb. cbn [bind]. cbv zeta.
    assert (Hcnt : (count_ones (mask b) <? 5) = (length (mask_cards board) <? 5)%nat).
    { destruct Hbo as [_ ->]. rewrite ones_mask_of by apply mask_cards_ok.
      destruct (N.ltb_spec (N.of_nat (length (mask_cards board))) 5), (Nat.ltb_spec (length (mask_cards board)) 5); lia. }
    rewrite Hcnt. clear Hcnt.
    apply (players_fold (Forall (off_board board)) (length ranges) _
      (fun i hands k u => match last_at i hands k with Some h => with_rank u (category_of (now board h)) (draw_of board h) | None => u end)); try assumption; try reflexivity.
    - intros i hands hr0 Hi Hh Hl0.
      assert (Hhole : Forall hole_hand hands) by (eapply Forall_impl; [|exact Hh]; intros h Hx; apply Hx).
      destruct (slots_fold (length ranges) i (fun h u => with_rank u (category_of (now board h)) (draw_of board h)) hands Hi Hhole hr0 Hl0) as (hr1 & E1 & L1 & N1).
      exists hr1. split; [|split; [exact L1|]].
      + rewrite <- E1. apply foldM_ext. intros s h Hin. rewrite Forall_forall in Hh. specialize (Hh h Hin).
        pose proof (now_cards board h Hh) as Hcards. destruct Hh as ((H1 & H2 & H3) & _).
        destruct (from_hole_cards_of p (c_1 h) (c_2 h) H1 H2) as (hc & Eh & Hho). unfold draw_of. rewrite Eh, Eb. cbn [bind].
        assert (Hlen : (length (now board h) <= 7)%nat) by (unfold now; rewrite app_length; cbn [two_cards length]; lia).
        assert (Hof : exists x, hand_add p b hc = Ret x /\ hand_of base (now board h) x).
        { destruct (hand_add_of p base 0 (mask_cards board) [c_1 h; c_2 h] b hc) as (x & Ex & Hx); try assumption.
          - reflexivity.
          - rewrite app_length. cbn [length]. lia.
          - apply small_fits. rewrite app_length. cbn [length]. lia.
          - exists x. split; [exact Ex|]. rewrite N.add_0_r in Hx. eapply hand_of_perm; [|exact Hx]. apply Permutation.Permutation_app_comm. }
        destruct Hof as (x & Ex & Hx). rewrite Ex. cbn [bind].
        destruct (evaluate_of (now board h) x Hcards Hlen Hx) as (v & Ev & Hv). rewrite Ev. cbn [bind].
        assert (Hv4 : v / 4096 = category_of (now board h) + 1).
        { apply valued_category; [apply Hv; unfold now; rewrite app_length; cbn [two_cards length]; lia|apply best_nonempty]. }
        pose proof (category_le (now board h)) as Hle. unfold HAND_CATEGORY_OFFSET. change 0x1000 with 4096. rewrite Hv4.
        rewrite trunc_small by (change (2 ^ 8) with 256; lia). rewrite (proj2 (N.ltb_lt 0 (category_of (now board h) + 1))) by lia.
        rewrite N.add_sub. destruct (length (mask_cards board) <? 5)%nat.
        * destruct (get_draw_ok p [c_1 h; c_2 h] (mask_cards board) hc b Hcards Hlen Hho Hbo (category_of (now board h))) as (d & Ed & _).
          { intros E5. apply category_flush in E5. exact E5. }
          rewrite Ed. cbn [bind]. destruct (hand_slot p i h); reflexivity.
        * cbn [bind]. destruct (hand_slot p i h); reflexivity.
      + intros k. rewrite N1. apply touch_last. reflexivity.
    - intros i hands k u Hh Hk. destruct (last_at i hands k) as [h|] eqn:E; [|reflexivity]. apply last_at_some in E as [Hin E].
      rewrite Forall_forall in Hh. destruct (hand_slot_ok i h (proj1 (Hh h Hin))) as [_ Hs]. lia.
  Qed.
End Slots.
