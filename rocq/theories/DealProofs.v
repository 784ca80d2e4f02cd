(* What one position decodes to, and what the board enumeration of one deal counts. *)
From Verif Require Import Base BaseProofs SumFacts Ghost Float64 Hand HandProofs HandExprProofs Range FastDivide FastDivideProofs Combined Sim SpecPoker SpecNames SpecHand SpecRange SpecEquity SpecResults SpecRun
  EnumProofs ShowdownProofs BoardProofs CombinedProofs PositionProofs MergeProofs MachineProofs SetupProofs ExactProofs ResultProofs CombineRunProofs.
From Coq Require Import Permutation.
Local Open Scope N_scope.
#[local] Opaque NUM_HANDS.

(* ------------------------------------------------------------------------- *)
(** * Positions *)

Lemma combine_ok p ranges board dead fr crs : Forall range_ok ranges -> (length ranges <= 9)%nat ->
  combine_ranges p ranges board dead = Ret (ROk (fr, crs)) ->
  fr = filtered board dead ranges /\ exists pss, members fr pss crs /\ settled crs /\ Forall (fun ps => 0 < size_of fr ps) pss.
Proof.
  intros Hr H9 H. pose proof (ok_hole _ Hr) as Hh. unfold combine_ranges in H. rewrite (filter_ranges_ok p board dead ranges Hh) in H. cbn [bind] in H.
  destruct (from_ranges_ok p (filtered board dead ranges) (filtered_ok _ board dead ranges Hh) ltac:(rewrite filtered_length; exact H9)) as (pss & crs' & Efr & [HF HP] & Hset).
  rewrite Efr in H. cbn [bind] in H. destruct (existsb (fun cr => cr_size cr =? 0) crs') eqn:Ee; [discriminate|]. injection H as <- <-. split; [reflexivity|].
  exists pss. split; [split; assumption|]. split; [exact Hset|]. clear - HF Ee. induction HF as [|ps cr pss crs (Hp & _) _ IH]; constructor; cbn [existsb] in Ee; apply orb_false_iff in Ee as [E1 E2].
  - apply N.eqb_neq in E1. rewrite (range_is_size _ _ _ Hp) in E1. lia.
  - apply IH. exact E2.
Qed.

Lemma concat_short {A} (ls : list (list A)) k : (length (concat ls) <= k)%nat -> Forall (fun l => (length l <= k)%nat) ls.
Proof. induction ls as [|l ls IH]; intros H; constructor; cbn [concat] in H; rewrite app_length in H; [lia|apply IH; lia]. Qed.
Lemma sizes_prod ranges pss crs : Forall2 (range_is ranges) pss crs -> prod_of cr_size crs = positions ranges pss.
Proof.
  induction 1 as [|ps cr pss crs H _ IH]; [reflexivity|]. change (cr_size cr * prod_of cr_size crs = size_of ranges ps * positions ranges pss).
  rewrite IH, (range_is_size _ _ _ H). reflexivity.
Qed.

Lemma decode_deals p ranges board dead fr crs : usable ranges -> (length ranges <= 9)%nat -> combine_ranges p ranges board dead = Ret (ROk (fr, crs)) ->
  exists dvs, mapM (fun cr => divide_by p (cr_size cr)) crs = Ret dvs /\
  exists deal : N -> option (list whand),
    (forall x, x < prod_of cr_size crs -> decoded p dvs crs (length ranges) board dead x (deal x)) /\
    Permutation (flat_map (fun x => match deal x with Some d => [d] | None => [] end) (nseq 0 (N.to_nat (prod_of cr_size crs)))) (deals ranges board dead).
Proof.
  intros [Hr Hsize] H9 Hc. destruct (combine_ok p ranges board dead fr crs Hr H9 Hc) as (-> & pss & [Hmem HP] & _ & Hpos).
  set (fr := filtered board dead ranges) in *. assert (Hfn : length fr = length ranges) by apply filtered_length.
  assert (HF : Forall2 (range_is fr) pss crs) by (clear - Hmem; induction Hmem as [|ps cr pss crs (H & _) _ IH]; constructor; assumption).
  pose proof (sizes_prod fr pss crs HF) as Htot. rewrite Htot.
  assert (Hlt : positions fr pss < 2 ^ 63).
  { eapply N.le_lt_trans; [apply positions_prod; exact HP|]. eapply N.le_lt_trans; [apply filtered_prod|exact Hsize]. }
  assert (Hlt64 : positions fr pss < 2 ^ 64) by (revert Hlt; change (2 ^ 63) with 9223372036854775808; change (2 ^ 64) with 18446744073709551616; lia).
  destruct (dividers_ok p fr pss crs HF Hpos) as (dvs & Ed & HD).
  { eapply Forall_impl; [|apply (size_positions fr pss Hpos)]. cbv beta. intros ps Hps. lia. }
  exists dvs. split; [exact Ed|]. exists (fun x => if ok_at fr pss board dead x then Some (deal_at fr pss x) else None). split.
  - intros x Hx. unfold decoded. cbv zeta.
    assert (Hk9 : Forall (fun i => (i < 9)%nat) (concat pss)) by (apply Forall_forall; intros i Hi; apply (Permutation_in _ HP), in_seq in Hi; lia).
    assert (Hl9 : Forall (fun ps : list nat => (length ps <= 9)%nat) pss) by (apply concat_short; rewrite (Permutation_length HP), seq_length; lia).
    pose proof (decode_ok p fr pss crs dvs x (N.lor board dead) (repeat hwi_default MAX_PLAYERS) HF HD Hpos Hk9 Hl9 ltac:(lia) (repeat_length _ _)) as Hdec.
    cbv zeta in Hdec. change MAX_PLAYERS with 9%nat in Hdec.
    assert (Hcc : distinct (dealt (concat (dec fr pss x))) && negb (clash (N.lor board dead) (dealt (concat (dec fr pss x)))) = ok_at fr pss board dead x).
    { unfold ok_at, possible. f_equal. unfold clash. generalize (dealt (concat (dec fr pss x))). clear.
      induction l as [|c l IH]; [reflexivity|]. cbn [existsb forallb]. rewrite <- IH, negb_orb, N.lor_spec. reflexivity. }
    rewrite Hcc in Hdec. clear Hcc. destruct (ok_at fr pss board dead x) eqn:Eok; [|exact Hdec].
    destruct Hdec as (used & Edec & Hu). exists used. eexists. split; [exact Edec|]. clear Edec.
    set (phs := place (combine (concat pss) (concat (dec fr pss x))) (repeat hwi_default 9)) in *.
    assert (Hkeys : map fst (combine (concat pss) (concat (dec fr pss x))) = concat pss) by (apply combine_fst, dec_concat; exact Hpos).
    assert (Hph : forall i, (i < length ranges)%nat -> nth_error phs i = Some {| h_cards := holding (deal_at fr pss x) i; h_player_idx := i |}).
    { intros i Hi. rewrite <- Hfn in Hi. rewrite (deal_at_holding fr pss x i Hi).
      destruct (combine_key (concat pss) (concat (dec fr pss x)) i) as (h & Hh); [apply dec_concat; exact Hpos|apply (key_nth fr); [exact HP|exact Hi]|].
      rewrite (seat_in _ i h); [|rewrite Hkeys; apply (keys_NoDup fr); exact HP|exact Hh].
      apply place_in; [rewrite Hkeys; apply (keys_NoDup fr); exact HP|exact Hh|]. rewrite repeat_length. lia. }
    assert (Hdl : length (deal_at fr pss x) = length ranges) by (rewrite deal_at_length; exact Hfn).
    split; [|split].
    + apply nth_error_ext. intros k. rewrite map_nth_error'. destruct (Nat.ltb_spec k (length ranges)) as [Hkl|Hkl].
      * rewrite nth_error_firstn, (Hph k Hkl) by exact Hkl. cbn [option_map h_cards]. symmetry. apply nth_error_nth'. rewrite Hdl. exact Hkl.
      * transitivity (@None whand); [|symmetry; apply (proj2 (nth_error_None (deal_at fr pss x) k)); rewrite Hdl; exact Hkl].
        rewrite (proj2 (nth_error_None (firstn (length ranges) phs) k)); [reflexivity|]. rewrite firstn_length. lia.
    + apply nth_error_ext. intros k. rewrite map_nth_error'. destruct (Nat.ltb_spec k (length ranges)) as [Hkl|Hkl].
      * rewrite nth_error_firstn, (Hph k Hkl) by exact Hkl. cbn [option_map h_player_idx]. symmetry.
        rewrite (nth_error_nth' (seq 0 (length ranges)) 0%nat) by (rewrite seq_length; exact Hkl). rewrite seq_nth by exact Hkl. reflexivity.
      * rewrite (proj2 (nth_error_None (firstn (length ranges) phs) k)) by (rewrite firstn_length; lia). symmetry. apply nth_error_None. rewrite seq_length. exact Hkl.
    + intros c. rewrite Hu, N.lor_spec. unfold on_table. f_equal.
      pose proof (dealt_perm _ _ (deal_at_perm fr pss HP Hpos x)) as HPd.
      destruct (existsb (N.eqb c) (dealt (concat (dec fr pss x)))) eqn:E1, (existsb (N.eqb c) (dealt (deal_at fr pss x))) eqn:E2; try reflexivity; exfalso.
      * apply existsb_eqb_In in E1. apply (Permutation_in _ (Permutation_sym HPd)), existsb_eqb_In in E1. congruence.
      * apply existsb_eqb_In in E2. apply (Permutation_in _ HPd), existsb_eqb_In in E2. congruence.
  - rewrite <- (deals_filtered board dead ranges). etransitivity; [|apply (deals_perm fr pss board dead HP Hpos)].
    change (nseq 0 (N.to_nat (positions fr pss))) with (upto (positions fr pss)). generalize (upto (positions fr pss)). clear.
    induction l as [|x l IH]; [constructor|]. cbn [flat_map filter]. destruct (ok_at fr pss board dead x); [|exact IH]. cbn [app map]. constructor. exact IH.
Qed.

(* ------------------------------------------------------------------------- *)
(** * One deal *)

Section One.
  Variable p : profile.
  Variable d : list whand.
  Hypothesis Hd : Forall hole_hand d.

  Lemma eff_mask m l : m < 2 ^ N.of_nat (length d) -> eff d (slot_of p d) (OMask (N.to_nat m)) l = if nats_eqb (first_eight (winners d l)) (players_of (length d) m) then 1 else 0.
  Proof. intros Hm. cbn [eff]. rewrite (wmask_players d l _ m eq_refl Hm). reflexivity. Qed.
  Lemma eff_total i a b l : (i < length d)%nat -> hole a b -> eff d (slot_of p d) (OHand FTotal (NUM_HANDS * i + idx p a b)) l = if holds i a b d then 1 else 0.
  Proof.
    intros Hi Hab. cbn [eff]. rewrite slot_exists; [|intros j Hj; apply in_seq in Hj; lia|exact Hd|exact Hab].
    replace (existsb (Nat.eqb i) (seq 0 (length d))) with true; [rewrite andb_true_r; reflexivity|]. symmetry. apply existsb_exists. exists i.
    split; [apply in_seq; lia|apply Nat.eqb_refl].
  Qed.
  Lemma eff_wins i a b l : (i < length d)%nat -> hole a b -> eff d (slot_of p d) (OHand FWins (NUM_HANDS * i + idx p a b)) l = if wins_with i a b d l then 1 else 0.
  Proof.
    intros Hi Hab. cbn [eff]. rewrite slot_exists; [|apply ResultProofs.winners_lt|exact Hd|exact Hab].
    unfold wins_with. rewrite <- single_winner. unfold b2n. destruct (holds i a b d), (length (winners d l) =? 1)%nat; reflexivity.
  Qed.
  Lemma eff_ties i a b l : (i < length d)%nat -> hole a b -> eff d (slot_of p d) (OHand FTies (NUM_HANDS * i + idx p a b)) l = if ties_with i a b d l then 1 else 0.
  Proof.
    intros Hi Hab. cbn [eff]. rewrite slot_exists; [|apply ResultProofs.winners_lt|exact Hd|exact Hab].
    unfold ties_with. rewrite <- andb_assoc, <- many_winners. unfold b2n. destruct (holds i a b d), (length (winners d l) =? 1)%nat; reflexivity.
  Qed.
End One.

Lemma one_deal p board dead d w phs used : Forall hole_hand d -> possible board dead d = true -> (length d <= 9)%nat ->
  (length (mask_cards board) <= 5)%nat -> w < 2 ^ 64 ->
  (forall i, (i < length d)%nat -> exists h, nth_error phs i = Some h /\ h_cards h = holding d i) ->
  (forall c, c < 52 -> N.testbit used c = on_table board dead c || existsb (N.eqb c) (dealt d)) ->
  exists bd st0, from_bit_mask p board = Ret bd /\ stats_init (length d) = Ret st0 /\
    ((exists st, enumerate_board p (length d) phs w bd used st0 = Ret st /\ counted p board dead d w st) \/
     p = Debug /\ enumerate_board p (length d) phs w bd used st0 = Fail Overflow /\
     2 ^ 64 <= N.max 1 w * N.max 7776 (N.of_nat (length (boards board dead d)))).
Proof.
  intros Hd Hposs H9 Hb5 Hw Hph Hused.
  destruct (from_bit_mask_of p board) as (bd & Ebd & Hbd); [apply fits_of_length; lia|].
  destruct (stats_init_ok (length d) H9) as (ids & st0 & E0 & Hshape & Hids & Hzero).
  exists bd, st0. split; [exact Ebd|]. split; [exact E0|].
  set (nb := N.of_nat (length (boards board dead d))) in *.
  set (B := N.max 1 w * N.max 7776 nb < 2 ^ 64).
  destruct (enumerate_board_ok p B board dead d phs w w bd used ids) as (e & [He _] & Hrun); try assumption.
  - intros i Hi. destruct (Hph i Hi) as (h & Eh & Hh). exists h. split; [apply get_ret; exact Eh|exact Hh].
  - apply agr_small. exact Hw.
  - unfold B. change (6 ^ 5) with 7776. generalize (2 ^ 64). intros L HL. nia.
  - fold nb in He. assert (Heff : forall o, sumf (eff d (slot_of p d) o) (boards board dead d) <= nb) by (intros o; apply sum_one_le; intros L; apply eff_le).
    specialize (Hrun st0 (fun _ => 0) Hshape). destruct Hrun as [(st & Est & Hsh & Hst)|(Hp & Est & HnB)].
    + intros o. rewrite Hzero. apply agr_small. reflexivity.
    + unfold B. intros b o. rewrite N.add_0_l. specialize (Heff o). destruct o as [m|f k|]; cbn [gain]; revert b; generalize (2 ^ 64); intros L b; nia.
    + left. exists st. split; [exact Est|].
      assert (Hcnt : forall o (what : list N -> bool), counts o -> (forall l, eff d (slot_of p d) o l = if what l then 1 else 0) -> counter p (rd o st) (w * boards_with board dead d what)).
      { intros o what Ho He2. specialize (Hst o). rewrite N.add_0_l in Hst. unfold boards_with.
        replace (sum_of (fun l => if what l then 1 else 0) (boards board dead d)) with (sumf (eff d (slot_of p d) o) (boards board dead d)).
        - destruct o; [exact Hst|exact Hst|contradiction].
        - etransitivity; [|apply sumf_sum_of]. apply sumf_ext. intros l _. apply He2. }
      split; [|split].
      * intros m Hm. apply (Hcnt (OMask (N.to_nat m))); [exact I|]. intros l. apply eff_mask. exact Hm.
      * intros i a b k Hi Hab Ek. cbv zeta. change 1326%nat with NUM_HANDS.
        assert (Ei : N.to_nat k = idx p a b) by (unfold idx; rewrite Ek; reflexivity). rewrite Ei.
        split; [|split].
        -- apply (Hcnt (OHand FTotal (NUM_HANDS * i + idx p a b)) (fun _ => holds i a b d)); [exact I|]. intros l. apply eff_total; assumption.
        -- apply (Hcnt (OHand FWins (NUM_HANDS * i + idx p a b)) (fun l => wins_with i a b d l)); [exact I|]. intros l. apply eff_wins; assumption.
        -- apply (Hcnt (OHand FTies (NUM_HANDS * i + idx p a b)) (fun l => ties_with i a b d l)); [exact I|]. intros l. apply eff_ties; assumption.
      * specialize (Hst OCount). rewrite N.add_0_l in Hst. cbn [rd gain] in Hst. fold nb. destruct p; cbn [agr] in Hst; [lia|].
        rewrite Hst. eapply N.le_trans; [apply N.mod_le; discriminate|exact He].
    + right. split; [exact Hp|]. split; [exact Est|]. unfold B in HnB. lia.
Qed.
