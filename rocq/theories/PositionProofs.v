(* Positions and deals: every position decodes to one choice of combos, and the possible deals
   are each decoded from one position. *)
From Verif Require Import Base BaseProofs SumFacts Ghost Hand FastDivide FastDivideProofs Range Combined Sim SpecPoker ListFacts
  HandProofs HandExprProofs SpecNames SpecHand SpecEquity EnumProofs ShowdownProofs BoardProofs CombinedProofs.
From Coq Require Import Permutation.
Local Open Scope N_scope.

(* ------------------------------------------------------------------------- *)
(** * Assigning hands to players *)

Fixpoint place (l : list (nat * whand)) (phs : list hwi) : list hwi :=
  match l with
  | [] => phs
  | (i, h) :: l' => place l' (set_nth phs i {| h_cards := h; h_player_idx := i |})
  end.
Definition seat (l : list (nat * whand)) (i : nat) : whand :=
  match find (fun x => (fst x =? i)%nat) l with Some x => snd x | None => (0, 0, 0) end.
Definition assemble (n : nat) (l : list (nat * whand)) : list whand := map (seat l) (seq 0 n).

Lemma place_app l l' phs : place (l ++ l') phs = place l' (place l phs).
Proof. revert phs. induction l as [|[i h] l IH]; intros phs; [reflexivity|]. cbn [app place]. apply IH. Qed.
Lemma place_length l phs : length (place l phs) = length phs.
Proof. revert phs. induction l as [|[i h] l IH]; intros phs; [reflexivity|]. cbn [place]. rewrite IH. apply set_nth_length. Qed.
Lemma place_other l phs i : ~ In i (map fst l) -> nth_error (place l phs) i = nth_error phs i.
Proof.
  revert phs. induction l as [|[k h] l IH]; intros phs H; [reflexivity|]. cbn [place]. cbn [map fst] in H. rewrite IH.
  - apply set_nth_other. intros ->. apply H. left. reflexivity.
  - intros Hin. apply H. right. exact Hin.
Qed.
Lemma place_in l phs i h : NoDup (map fst l) -> In (i, h) l -> (i < length phs)%nat ->
  nth_error (place l phs) i = Some {| h_cards := h; h_player_idx := i |}.
Proof.
  revert phs. induction l as [|[k g] l IH]; intros phs Hn Hin Hi; [contradiction|]. cbn [map fst] in Hn. inversion Hn; subst. cbn [place].
  destruct Hin as [E|Hin].
  - inversion E; subst. rewrite place_other by assumption. apply set_nth_same. exact Hi.
  - apply IH; [assumption|exact Hin|]. rewrite set_nth_length. exact Hi.
Qed.
Lemma seat_in l i h : NoDup (map fst l) -> In (i, h) l -> seat l i = h.
Proof.
  unfold seat. induction l as [|[k g] l IH]; intros Hn Hin; [contradiction|]. cbn [map fst] in Hn. inversion Hn; subst. cbn [find fst].
  destruct (Nat.eqb_spec k i) as [->|Hne].
  - destruct Hin as [E|Hin]; [inversion E; reflexivity|]. exfalso. apply H1. change i with (fst (i, h)). apply in_map. exact Hin.
  - destruct Hin as [E|Hin]; [inversion E; congruence|]. apply IH; assumption.
Qed.
Lemma assemble_perm n l l' : NoDup (map fst l) -> Permutation l l' -> assemble n l = assemble n l'.
Proof.
  intros Hn HP. unfold assemble. apply map_ext. intros i.
  destruct (find (fun x => (fst x =? i)%nat) l) as [[k h]|] eqn:E.
  - pose proof (find_some _ _ E) as [H1 H2]. cbn [fst] in H2. apply Nat.eqb_eq in H2. subst k.
    rewrite (seat_in l i h Hn H1). symmetry. apply seat_in.
    + eapply Permutation_NoDup; [apply Permutation_map; exact HP|exact Hn].
    + eapply Permutation_in; [exact HP|exact H1].
  - assert (E' : find (fun x => (fst x =? i)%nat) l' = None).
    { destruct (find _ l') as [[k h]|] eqn:E'; [|reflexivity]. exfalso. apply find_some in E' as [H1 H2].
      apply (Permutation_in _ (Permutation_sym HP)) in H1. apply (find_none _ _ E) in H1. congruence. }
    unfold seat. rewrite E, E'. reflexivity.
Qed.

Lemma combine_fst {A C} (l : list A) (l' : list C) : length l = length l' -> map fst (combine l l') = l.
Proof. revert l'. induction l as [|x l IH]; intros [|y l'] H; cbn in *; try discriminate; [reflexivity|]. f_equal. apply IH. lia. Qed.
Lemma combine_snd {A C} (l : list A) (l' : list C) : length l = length l' -> map snd (combine l l') = l'.
Proof. revert l'. induction l as [|x l IH]; intros [|y l'] H; cbn in *; try discriminate; [reflexivity|]. f_equal. apply IH. lia. Qed.
Lemma combine_app {A C} (l1 l2 : list A) (k1 k2 : list C) : length l1 = length k1 ->
  combine (l1 ++ l2) (k1 ++ k2) = combine l1 k1 ++ combine l2 k2.
Proof. revert k1. induction l1 as [|x l1 IH]; intros [|y k1] H; cbn in *; try discriminate; [reflexivity|]. f_equal. apply IH. lia. Qed.

Lemma assemble_seq hs : assemble (length hs) (combine (seq 0 (length hs)) hs) = hs.
Proof.
  unfold assemble. apply nth_error_ext. intros k. rewrite map_nth_error'.
  destruct (Nat.ltb_spec k (length hs)) as [Hk|Hk].
  - assert (E : nth_error (seq 0 (length hs)) k = Some k).
    { rewrite (nth_error_nth' _ 0%nat) by (rewrite seq_length; exact Hk). f_equal. apply seq_nth. exact Hk. }
    rewrite E. cbn [option_map]. destruct (nth_error hs k) as [h|] eqn:Eh; [|apply nth_error_None in Eh; lia]. f_equal.
    apply seat_in.
    + rewrite combine_fst by (rewrite seq_length; reflexivity). apply seq_NoDup.
    + assert (Hc : nth_error (combine (seq 0 (length hs)) hs) k = Some (k, h)).
      { clear - E Eh. revert k E Eh. generalize (seq 0 (length hs)). intros l k. revert l k.
        induction hs as [|x hs IH]; intros l k E Eh; [destruct k; discriminate|]. destruct l as [|y l]; [destruct k; discriminate|].
        assert (G : forall (l : list nat) hs k a h, nth_error l k = Some a -> nth_error hs k = Some h -> nth_error (combine l hs) k = Some (a, h : whand)).
        { clear. induction l as [|y l IH]; intros [|x hs] [|k] a h E1 E2; cbn in *; try discriminate; [congruence|]. apply IH; assumption. }
        apply G; assumption. }
      eapply nth_error_In. exact Hc.
  - rewrite (proj2 (nth_error_None hs k)) by exact Hk. rewrite (proj2 (nth_error_None (seq 0 (length hs)) k)) by (rewrite seq_length; exact Hk). reflexivity.
Qed.

(* ------------------------------------------------------------------------- *)
(** * Decoding a position *)

Definition clash (u : N) (l : list N) : bool := existsb (N.testbit u) l.

Lemma clash_land u m l : mask_is m l -> (N.land u m =? 0) = negb (clash u l).
Proof.
  intros H. destruct (N.eqb_spec (N.land u m) 0) as [E|E]; symmetry.
  - apply negb_true_iff, not_true_is_false. intros Hs. apply existsb_exists in Hs as (c & Hc & Hu).
    assert (N.testbit (N.land u m) c = true); [|rewrite E, N.bits_0 in *; discriminate].
    rewrite N.land_spec, H, Hu. apply existsb_eqb_In. exact Hc.
  - apply negb_false_iff. destruct (clash u l) eqn:Es; [reflexivity|]. exfalso. apply E. apply N.bits_inj. intros c.
    rewrite N.land_spec, H, N.bits_0. destruct (existsb (N.eqb c) l) eqn:E1; [|apply andb_false_r]. rewrite andb_true_r.
    apply not_true_is_false. intros E2. assert (clash u l = true); [|congruence]. apply existsb_exists. exists c.
    split; [apply existsb_eqb_In; exact E1|exact E2].
Qed.
Lemma clash_lor u m l l' : mask_is m l -> clash (N.lor u m) l' = clash u l' || shares l l'.
Proof.
  intros H. rewrite shares_sym. unfold clash, shares. induction l' as [|c l' IH]; [reflexivity|]. cbn [existsb].
  rewrite IH, N.lor_spec, H. destruct (N.testbit u c), (existsb (N.eqb c) l), (existsb (N.testbit u) l'); reflexivity.
Qed.
Lemma clash_app u l l' : clash u (l ++ l') = clash u l || clash u l'.
Proof. apply existsb_app. Qed.

Lemma firstn_combine {A C} k : forall (l : list A) (l' : list C), firstn k (combine l l') = combine (firstn k l) (firstn k l').
Proof. induction k as [|k IH]; intros [|x l] [|y l']; cbn; try reflexivity. f_equal. apply IH. Qed.

Lemma deal_combo_ok ranges ps cr hs c phs : range_is ranges ps cr -> combo_is (length ps) hs c ->
  (length ps <= 9)%nat -> Forall (fun i => (i < 9)%nat) ps -> length phs = 9%nat ->
  deal_combo c cr phs = Ret (place (combine ps hs) phs).
Proof.
  intros (Hc & Hp & Hl & _ & _) (Hlh & Hh & Hlc & _) Hn9 H9 Hlen. unfold deal_combo. rewrite Hc.
  assert (H : forall k, (k <= length ps)%nat -> foldM (fun phs j => idx <- get (cr_players cr) j ;; x <- get (cc_hole c) j ;;
           upd phs idx {| h_cards := x; h_player_idx := idx |}) (seq 0 k) phs = Ret (place (firstn k (combine ps hs)) phs)).
  { induction k as [|k IH]; intros Hk; [reflexivity|]. rewrite seq_S, foldM_app, IH by lia. cbn [bind foldM Nat.add].
    destruct (nth_error ps k) as [i|] eqn:Ei; [|apply nth_error_None in Ei; lia].
    destruct (nth_error hs k) as [h|] eqn:Eh; [|apply nth_error_None in Eh; lia].
    assert (E1 : get (cr_players cr) k = Ret i).
    { apply get_ret. rewrite <- (nth_error_firstn (cr_players cr) (length ps)), Hp by lia. exact Ei. }
    assert (E2 : get (cc_hole c) k = Ret h).
    { apply get_ret. rewrite <- (nth_error_firstn (cc_hole c) (length ps)) by lia. transitivity (nth_error hs k); [|exact Eh].
      rewrite <- Hh. reflexivity. }
    rewrite E1. cbn [bind]. rewrite E2. cbn [bind].
    assert (Hi : (i < length (place (firstn k (combine ps hs)) phs))%nat).
    { rewrite place_length, Hlen. rewrite Forall_forall in H9. apply H9. eapply nth_error_In. exact Ei. }
    rewrite upd_ok by exact Hi. cbn [bind]. f_equal.
    assert (E3 : firstn (S k) (combine ps hs) = firstn k (combine ps hs) ++ [(i, h)]).
    { clear - Ei Eh. revert k hs Ei Eh. induction ps as [|x ps IH]; intros [|k] [|y hs] Ei Eh; cbn in Ei, Eh; try discriminate.
      - inversion Ei; inversion Eh. reflexivity.
      - change (firstn (S (S k)) (combine (x :: ps) (y :: hs))) with ((x, y) :: firstn (S k) (combine ps hs)). rewrite (IH k hs Ei Eh). reflexivity. }
    rewrite E3, place_app. reflexivity. }
  rewrite (H (length ps) (le_n _)). rewrite firstn_all2; [reflexivity|]. rewrite combine_length. lia.
Qed.

Section Positions.
  Variable p : profile.
  Variable ranges : list (list whand).

  Definition fairs (ps : list nat) : list (list whand) := fair (map (range_of ranges) ps).
  Definition size_of (ps : list nat) : N := N.of_nat (length (fairs ps)).
  Fixpoint dec (pss : list (list nat)) (x : N) : list (list whand) :=
    match pss with
    | [] => []
    | ps :: pss' => nth (N.to_nat (x mod size_of ps)) (fairs ps) [] :: dec pss' (x / size_of ps)
    end.
  Definition positions (pss : list (list nat)) : N := fold_right (fun ps n => size_of ps * n) 1 pss.

  Lemma dec_nth_in ps x : 0 < size_of ps -> In (nth (N.to_nat (x mod size_of ps)) (fairs ps) []) (fairs ps).
  Proof.
    intros H. apply nth_In. assert (x mod size_of ps < size_of ps) by (apply N.mod_lt; lia). unfold size_of in *. lia.
  Qed.
  Lemma dec_lengths pss : Forall (fun ps => 0 < size_of ps) pss -> forall x, Forall2 (fun ps hs => length ps = length hs) pss (dec pss x).
  Proof.
    induction 1 as [|ps pss H _ IH]; intros x; cbn [dec]; constructor; [|apply IH].
    pose proof (dec_nth_in ps x H) as Hin. apply fair_In in Hin as [Hin _]. apply CombinedProofs.Forall2_length in Hin. rewrite map_length in Hin. symmetry. exact Hin.
  Qed.
  Lemma dec_concat pss x : Forall (fun ps => 0 < size_of ps) pss -> length (concat pss) = length (concat (dec pss x)).
  Proof.
    intros H. pose proof (dec_lengths pss H x) as H2. induction H2 as [|ps hs pss' parts E _ IH]; [reflexivity|]. cbn [concat].
    rewrite !app_length, E. f_equal. apply IH. inversion H; assumption.
  Qed.

  Lemma decode_ok : forall pss crs dvs x used phs, Forall2 (range_is ranges) pss crs ->
    Forall2 (fun ps dv => divides p dv (size_of ps)) pss dvs -> Forall (fun ps => 0 < size_of ps) pss ->
    Forall (fun i => (i < 9)%nat) (concat pss) -> Forall (fun ps => (length ps <= 9)%nat) pss -> x < 2 ^ 64 -> length phs = 9%nat ->
    let cs := dealt (concat (dec pss x)) in
    if distinct cs && negb (clash used cs)
    then exists used', decode_position p (combine dvs crs) x used phs =
           Ret (Some (used', place (combine (concat pss) (concat (dec pss x))) phs)) /\
         forall c, N.testbit used' c = N.testbit used c || existsb (N.eqb c) cs
    else decode_position p (combine dvs crs) x used phs = Ret None.
  Proof.
    induction pss as [|ps pss IH]; intros crs dvs x used phs HF HD Hpos H9 Hl9 Hx Hlen.
    - inversion HF; subst. inversion HD; subst. cbn. exists used. split; [reflexivity|]. intros c. rewrite orb_false_r. reflexivity.
    - inversion HF as [|? cr ? crs' Hcr HF']; subst. inversion HD as [|? dv ? dvs' Hdv HD']; subst.
      inversion Hpos as [|? ? Hp0 Hpos']; subst. inversion Hl9 as [|? ? Hlp Hl9']; subst. cbn [concat] in H9. apply Forall_app in H9 as [H9 H9'].
      cbn [combine decode_position dec]. set (hs := nth (N.to_nat (x mod size_of ps)) (fairs ps) []).
      rewrite (Hdv x Hx). cbn [bind].
      pose proof Hcr as (Hcnt & _ & _ & Hsize & Hcombos).
      assert (Hsz : cr_size cr = size_of ps) by (rewrite Hsize; unfold size_of, fairs; rewrite (CombinedProofs.Forall2_length _ _ _ Hcombos); reflexivity).
      rewrite Hsz. assert (Hmul : x / size_of ps * size_of ps <= x) by (rewrite N.mul_comm; apply N.mul_div_le; lia).
      rewrite mul_ok by lia. cbn [bind]. rewrite sub_ok by lia. cbn [bind].
      assert (Hrem : x - x / size_of ps * size_of ps = x mod size_of ps).
      { rewrite N.mod_eq by lia. f_equal. apply N.mul_comm. }
      rewrite Hrem.
      assert (Hlt : x mod size_of ps < size_of ps) by (apply N.mod_lt; lia).
      assert (Hhs : nth_error (fairs ps) (N.to_nat (x mod size_of ps)) = Some hs).
      { apply nth_error_nth'. unfold size_of in Hlt. unfold size_of. lia. }
      assert (Hc : exists c, get (cr_combos cr) (N.to_nat (x mod size_of ps)) = Ret c /\ combo_is (length ps) hs c).
      { unfold fairs in Hhs. clear - Hcombos Hhs. revert Hhs. generalize (N.to_nat (x mod size_of ps)). induction Hcombos as [|a c A C Hac _ IH]; intros [|k] E; cbn in E; try discriminate.
        - inversion E; subst. exists c. split; [reflexivity|exact Hac].
        - destruct (IH k E) as (c' & Ec & Hc). exists c'. split; [|exact Hc]. apply get_ret. cbn. apply get_ret. exact Ec. }
      destruct Hc as (c & Ec & Hc). rewrite Ec. cbn [bind].
      pose proof Hc as (Hlh & _ & _ & _ & Hmask & _).
      rewrite (clash_land used _ _ Hmask), negb_involutive.
      assert (Hdist : distinct (dealt hs) = true) by (apply nth_error_In in Hhs; apply fair_In in Hhs; apply Hhs).
      cbn [concat]. rewrite dealt_app. cbv zeta. rewrite distinct_app, clash_app, Hdist. cbn [andb].
      destruct (clash used (dealt hs)) eqn:Eclash; cbn [orb negb]; [rewrite andb_false_r; reflexivity|].
      rewrite (deal_combo_ok ranges ps cr hs c phs Hcr Hc Hlp H9 Hlen). cbn [bind].
      specialize (IH crs' dvs' (x / size_of ps) (N.lor used (cc_mask c)) (place (combine ps hs) phs) HF' HD' Hpos' H9' Hl9').
      cbv zeta in IH. rewrite (clash_lor used _ _ _ Hmask) in IH.
      assert (Hx' : x / size_of ps < 2 ^ 64) by (eapply N.le_lt_trans; [apply N.div_le_upper_bound with (q := x); nia|exact Hx]).
      assert (Hlen' : length (place (combine ps hs) phs) = 9%nat) by (rewrite place_length; exact Hlen).
      specialize (IH Hx' Hlen'). rewrite negb_orb in IH.
      destruct (distinct (dealt (concat (dec pss (x / size_of ps))))), (shares (dealt hs) (dealt (concat (dec pss (x / size_of ps))))),
        (clash used (dealt (concat (dec pss (x / size_of ps))))); cbn [andb negb] in *; try exact IH.
      destruct IH as (used' & E' & Hu). exists used'. rewrite combine_app by (symmetry; exact Hlh). rewrite place_app. split; [exact E'|].
      intros c0. rewrite Hu, N.lor_spec, Hmask, existsb_app, orb_assoc. reflexivity.
  Qed.

  (* --------------------------------------------------------------------- *)
  (** ** Sums over positions *)

  Lemma sum_positions (F : list (list whand) -> N) : forall pss, Forall (fun ps => 0 < size_of ps) pss ->
    sumf (fun x => F (dec pss x)) (upto (positions pss)) = sumf F (picks (map fairs pss)).
  Proof.
    intros pss H. revert F. induction H as [|ps pss Hp _ IH]; intros F; cbn [positions fold_right map picks dec].
    - cbn. reflexivity.
    - fold (positions pss). rewrite (upto_mul (size_of ps) (positions pss) Hp (fun a b => F (nth (N.to_nat a) (fairs ps) [] :: dec pss b))).
      rewrite sumf_flat_map. unfold size_of at 1.
      transitivity (sumf (fun a => sumf (fun b => F (nth (N.to_nat a) (fairs ps) [] :: dec pss b)) (upto (positions pss))) (upto (N.of_nat (length (fairs ps))))).
      { apply sumf_swap. }
      rewrite (sum_upto_list (fun hs => sumf (fun b => F (hs :: dec pss b)) (upto (positions pss))) (fairs ps) []).
      apply sumf_ext. intros hs _. rewrite sumf_map. apply (IH (fun parts => F (hs :: parts))).
  Qed.
End Positions.

Lemma sum_concat ranges pss : forall F : list whand -> N, (forall a, distinct (dealt a) = false -> F a = 0) ->
  sumf (fun parts => F (concat parts)) (picks (map (fairs ranges) pss)) = sumf F (picks (map (range_of ranges) (concat pss))).
Proof.
  induction pss as [|ps pss IH]; intros F HF; [reflexivity|]. cbn [map picks concat]. rewrite map_app, picks_app, !sumf_flat_map.
  change (fairs ranges ps) with (filter (fun a => distinct (dealt a)) (picks (map (range_of ranges) ps))). rewrite sumf_filter. apply sumf_ext. intros a _. rewrite !sumf_map. cbn [concat].
  rewrite (IH (fun b => F (a ++ b))).
  - destruct (distinct (dealt a)) eqn:E; [reflexivity|]. symmetry. apply sumf_zero. intros b _. apply HF. rewrite dealt_app, distinct_app, E. reflexivity.
  - intros b Hb. apply HF. rewrite dealt_app, distinct_app, Hb, andb_false_r. reflexivity.
Qed.

Lemma sum_permuted ranges ks ks' : Permutation ks ks' -> forall K : list (nat * whand) -> N,
  (forall l l', Permutation (map fst l) ks -> Permutation l l' -> K l = K l') ->
  sumf (fun a => K (combine ks a)) (picks (map (range_of ranges) ks)) = sumf (fun a => K (combine ks' a)) (picks (map (range_of ranges) ks')).
Proof.
  induction 1 as [|x l l' HP IH|x y l|l l' l'' HP1 IH1 HP2 IH2]; intros K HK.
  - reflexivity.
  - cbn [map picks]. rewrite !sumf_flat_map. apply sumf_ext. intros h _. rewrite !sumf_map. cbn [combine].
    apply (IH (fun z => K ((x, h) :: z))). intros z z' Hz HPz. apply HK; [cbn [map fst]; constructor; exact Hz|constructor; exact HPz].
  - cbn [map picks]. rewrite !sumf_flat_map.
    assert (E : forall u v, sumf (fun h => sumf (fun a => K (combine (u :: v :: l) a))
        (map (cons h) (flat_map (fun g => map (cons g) (picks (map (range_of ranges) l))) (range_of ranges v)))) (range_of ranges u) =
      sumf (fun h => sumf (fun g => sumf (fun a => K ((u, h) :: (v, g) :: combine l a)) (picks (map (range_of ranges) l))) (range_of ranges v)) (range_of ranges u)).
    { intros u v. apply sumf_ext. intros h _. rewrite sumf_map, sumf_flat_map. apply sumf_ext. intros g _. rewrite sumf_map. reflexivity. }
    rewrite !E. rewrite (sumf_swap (fun h g => sumf (fun a => K ((x, h) :: (y, g) :: combine l a)) (picks (map (range_of ranges) l)))).
    apply sumf_ext. intros h _. apply sumf_ext. intros g _. apply sumf_ext. intros a Ha. apply HK; [|constructor].
    cbn [map fst]. rewrite combine_fst; [reflexivity|]. apply picks_length in Ha. rewrite map_length in Ha. congruence.
  - rewrite (IH1 K HK). apply IH2. intros z z' Hz. apply HK. etransitivity; [exact Hz|]. symmetry. exact HP1.
Qed.

Lemma dealt_perm d d' : Permutation d d' -> Permutation (dealt d) (dealt d').
Proof. intros H. apply Permutation_flat_map. exact H. Qed.
Lemma possible_perm board dead d d' : Permutation d d' -> possible board dead d = possible board dead d'.
Proof.
  intros H. assert (E : forall a b, Permutation a b -> possible board dead a = true -> possible board dead b = true).
  { clear. intros a b H. rewrite !possible_spec. intros [H1 H2]. pose proof (dealt_perm _ _ H) as HP. split.
    - eapply Permutation_NoDup; [exact HP|exact H1].
    - intros c Hc. apply H2. eapply Permutation_in; [symmetry; exact HP|exact Hc]. }
  destruct (possible board dead d) eqn:E1, (possible board dead d') eqn:E2; try reflexivity; exfalso.
  - rewrite (E _ _ H E1) in E2. discriminate.
  - rewrite (E _ _ (Permutation_sym H) E2) in E1. discriminate.
Qed.

Lemma map_range_of ranges : map (range_of ranges) (seq 0 (length ranges)) = ranges.
Proof.
  unfold range_of. induction ranges as [|r ranges IH]; [reflexivity|]. cbn [length seq map nth]. f_equal. rewrite <- seq_shift, map_map. exact IH.
Qed.

Section Deals.
  Variable ranges : list (list whand).
  Variable pss : list (list nat).
  Variable board dead : N.
  Hypothesis HP : Permutation (concat pss) (seq 0 (length ranges)).
  Hypothesis Hpos : Forall (fun ps => 0 < size_of ranges ps) pss.

  Definition ok_at (x : N) : bool := possible board dead (concat (dec ranges pss x)).
  Definition deal_at (x : N) : list whand := assemble (length ranges) (combine (concat pss) (concat (dec ranges pss x))).

  Lemma keys_NoDup : NoDup (concat pss).
  Proof. eapply Permutation_NoDup; [symmetry; exact HP|apply seq_NoDup]. Qed.

  Lemma sum_deals (G : list whand -> N) :
    sumf (fun x => if ok_at x then G (deal_at x) else 0) (upto (positions ranges pss)) = sumf G (deals ranges board dead).
  Proof.
    unfold ok_at, deal_at.
    rewrite (sum_positions ranges (fun parts => if possible board dead (concat parts) then G (assemble (length ranges) (combine (concat pss) (concat parts))) else 0) pss Hpos).
    rewrite (sum_concat ranges pss (fun a => if possible board dead a then G (assemble (length ranges) (combine (concat pss) a)) else 0)).
    2:{ intros a Ha. unfold possible. rewrite Ha. reflexivity. }
    set (K := fun l : list (nat * whand) => if possible board dead (map snd l) then G (assemble (length ranges) l) else 0).
    transitivity (sumf (fun a => K (combine (concat pss) a)) (picks (map (range_of ranges) (concat pss)))).
    { apply sumf_ext. intros a Ha. unfold K. rewrite combine_snd; [reflexivity|]. apply picks_length in Ha. rewrite map_length in Ha. congruence. }
    rewrite (sum_permuted ranges _ _ HP K).
    - rewrite map_range_of. unfold deals. rewrite sumf_filter. apply sumf_ext. intros a Ha. apply picks_length in Ha. unfold K.
      rewrite combine_snd by (rewrite seq_length; congruence). rewrite <- Ha, assemble_seq. reflexivity.
    - intros l l' Hl Hll. unfold K. rewrite (possible_perm board dead (map snd l) (map snd l')) by (apply Permutation_map; exact Hll).
      rewrite (assemble_perm _ l l'); [reflexivity| |exact Hll]. eapply Permutation_NoDup; [symmetry; exact Hl|exact keys_NoDup].
  Qed.

  Lemma key_nth i : (i < length ranges)%nat -> In i (concat pss).
  Proof. intros H. eapply Permutation_in; [symmetry; exact HP|]. apply in_seq. lia. Qed.
  Lemma combine_key {A C} (l : list A) (l' : list C) i : length l = length l' -> In i l -> exists h, In (i, h) (combine l l').
  Proof.
    revert l'. induction l as [|x l IH]; intros [|y l'] H Hi; try contradiction; try discriminate. cbn [combine]. destruct Hi as [->|Hi].
    - exists y. left. reflexivity.
    - destruct (IH l' ltac:(cbn in H; lia) Hi) as (h & Hh). exists h. right. exact Hh.
  Qed.

  Lemma deal_at_length x : length (deal_at x) = length ranges.
  Proof. unfold deal_at, assemble. rewrite map_length, seq_length. reflexivity. Qed.
  Lemma deal_at_holding x i : (i < length ranges)%nat -> holding (deal_at x) i = seat (combine (concat pss) (concat (dec ranges pss x))) i.
  Proof.
    intros Hi. unfold holding, deal_at, assemble. rewrite (nth_indep _ _ (seat (combine (concat pss) (concat (dec ranges pss x))) 0)).
    - rewrite map_nth, seq_nth by exact Hi. reflexivity.
    - rewrite map_length, seq_length. exact Hi.
  Qed.

  Lemma deal_at_perm x : Permutation (deal_at x) (concat (dec ranges pss x)).
  Proof.
    set (l := combine (concat pss) (concat (dec ranges pss x))).
    assert (Hlen : length (concat pss) = length (concat (dec ranges pss x))) by (apply dec_concat; exact Hpos).
    assert (Hk : map fst l = concat pss) by (apply combine_fst; exact Hlen).
    assert (Hs : map snd l = concat (dec ranges pss x)) by (apply combine_snd; exact Hlen).
    unfold deal_at, assemble. fold l. rewrite <- Hs.
    transitivity (map (seat l) (map fst l)); [apply Permutation_map; rewrite Hk; symmetry; exact HP|].
    rewrite map_map. assert (E : map (fun z => seat l (fst z)) l = map snd l); [|rewrite E; reflexivity].
    apply map_ext_in. intros [k h] Hz. cbn [fst snd]. apply seat_in; [|exact Hz]. rewrite Hk. exact keys_NoDup.
  Qed.
  Lemma ok_at_possible x : ok_at x = possible board dead (deal_at x).
  Proof. unfold ok_at. apply possible_perm. symmetry. apply deal_at_perm. Qed.

  (* every possible deal comes from one position, with the same multiplicity *)
  Lemma deals_perm : Permutation (map deal_at (filter ok_at (upto (positions ranges pss)))) (deals ranges board dead).
  Proof.
    assert (dec : forall a b : list whand, {a = b} + {a <> b}) by (repeat decide equality).
    apply (Permutation_count_occ dec). intros d.
    assert (E : forall l, N.of_nat (count_occ dec l d) = sumf (fun a => if dec a d then 1 else 0) l).
    { induction l as [|a l IH]; [reflexivity|]. rewrite sumf_cons, <- IH. cbn [count_occ]. destruct (dec a d); lia. }
    apply Nat2N.inj. rewrite !E, sumf_map, sumf_filter. apply (sum_deals (fun a => if dec a d then 1 else 0)).
  Qed.

  Hypothesis Hok : Forall (Forall hole_hand) ranges.
  Lemma deal_at_hole x : Forall hole_hand (deal_at x).
  Proof.
    assert (H : Forall hole_hand (concat (dec ranges pss x))).
    { clear HP. revert x. induction Hpos as [|ps pss' Hp Hpos' IH]; intros x; cbn [dec concat]; [constructor|]. apply Forall_app. split; [|apply IH; assumption].
      apply (fair_ok ranges Hok ps). apply dec_nth_in. exact Hp. }
    rewrite Forall_forall in H |- *. intros h Hh. apply H. eapply Permutation_in; [apply deal_at_perm|exact Hh].
  Qed.
End Deals.

(* ------------------------------------------------------------------------- *)
(** * Processing one position *)

Definition big_weight (d : list whand) : N := prod_of (fun h => N.max 1 (weight h)) d.
Lemma big_weight_pos d : 1 <= big_weight d.
Proof. induction d as [|h d IH]; [cbn; lia|]. unfold big_weight in *. cbn [prod_of fold_right] in *. fold (prod_of (fun h => N.max 1 (weight h)) d) in *. nia. Qed.
Lemma deal_weight_le d : deal_weight d <= big_weight d.
Proof.
  induction d as [|h d IH]; [cbn; lia|]. unfold big_weight, deal_weight in *. cbn [prod_of fold_right] in *.
  fold (prod_of (fun h => N.max 1 (weight h)) d) in *. nia.
Qed.

Lemma weights_ok p (B : Prop) : forall hs w0 W0, agr p w0 W0 -> Forall (fun h => c_w (h_cards h) < 2 ^ 64) hs ->
  (B -> N.max 1 W0 * big_weight (map h_cards hs) < 2 ^ 64) ->
  may p B (foldM (fun w h => mul_ 64 p w (c_w (h_cards h))) hs w0) (fun w => agr p w (W0 * deal_weight (map h_cards hs))).
Proof.
  induction hs as [|h hs IH]; intros w0 W0 Hw Hb HB.
  - cbn [foldM map deal_weight fold_right]. rewrite N.mul_1_r. apply may_ret. exact Hw.
  - cbn [foldM]. inversion Hb as [|? ? Hh Hb']; subst.
    assert (Eb : big_weight (map h_cards (h :: hs)) = N.max 1 (c_w (h_cards h)) * big_weight (map h_cards hs)) by reflexivity.
    assert (Ed : deal_weight (map h_cards (h :: hs)) = c_w (h_cards h) * deal_weight (map h_cards hs)) by reflexivity.
    rewrite Eb in HB. rewrite Ed. pose proof (big_weight_pos (map h_cards hs)) as H1.
    eapply may_bind; [apply may_mul; [exact Hw|apply agr_small; exact Hh|]|].
    + intros b. apply HB in b. revert b H1. clear. generalize (2 ^ 64), (c_w (h_cards h)), (big_weight (map h_cards hs)). intros. nia.
    + intros w1 Hw1. cbv beta in Hw1. rewrite N.mul_assoc. apply IH; [exact Hw1|exact Hb'|]. intros b. apply HB in b. revert b H1. clear.
      generalize (2 ^ 64), (c_w (h_cards h)), (big_weight (map h_cards hs)). intros L a c Hlt H1.
      assert (H : N.max 1 (W0 * a) <= N.max 1 W0 * N.max 1 a) by nia.
      rewrite N.mul_assoc in Hlt. eapply N.le_lt_trans; [apply N.mul_le_mono_r; exact H|exact Hlt].
Qed.

Lemma boards_choose board dead d : length (boards board dead d) = length (choose (5 - length (mask_cards board)) (unseen board dead d)).
Proof. apply map_length. Qed.

Section Process.
  Variable p : profile.
  Variable B : Prop.
  Variable ranges : list (list whand).
  Variable pss : list (list nat).
  Variable crs : list crange.
  Variable dvs : list divider.
  Variable board dead : N.
  Variable m : simulator.
  Variable ids : list nat.
  Hypothesis Hok : Forall (Forall hole_hand) ranges.
  Hypothesis Hw : Forall (Forall (fun h => weight h < 2 ^ 64)) ranges.
  Hypothesis Hn9 : (length ranges <= 9)%nat.
  Hypothesis HF : Forall2 (range_is ranges) pss crs.
  Hypothesis HD : Forall2 (fun ps dv => divides p dv (size_of ranges ps)) pss dvs.
  Hypothesis HP : Permutation (concat pss) (seq 0 (length ranges)).
  Hypothesis Hpos : Forall (fun ps => 0 < size_of ranges ps) pss.
  Hypothesis Hb5 : (length (mask_cards board) <= 5)%nat.
  Hypothesis Hm1 : m_combined m = crs.
  Hypothesis Hm2 : m_board_mask m = board.
  Hypothesis Hm3 : m_dead_mask m = dead.
  Hypothesis Hm4 : hand_of base (mask_cards board) (m_fixed_board m).
  Hypothesis Hm5 : m_n_players m = length ranges.
  Hypothesis Hids : forall i, (i < length ranges)%nat -> get ids i = Ret i.

  Notation deal := (deal_at ranges pss).
  Notation okp := (ok_at ranges pss board dead).

  (* what position x adds to counter o, if e boards are evaluated *)
  Definition pgain (x e : N) (o : obs) : N := if okp x then gain p board dead (deal x) (deal_weight (deal x)) e o else 0.

  Lemma in_range_weight d : Forall (fun h => exists r, In r ranges /\ In h r) d -> Forall (fun h => weight h < 2 ^ 64) d.
  Proof.
    intros H. rewrite Forall_forall in *. intros h Hh. destruct (H h Hh) as (r & Hr & Hhr).
    apply Hw in Hr. rewrite Forall_forall in Hr. apply Hr. exact Hhr.
  Qed.
  Lemma deal_at_in x : Forall (fun h => exists r, In r ranges /\ In h r) (deal x).
  Proof.
    assert (H : Forall (fun h => exists r, In r ranges /\ In h r) (concat (dec ranges pss x))).
    { clear HF HD HP. revert x. induction Hpos as [|ps pss' Hp Hpos' IH]; intros x; cbn [dec concat]; [constructor|]. apply Forall_app. split; [|apply IH; assumption].
      pose proof (dec_nth_in ranges ps x Hp) as Hin. apply fair_In in Hin as [Hin _]. revert Hin.
      generalize (nth (N.to_nat (x mod size_of ranges ps)) (fairs ranges ps) []). clear.
      induction ps as [|i ps IH]; intros l H; inversion H as [|h ? l' ? Hin Hl]; subst; constructor; [|apply IH; assumption].
      exists (range_of ranges i). split; [|assumption]. unfold range_of in *.
      destruct (Nat.ltb_spec i (length ranges)) as [Hi|Hi]; [apply nth_In; exact Hi|]. rewrite nth_overflow in Hin by exact Hi. contradiction. }
    rewrite Forall_forall in H |- *. intros h Hh. apply H. eapply Permutation_in; [apply deal_at_perm; assumption|exact Hh].
  Qed.

  Lemma lengths9 : Forall (fun ps : list nat => (length ps <= 9)%nat) pss.
  Proof.
    assert (H : (length (concat pss) <= 9)%nat) by (rewrite (Permutation_length HP), seq_length; exact Hn9).
    clear - H. induction pss as [|ps pss' IH]; constructor; cbn [concat] in H; rewrite app_length in H; [lia|apply IH; lia].
  Qed.
  Lemma keys9 : Forall (fun i => (i < 9)%nat) (concat pss).
  Proof. rewrite Forall_forall. intros i Hi. apply (Permutation_in _ HP) in Hi. apply in_seq in Hi. lia. Qed.

  Theorem process_position_ok x : x < 2 ^ 64 -> (B -> okp x = true -> big_weight (deal x) * 6 ^ 5 < 2 ^ 64) ->
    exists e, (okp x = true -> stands_for e (N.of_nat (length (boards board dead (deal x))))) /\ (okp x = false -> e = 0) /\
    forall st v, shape (length ranges * NUM_HANDS) ids st -> (forall o, agr p (rd o st) (v o)) ->
    (B -> forall o, v o + pgain x e o < 2 ^ 64) ->
    may p B (process_position p m dvs x st)
      (fun st' => shape (length ranges * NUM_HANDS) ids st' /\ forall o, agr p (rd o st') (v o + pgain x e o)).
  Proof.
    intros Hx HB.
    pose proof (decode_ok p ranges pss crs dvs x (N.lor board dead) (repeat hwi_default MAX_PLAYERS) HF HD Hpos keys9 lengths9 Hx (repeat_length _ _)) as Hdec.
    cbv zeta in Hdec. unfold process_position. rewrite Hm1, Hm2, Hm3, Hm5.
    assert (Hc : distinct (dealt (concat (dec ranges pss x))) && negb (clash (N.lor board dead) (dealt (concat (dec ranges pss x)))) = okp x).
    { unfold ok_at, possible. f_equal. unfold clash. generalize (dealt (concat (dec ranges pss x))). clear.
      induction l as [|c l IH]; [reflexivity|]. cbn [existsb forallb]. rewrite <- IH, negb_orb, N.lor_spec. reflexivity. }
    rewrite Hc in Hdec. clear Hc. unfold pgain. destruct (okp x) eqn:Eok.
    2:{ exists 0. split; [discriminate|]. split; [reflexivity|]. intros st v Hst Hv _. rewrite Hdec. cbn [bind]. apply may_ret. split; [exact Hst|].
        intros o. rewrite N.add_0_r. apply Hv. }
    destruct Hdec as (used & Ed & Hu). rewrite Ed. cbn [bind].
    set (phs := place (combine (concat pss) (concat (dec ranges pss x))) (repeat hwi_default MAX_PLAYERS)) in *.
    assert (Hkeys : map fst (combine (concat pss) (concat (dec ranges pss x))) = concat pss) by (apply combine_fst, dec_concat; exact Hpos).
    assert (Hph : forall i, (i < length ranges)%nat -> nth_error phs i = Some {| h_cards := holding (deal x) i; h_player_idx := i |}).
    { intros i Hi. rewrite (deal_at_holding ranges pss x i Hi).
      destruct (combine_key (concat pss) (concat (dec ranges pss x)) i) as (h & Hh); [apply dec_concat; exact Hpos|apply (key_nth ranges); [exact HP|exact Hi]|].
      rewrite (seat_in _ i h); [|rewrite Hkeys; apply (keys_NoDup ranges); exact HP|exact Hh].
      apply place_in; [rewrite Hkeys; apply (keys_NoDup ranges); exact HP|exact Hh|]. cbn [repeat length]. rewrite repeat_length. unfold MAX_PLAYERS. lia. }
    assert (Hmap : map h_cards (firstn (length ranges) phs) = deal x).
    { apply nth_error_ext. intros k. rewrite map_nth_error'. destruct (Nat.ltb_spec k (length ranges)) as [Hk|Hk].
      - rewrite nth_error_firstn, (Hph k Hk) by exact Hk. cbn [option_map h_cards]. symmetry. apply nth_error_nth'. rewrite deal_at_length. exact Hk.
      - transitivity (@None whand); [|symmetry; apply (proj2 (nth_error_None (deal x) k)); rewrite deal_at_length; exact Hk].
        rewrite (proj2 (nth_error_None (firstn (length ranges) phs) k)); [reflexivity|]. rewrite firstn_length. lia. }
    assert (Hwd : Forall (fun h => c_w (h_cards h) < 2 ^ 64) (firstn (length ranges) phs)).
    { pose proof (in_range_weight _ (deal_at_in x)) as H. rewrite <- Hmap in H. clear - H. revert H. generalize (firstn (length ranges) phs).
      intros l H. rewrite Forall_forall in *. intros h Hh. apply (H (h_cards h)). apply in_map. exact Hh. }
    pose proof (weights_ok p B (firstn (length ranges) phs) 1 1 (agr_1 p) Hwd) as Hweight. rewrite Hmap in Hweight.
    assert (HB1 : B -> N.max 1 1 * big_weight (deal x) < 2 ^ 64).
    { intros b. specialize (HB b eq_refl). revert HB. clear. change (N.max 1 1) with 1. change (6 ^ 5) with 7776.
      generalize (2 ^ 64), (big_weight (deal x)). intros. lia. }
    specialize (Hweight HB1). destruct Hweight as [(w & Ew & Haw0)|(Hdbg & Ew & HnB)].
    2:{ exists (N.of_nat (length (boards board dead (deal x)))). split; [intros; split; lia|]. split; [discriminate|]. intros st v _ _ _. rewrite Ew. right. auto. }
    assert (Haw : agr p w (deal_weight (deal x))) by (rewrite <- (N.mul_1_l (deal_weight (deal x))); exact Haw0).
    rewrite Ew. cbn [bind].
    assert (Hdl : length (deal x) = length ranges) by apply deal_at_length.
    assert (Hposs : possible board dead (deal x) = true).
    { rewrite <- (ok_at_possible ranges pss board dead HP Hpos x). exact Eok. }
    destruct (enumerate_board_ok p B board dead (deal x) phs w (deal_weight (deal x)) (m_fixed_board m) used ids) as (e & He & Hrun).
    - apply (deal_at_hole ranges pss HP Hpos Hok).
    - exact Hposs.
    - rewrite Hdl. exact Hn9.
    - exact Hb5.
    - intros i Hi. rewrite Hdl in Hi. exists {| h_cards := holding (deal x) i; h_player_idx := i |}. split; [|reflexivity]. apply get_ret, Hph. exact Hi.
    - intros i Hi. apply Hids. rewrite <- Hdl. exact Hi.
    - exact Haw.
    - intros b. specialize (HB b eq_refl). pose proof (deal_weight_le (deal x)) as H. revert H HB. clear.
      generalize (2 ^ 64), (6 ^ 5), (deal_weight (deal x)), (big_weight (deal x)). intros. nia.
    - exact Hm4.
    - intros c _. rewrite Hu, N.lor_spec. unfold on_table. f_equal.
      pose proof (dealt_perm _ _ (deal_at_perm ranges pss HP Hpos x)) as HPd.
      destruct (existsb (N.eqb c) (dealt (concat (dec ranges pss x)))) eqn:E1, (existsb (N.eqb c) (dealt (deal x))) eqn:E2; try reflexivity; exfalso.
      + apply existsb_eqb_In in E1. apply (Permutation_in _ (Permutation_sym HPd)), existsb_eqb_In in E1. congruence.
      + apply existsb_eqb_In in E2. apply (Permutation_in _ HPd), existsb_eqb_In in E2. congruence.
    - rewrite Hdl in Hrun. exists e. split; [intros _; exact He|]. split; [discriminate|]. exact Hrun.
  Qed.
End Process.
