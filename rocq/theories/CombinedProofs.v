(* Combining ranges: which combos the combined ranges hold. *)
From Verif Require Import Base BaseProofs SumFacts Hand Range Combined SpecPoker ListFacts HandProofs HandExprProofs
  SpecNames SpecHand SpecEquity BoardProofs.
From Coq Require Import Permutation.
Local Open Scope N_scope.

(* ------------------------------------------------------------------------- *)
(** * Masks and card lists *)

Definition mask_is (m : N) (l : list N) : Prop := forall c, N.testbit m c = existsb (N.eqb c) l.
Definition shares (l l' : list N) : bool := existsb (fun c => existsb (N.eqb c) l') l.

Lemma mask_is_lor m m' l l' : mask_is m l -> mask_is m' l' -> mask_is (N.lor m m') (l ++ l').
Proof. intros H H' c. rewrite N.lor_spec, existsb_app, H, H'. reflexivity. Qed.
Lemma mask_land m m' l l' : mask_is m l -> mask_is m' l' -> (N.land m m' =? 0) = negb (shares l l').
Proof.
  intros H H'. destruct (N.eqb_spec (N.land m m') 0) as [E|E]; symmetry.
  - apply negb_true_iff, not_true_is_false. intros Hs. apply existsb_exists in Hs as (c & Hc & Hc').
    assert (N.testbit (N.land m m') c = true); [|rewrite E, N.bits_0 in *; discriminate].
    rewrite N.land_spec, H, H', Hc', andb_true_r. apply existsb_eqb_In. exact Hc.
  - apply negb_false_iff. destruct (shares l l') eqn:Es; [reflexivity|]. exfalso. apply E. apply N.bits_inj. intros c.
    rewrite N.land_spec, H, H', N.bits_0. destruct (existsb (N.eqb c) l) eqn:E1; [|reflexivity]. cbn [andb].
    apply not_true_is_false. intros E2. assert (shares l l' = true); [|congruence]. apply existsb_exists. exists c.
    split; [apply existsb_eqb_In; exact E1|exact E2].
Qed.
Lemma distinct_app l l' : distinct (l ++ l') = distinct l && distinct l' && negb (shares l l').
Proof.
  induction l as [|c l IH].
  - cbn [app distinct shares existsb negb andb]. rewrite andb_true_r. reflexivity.
  - cbn [app distinct]. rewrite IH. unfold shares. cbn [existsb]. rewrite existsb_app, !negb_orb.
    destruct (existsb (N.eqb c) l), (existsb (N.eqb c) l'), (distinct l), (distinct l'), (existsb (fun c0 => existsb (N.eqb c0) l') l); reflexivity.
Qed.
Lemma dealt_app a b : dealt (a ++ b) = dealt a ++ dealt b.
Proof. unfold dealt. apply flat_map_app. Qed.

(* ------------------------------------------------------------------------- *)
(** * Picks *)

Lemma picks_app {A} (r1 r2 : list (list A)) : picks (r1 ++ r2) = flat_map (fun a => map (app a) (picks r2)) (picks r1).
Proof.
  induction r1 as [|l r1 IH]; cbn [app picks flat_map].
  - rewrite app_nil_r. symmetry. apply map_id.
  - rewrite IH. clear IH. induction l as [|x l IHl]; [reflexivity|]. cbn [flat_map]. rewrite flat_map_app, IHl. f_equal.
    generalize (picks r1) as P. induction P as [|a P IHP]; [reflexivity|]. cbn [flat_map map]. rewrite map_app, IHP, map_map. reflexivity.
Qed.
Lemma picks_length {A} (r : list (list A)) a : In a (picks r) -> length a = length r.
Proof.
  revert a. induction r as [|l r IH]; cbn [picks]; intros a Ha.
  - destruct Ha as [<-|[]]. reflexivity.
  - apply in_flat_map in Ha as (x & _ & Ha). apply in_map_iff in Ha as (b & <- & Hb). cbn [length]. f_equal. apply IH. exact Hb.
Qed.
Lemma picks_in {A} (r : list (list A)) a : In a (picks r) <-> Forall2 (fun x l => In x l) a r.
Proof.
  revert a. induction r as [|l r IH]; cbn [picks]; intros a.
  - split; [intros [<-|[]]; constructor|]. intros H. inversion H. left. reflexivity.
  - rewrite in_flat_map. split.
    + intros (x & Hx & Ha). apply in_map_iff in Ha as (b & <- & Hb). constructor; [exact Hx|]. apply IH. exact Hb.
    + intros H. inversion H as [|x l' b r' Hx Hb]; subst. exists x. split; [exact Hx|]. apply in_map, IH, Hb.
Qed.

(* the choices in which no card occurs twice *)
Definition fair (r : list (list whand)) : list (list whand) := filter (fun a => distinct (dealt a)) (picks r).

Lemma filter_flat_map {A C} (f : C -> bool) (g : A -> list C) l : filter f (flat_map g l) = flat_map (fun x => filter f (g x)) l.
Proof. induction l as [|x l IH]; [reflexivity|]. cbn [flat_map]. rewrite filter_app, IH. reflexivity. Qed.
Lemma flat_map_filter {A C} (f : A -> bool) (g h : A -> list C) l :
  (forall x, f x = true -> g x = h x) -> (forall x, f x = false -> h x = []) -> flat_map g (filter f l) = flat_map h l.
Proof.
  intros H1 H2. induction l as [|x l IH]; [reflexivity|]. cbn [filter flat_map].
  destruct (f x) eqn:E; cbn [flat_map]; rewrite IH; [rewrite H1 by exact E|rewrite H2 by exact E]; reflexivity.
Qed.
Lemma filter_map_swap {A C} (f : C -> bool) (g : A -> C) l : filter f (map g l) = map g (filter (fun x => f (g x)) l).
Proof. induction l as [|x l IH]; [reflexivity|]. cbn [map filter]. rewrite IH. destruct (f (g x)); reflexivity. Qed.

Definition joined (A C : list (list whand)) : list (list whand) :=
  flat_map (fun a => flat_map (fun b => if shares (dealt a) (dealt b) then [] else [a ++ b]) C) A.

Lemma joined_fair r1 r2 : joined (fair r1) (fair r2) = fair (r1 ++ r2).
Proof.
  unfold fair at 3. rewrite picks_app, filter_flat_map. unfold joined, fair at 1. apply flat_map_filter.
  - intros a Ea. unfold fair. generalize (picks r2) as Q. induction Q as [|b Q IHQ]; [reflexivity|]. cbn [map filter].
    rewrite dealt_app, distinct_app, Ea. cbn [andb].
    destruct (distinct (dealt b)) eqn:Eb; cbn [flat_map andb]; rewrite IHQ; [|reflexivity].
    destruct (shares (dealt a) (dealt b)); reflexivity.
  - intros a Ea. generalize (picks r2) as Q. induction Q as [|b Q IHQ]; [reflexivity|]. cbn [map filter].
    rewrite dealt_app, distinct_app, Ea. exact IHQ.
Qed.

(* ------------------------------------------------------------------------- *)
(** * Combos and joins *)

Lemma firstn_set {A} (l : list A) k v : (k < length l)%nat -> firstn (S k) (set_nth l k v) = firstn k l ++ [v].
Proof.
  revert k. induction l as [|x l IH]; intros k Hk; [cbn in Hk; lia|]. cbn [length] in Hk. destruct k as [|k]; [reflexivity|].
  cbn [set_nth]. change (firstn (S (S k)) (x :: set_nth l k v)) with (x :: firstn (S k) (set_nth l k v)).
  rewrite IH by lia. reflexivity.
Qed.
Lemma copy_into_ok {A} (src : list A) off : forall n dst, (n <= length src)%nat -> (off + n <= length dst)%nat ->
  exists dst', copy_into src off n dst = Ret dst' /\ length dst' = length dst /\
    firstn (off + n) dst' = firstn off dst ++ firstn n src.
Proof.
  unfold copy_into. induction n as [|n IH]; intros dst Hs Hd.
  - exists dst. split; [reflexivity|]. split; [reflexivity|]. rewrite Nat.add_0_r, app_nil_r. reflexivity.
  - destruct (IH dst ltac:(lia) ltac:(lia)) as (dst' & E & Hl & Hf). rewrite seq_S, foldM_app, E. cbn [bind foldM Nat.add].
    destruct (nth_error src n) as [x|] eqn:Ex; [|apply nth_error_None in Ex; lia].
    rewrite (proj2 (get_ret src n x) Ex). cbn [bind]. rewrite upd_ok by lia. cbn [bind]. eexists. split; [reflexivity|].
    split; [rewrite set_nth_length; exact Hl|]. rewrite Nat.add_succ_r, firstn_set by lia. rewrite Hf, <- app_assoc. f_equal.
    clear - Ex. revert n Ex. induction src as [|y src IH]; intros [|n] Ex; cbn in Ex; try discriminate.
    + inversion Ex. reflexivity.
    + cbn [firstn app]. f_equal. apply IH. exact Ex.
Qed.

Definition combo_is (k : nat) (hs : list whand) (c : ccombo) : Prop :=
  length hs = k /\ firstn k (cc_hole c) = hs /\ length (cc_hole c) = 9%nat /\ length (cc_hands c) = 9%nat /\
  mask_is (cc_mask c) (dealt hs) /\
  forall i, (i < k)%nat -> exists x, get (cc_hands c) i = Ret x /\ hand_of 0 (two_cards (holding hs i)) x.

Definition hole_hand (h : whand) : Prop := hole (first_card h) (second_card h).

Lemma pow2_mask a : a < 64 -> forall c, N.testbit (N.shiftl 1 a) c = (c =? a).
Proof. intros _ c. rewrite N.shiftl_1_l. rewrite N.pow2_bits_eqb. apply N.eqb_sym. Qed.

Lemma ccombo_of_ok p r : hole_hand r -> exists c, ccombo_of p r = Ret c /\ combo_is 1 [r] c.
Proof.
  intros H. pose proof H as (H1 & H2 & H3). unfold is_card in H1, H2. unfold ccombo_of.
  change (c_1 r) with (first_card r). change (c_2 r) with (second_card r).
  rewrite !shl1_ok by lia. cbn [bind].
  destruct (from_hole_cards_of p (first_card r) (second_card r)) as (x & Ex & Hx); try assumption. rewrite Ex. cbn [bind].
  rewrite !upd_ok by (cbn; lia). cbn [bind]. eexists. split; [reflexivity|].
  split; [reflexivity|]. split; [reflexivity|]. split; [reflexivity|]. split; [reflexivity|]. split.
  - intros c. cbn [cc_mask]. unfold dealt. cbn [flat_map two_cards app existsb]. rewrite orb_false_r.
    rewrite <- !N.shiftl_1_l || idtac. rewrite N.lor_spec. rewrite ?N.shiftl_1_l, !N.pow2_bits_eqb, !(N.eqb_sym c). reflexivity.
  - intros i Hi. assert (i = 0%nat) by lia. subst i. exists x. split; [reflexivity|exact Hx].
Qed.

Lemma join_combo_ok p n1 n2 h1 h2 c1 c2 : combo_is n1 h1 c1 -> combo_is n2 h2 c2 -> (n1 + n2 <= 9)%nat ->
  Forall hole_hand (h1 ++ h2) ->
  if shares (dealt h1) (dealt h2) then join_combo p n1 n2 c1 c2 = Ret None
  else exists c, join_combo p n1 n2 c1 c2 = Ret (Some c) /\ combo_is (n1 + n2) (h1 ++ h2) c.
Proof.
  intros (Hl1 & Hf1 & Hh1 & Hd1 & Hm1 & _) (Hl2 & Hf2 & Hh2 & Hd2 & Hm2 & _) Hn Hall. unfold join_combo.
  rewrite (mask_land _ _ _ _ Hm1 Hm2), negb_involutive. destruct (shares (dealt h1) (dealt h2)); [reflexivity|].
  destruct (copy_into_ok (cc_hole c1) 0 n1 (cc_hole cc_new)) as (d1 & E1 & HL1 & HF1); [lia|cbn; lia|]. rewrite E1. cbn [bind].
  assert (HL1' : length d1 = 9%nat) by (rewrite HL1; reflexivity).
  destruct (copy_into_ok (cc_hole c2) n1 n2 d1) as (d2 & E2 & HL2 & HF2); [lia|lia|]. rewrite E2. cbn [bind].
  cbn [Nat.add firstn app] in HF1. rewrite HF1, Hf1, Hf2 in HF2.
  assert (HI : forall k, (k <= n1 + n2)%nat -> exists hs,
    foldM (fun hs i => x <- get d2 i ;; h <- from_hole_cards p (c_1 x) (c_2 x) ;; upd hs i h) (seq 0 k) (cc_hands cc_new) = Ret hs /\
    length hs = 9%nat /\ forall i, (i < k)%nat -> exists x, get hs i = Ret x /\ hand_of 0 (two_cards (holding (h1 ++ h2) i)) x).
  { induction k as [|k IH]; intros Hk.
    - eexists. split; [reflexivity|]. split; [reflexivity|]. intros i Hi. lia.
    - destruct (IH ltac:(lia)) as (hs & E & Hl & Hi). rewrite seq_S, foldM_app, E. cbn [bind foldM Nat.add].
      rewrite (get_nth d2 k (0, 0, 0)) by lia. cbn [bind].
      assert (Hk2 : nth k d2 (0, 0, 0) = holding (h1 ++ h2) k).
      { unfold holding. transitivity (nth k (firstn (n1 + n2) d2) (0, 0, 0)); [symmetry; apply ShowdownProofs.nth_firstn; lia|].
        rewrite HF2. reflexivity. }
      rewrite Hk2. set (w := holding (h1 ++ h2) k).
      assert (Hw : hole_hand w).
      { rewrite Forall_forall in Hall. apply Hall, nth_In. rewrite app_length. lia. }
      destruct (from_hole_cards_of p (first_card w) (second_card w)) as (x & Ex & Hx); try apply Hw.
      change (c_1 w) with (first_card w). change (c_2 w) with (second_card w). rewrite Ex. cbn [bind]. rewrite upd_ok by lia. cbn [bind].
      eexists. split; [reflexivity|]. split; [rewrite set_nth_length; exact Hl|]. intros i Hik. destruct (Nat.eq_dec i k) as [->|Hne].
      + exists x. split; [|exact Hx]. apply get_ret, set_nth_same. lia.
      + destruct (Hi i ltac:(lia)) as (y & Ey & Hy). exists y. split; [|exact Hy]. apply get_ret. rewrite set_nth_other by congruence.
        apply get_ret. exact Ey. }
  destruct (HI (n1 + n2)%nat (le_n _)) as (hs & E & Hl & Hi). rewrite E. cbn [bind]. eexists. split; [reflexivity|].
  split; [rewrite app_length; congruence|]. cbn [cc_hole cc_hands cc_mask]. split; [exact HF2|]. split; [lia|]. split; [exact Hl|]. split; [|exact Hi].
  rewrite dealt_app. apply mask_is_lor; assumption.
Qed.

(* the combined range cr is that of the players ps, in this order *)
Definition range_of (ranges : list (list whand)) (i : nat) : list whand := nth i ranges [].
Definition range_is (ranges : list (list whand)) (ps : list nat) (cr : crange) : Prop :=
  cr_player_count cr = length ps /\ firstn (length ps) (cr_players cr) = ps /\ length (cr_players cr) = 9%nat /\
  cr_size cr = N.of_nat (length (cr_combos cr)) /\
  Forall2 (combo_is (length ps)) (fair (map (range_of ranges) ps)) (cr_combos cr).

Lemma Forall2_length {A C} (R : A -> C -> Prop) l l' : Forall2 R l l' -> length l = length l'.
Proof. induction 1; cbn [length]; congruence. Qed.

Lemma fair_In r a : In a (fair r) -> Forall2 (fun x l => In x l) a r /\ distinct (dealt a) = true.
Proof. unfold fair. rewrite filter_In, picks_in. auto. Qed.

Section Ranges.
  Variable p : profile.
  Variable ranges : list (list whand).
  Hypothesis Hok : Forall (Forall hole_hand) ranges.

  Lemma range_of_ok i : Forall hole_hand (range_of ranges i).
  Proof.
    unfold range_of. destruct (Nat.ltb_spec i (length ranges)) as [H|H].
    - rewrite Forall_forall in Hok. apply Hok, nth_In. exact H.
    - rewrite nth_overflow by exact H. constructor.
  Qed.
  Lemma fair_ok ps a : In a (fair (map (range_of ranges) ps)) -> Forall hole_hand a /\ length a = length ps.
  Proof.
    intros H. apply fair_In in H as [H _]. split.
    - revert a H. induction ps as [|i ps IH]; intros a H; inversion H; subst; constructor; [|apply IH; assumption].
      pose proof (range_of_ok i) as Hi. rewrite Forall_forall in Hi. apply Hi. assumption.
    - apply Forall2_length in H. rewrite map_length in H. exact H.
  Qed.

  Lemma from_range_ok i : (i < length ranges)%nat -> exists cr, from_range p (range_of ranges i) i = Ret cr /\ range_is ranges [i] cr.
  Proof.
    intros Hi. unfold from_range. rewrite upd_ok by (cbn; lia). cbn [bind].
    pose proof (range_of_ok i) as Hr.
    assert (HM : forall l, Forall hole_hand l -> exists cs, mapM (ccombo_of p) l = Ret cs /\ Forall2 (combo_is 1) (map (fun h => [h]) l) cs).
    { induction l as [|h l IH]; intros Hl; [exists []; split; [reflexivity|constructor]|]. inversion Hl; subst.
      destruct (ccombo_of_ok p h) as (c & Ec & Hc); [assumption|]. destruct IH as (cs & Ecs & Hcs); [assumption|].
      exists (c :: cs). cbn [mapM]. rewrite Ec. cbn [bind]. rewrite Ecs. cbn [bind]. split; [reflexivity|]. constructor; assumption. }
    destruct (HM _ Hr) as (cs & Ecs & Hcs). rewrite Ecs. cbn [bind]. eexists. split; [reflexivity|].
    split; [reflexivity|]. split; [reflexivity|]. split; [reflexivity|]. split; [reflexivity|].
    cbn [map length cr_combos]. replace (fair [range_of ranges i]) with (map (fun h : whand => [h]) (range_of ranges i)); [exact Hcs|].
    unfold fair. cbn [picks]. clear - Hr. induction (range_of ranges i) as [|h l IH]; [reflexivity|]. inversion Hr as [|? ? Hh Hl]; subst.
    specialize (IH Hl). cbn [map] in IH. cbn [flat_map map app filter]. rewrite <- IH.
    replace (distinct (dealt [h])) with true; [reflexivity|]. symmetry. apply distinct_NoDup.
    unfold dealt. cbn. destruct Hh as (_ & _ & Hne). constructor; [intros [E|[]]; congruence|]. constructor; [intros []|constructor].
  Qed.

  Lemma join_row p0 n1 n2 a c : combo_is n1 a c -> (n1 + n2 <= 9)%nat -> forall C cs acc,
    Forall2 (combo_is n2) C cs -> Forall (fun b => Forall hole_hand (a ++ b)) C ->
    exists cs', foldM (fun acc c2 => o <- join_combo p0 n1 n2 c c2 ;; Ret (match o with Some c => acc ++ [c] | None => acc end)) cs acc = Ret (acc ++ cs') /\
      Forall2 (combo_is (n1 + n2)) (flat_map (fun b => if shares (dealt a) (dealt b) then [] else [a ++ b]) C) cs'.
  Proof.
    intros Ha Hn C cs acc H. revert acc. induction H as [|b c2 C cs Hb H IH]; intros acc Hall.
    - exists []. cbn [foldM flat_map]. rewrite app_nil_r. split; [reflexivity|constructor].
    - inversion Hall as [|? ? Hab Hall']; subst. cbn [foldM flat_map].
      pose proof (join_combo_ok p0 n1 n2 a b c c2 Ha Hb Hn Hab) as HJ. destruct (shares (dealt a) (dealt b)).
      + rewrite HJ. cbn [bind app]. apply IH. exact Hall'.
      + destruct HJ as (c' & Ec & Hc'). rewrite Ec. cbn [bind]. destruct (IH (acc ++ [c']) Hall') as (cs' & Ecs & Hcs').
        exists (c' :: cs'). rewrite Ecs, <- app_assoc. split; [reflexivity|]. cbn [app]. constructor; assumption.
  Qed.

  Lemma join_rows p0 n1 n2 C cs2 : (n1 + n2 <= 9)%nat -> Forall2 (combo_is n2) C cs2 -> forall A cs1 acc,
    Forall2 (combo_is n1) A cs1 -> Forall (fun a => Forall (fun b => Forall hole_hand (a ++ b)) C) A ->
    exists cs', foldM (fun acc c1 => foldM (fun acc c2 => o <- join_combo p0 n1 n2 c1 c2 ;; Ret (match o with Some c => acc ++ [c] | None => acc end)) cs2 acc) cs1 acc = Ret (acc ++ cs') /\
      Forall2 (combo_is (n1 + n2)) (joined A C) cs'.
  Proof.
    intros Hn HC A cs1 acc H. revert acc. induction H as [|a c A cs1 Ha H IH]; intros acc Hall.
    - exists []. cbn [foldM]. rewrite app_nil_r. split; [reflexivity|constructor].
    - inversion Hall as [|? ? Hab Hall']; subst. cbn [foldM].
      destruct (join_row p0 n1 n2 a c Ha Hn C cs2 acc HC Hab) as (r1 & E1 & H1). rewrite E1. cbn [bind].
      destruct (IH (acc ++ r1) Hall') as (r2 & E2 & H2). rewrite E2. exists (r1 ++ r2). rewrite app_assoc. split; [reflexivity|].
      unfold joined. cbn [flat_map]. apply Forall2_app; assumption.
  Qed.

  Lemma join_ok ps1 ps2 cr1 cr2 : range_is ranges ps1 cr1 -> range_is ranges ps2 cr2 -> (length (ps1 ++ ps2) <= 9)%nat ->
    exists cr, join p cr1 cr2 = Ret cr /\ range_is ranges (ps1 ++ ps2) cr.
  Proof.
    intros (Hc1 & Hp1 & Hl1 & Hs1 & Hf1) (Hc2 & Hp2 & Hl2 & Hs2 & Hf2) Hn. rewrite app_length in Hn. unfold join. rewrite Hc1, Hc2.
    destruct (copy_into_ok (cr_players cr1) 0 (length ps1) (cr_players cr_default)) as (d1 & E1 & HL1 & HF1); [lia|cbn; lia|]. rewrite E1. cbn [bind].
    assert (HL1' : length d1 = 9%nat) by (rewrite HL1; reflexivity).
    destruct (copy_into_ok (cr_players cr2) (length ps1) (length ps2) d1) as (d2 & E2 & HL2 & HF2); [lia|lia|]. rewrite E2. cbn [bind].
    cbn [Nat.add firstn app] in HF1. rewrite HF1, Hp1, Hp2 in HF2.
    destruct (join_rows p (length ps1) (length ps2) (fair (map (range_of ranges) ps2)) (cr_combos cr2) Hn Hf2
                (fair (map (range_of ranges) ps1)) (cr_combos cr1) [] Hf1) as (cs & E & Hcs).
    { apply Forall_forall. intros a Ha. apply Forall_forall. intros b Hb. apply Forall_app.
      split; [eapply fair_ok; exact Ha|eapply fair_ok; exact Hb]. }
    rewrite E. cbn [bind app]. eexists. split; [reflexivity|]. split; [cbn; symmetry; apply app_length|].
    rewrite app_length, map_app. split; [exact HF2|]. split; [cbn; lia|]. split; [reflexivity|]. cbn [cr_combos].
    rewrite <- joined_fair. exact Hcs.
  Qed.
End Ranges.

(* ------------------------------------------------------------------------- *)
(** * Which pair is joined *)

(* the number of pairs of combos without a common card *)
Definition compatible (A C : list (list whand)) : N :=
  sumf (fun a => sumf (fun b => if shares (dealt a) (dealt b) then 0 else 1) C) A.

Lemma compatible_joined A C : compatible A C = N.of_nat (length (joined A C)).
Proof.
  unfold compatible, joined. induction A as [|a A IH]; [reflexivity|]. rewrite sumf_cons, IH. cbn [flat_map]. rewrite app_length, Nat2N.inj_add. f_equal.
  clear. induction C as [|b C IH]; [reflexivity|]. rewrite sumf_cons, IH. cbn [flat_map]. destruct (shares (dealt a) (dealt b)); cbn [app length]; lia.
Qed.
Lemma shares_sym l l' : shares l l' = shares l' l.
Proof.
  assert (H : forall l l', shares l l' = true -> shares l' l = true).
  { clear. intros l l' H. apply existsb_exists in H as (c & Hc & H). apply existsb_eqb_In in H. apply existsb_exists. exists c.
    split; [exact H|]. apply existsb_eqb_In. exact Hc. }
  destruct (shares l l') eqn:E1, (shares l' l) eqn:E2; try reflexivity; exfalso; [apply H in E1|apply H in E2]; congruence.
Qed.
Lemma compatible_sym A C : compatible A C = compatible C A.
Proof. unfold compatible. rewrite sumf_swap. apply sumf_ext. intros b _. apply sumf_ext. intros a _. rewrite shares_sym. reflexivity. Qed.

Lemma estimate_ok ranges ps1 ps2 cr1 cr2 : range_is ranges ps1 cr1 -> range_is ranges ps2 cr2 ->
  estimate_join_size cr1 cr2 = compatible (fair (map (range_of ranges) ps1)) (fair (map (range_of ranges) ps2)).
Proof.
  intros (_ & _ & _ & _ & Hf1) (_ & _ & _ & _ & Hf2). unfold estimate_join_size, compatible.
  assert (H : forall A cs n, Forall2 (combo_is (length ps1)) A cs ->
    fold_left (fun size c1 => fold_left (fun size c2 => if N.land (cc_mask c1) (cc_mask c2) =? 0 then size + 1 else size) (cr_combos cr2) size) cs n =
    n + sumf (fun a => sumf (fun b => if shares (dealt a) (dealt b) then 0 else 1) (fair (map (range_of ranges) ps2))) A).
  { induction A as [|a A IH]; intros cs n HF; inversion HF as [|? c ? cs' Hc HF']; subst.
    - rewrite sumf_nil. cbn [fold_left]. lia.
    - cbn [fold_left]. rewrite (IH _ _ HF'), sumf_cons, N.add_assoc. f_equal. clear IH HF HF'.
      revert n. induction Hf2 as [|b c2 C cs2 Hb _ IHC]; intros n; cbn [fold_left].
      + rewrite sumf_nil. lia.
      + rewrite IHC, sumf_cons. destruct Hc as (_ & _ & _ & _ & Hm & _). destruct Hb as (_ & _ & _ & _ & Hm2 & _).
        rewrite (mask_land _ _ _ _ Hm Hm2). destruct (shares (dealt a) (dealt b)); cbn [negb]; lia. }
  rewrite (H _ _ 0 Hf1). reflexivity.
Qed.

Definition pair_ok (l : list crange) (s : N) (i j : nat) : Prop :=
  (s = U64MAX /\ i = 0%nat /\ j = 0%nat) \/
  ((j < i < length l)%nat /\ s < U64MAX /\ s = estimate_join_size (nth i l cr_default) (nth j l cr_default)).

Lemma best_pair_ok l : exists s i j, best_pair l = Ret (s, i, j) /\ pair_ok l s i j /\
  forall i' j', (j' < i' < length l)%nat -> s <= estimate_join_size (nth i' l cr_default) (nth j' l cr_default) \/ s = U64MAX /\ U64MAX <= estimate_join_size (nth i' l cr_default) (nth j' l cr_default).
Proof.
  unfold best_pair.
  set (row := fun i => fun '(best_size, best_i, best_j) j => ci <- get l i ;; cj <- get l j ;;
      let s := estimate_join_size ci cj in Ret (if s <? best_size then (s, i, j) else (best_size, best_i, best_j))).
  set (I := fun (n : nat) (m : nat) (b : N * nat * nat) => let '(s, i, j) := b in pair_ok l s i j /\ s <= U64MAX /\
    (forall i' j', (j' < i' < n)%nat -> s <= estimate_join_size (nth i' l cr_default) (nth j' l cr_default)) /\
    (forall j', (j' < m)%nat -> s <= estimate_join_size (nth n l cr_default) (nth j' l cr_default))).
  assert (Hrow : forall n, (n < length l)%nat -> forall m b, (m <= n)%nat -> I n 0%nat b ->
    exists b', foldM (row n) (seq 0 m) b = Ret b' /\ I n m b').
  { intros n Hn. induction m as [|m IH]; intros b Hm Hb.
    - exists b. auto.
    - destruct (IH b ltac:(lia) Hb) as ([[s i] j] & E & HI). rewrite seq_S, foldM_app, E. cbn [bind foldM Nat.add].
      unfold row at 1. rewrite (get_nth l n cr_default), (get_nth l m cr_default) by lia. cbn [bind]. cbv zeta.
      destruct HI as (H1 & H1' & H2 & H3).
      destruct (N.ltb_spec (estimate_join_size (nth n l cr_default) (nth m l cr_default)) s) as [Hlt|Hge].
      + eexists. split; [reflexivity|]. split; [right; split; [lia|]; split; [lia|reflexivity]|]. split; [lia|]. split.
        * intros i' j' Hij. specialize (H2 i' j' Hij). lia.
        * intros j' Hj. destruct (Nat.eq_dec j' m) as [->|Hne]; [lia|]. specialize (H3 j' ltac:(lia)). lia.
      + eexists. split; [reflexivity|]. split; [exact H1|]. split; [exact H1'|]. split; [exact H2|].
        intros j' Hj. destruct (Nat.eq_dec j' m) as [->|Hne]; [lia|]. apply H3. lia. }
  assert (Hall : forall n, (n <= length l)%nat -> exists b, foldM (fun best i => foldM (row i) (seq 0 i) best) (seq 0 n) (U64MAX, 0%nat, 0%nat) = Ret b /\ I n 0%nat b).
  { induction n as [|n IH]; intros Hn.
    - eexists. split; [reflexivity|]. split; [left; auto|]. split; [lia|]. split; intros; lia.
    - destruct (IH ltac:(lia)) as (b & E & Hb). rewrite seq_S, foldM_app, E. cbn [bind foldM Nat.add].
      destruct (Hrow n ltac:(lia) n b (le_n _) Hb) as ([[s i] j] & E' & H1 & H1' & H2 & H3). rewrite E'. cbn [bind].
      eexists. split; [reflexivity|]. split; [exact H1|]. split; [exact H1'|]. split; [|intros; lia].
      intros i' j' Hij. destruct (Nat.eq_dec i' n) as [->|Hne]; [apply H3; lia|apply H2; lia]. }
  destruct (Hall (length l) (le_n _)) as ([[s i] j] & E & H1 & H1' & H2 & _). exists s, i, j. split; [exact E|]. split; [exact H1|].
  intros i' j' Hij. left. apply H2. exact Hij.
Qed.

(* ------------------------------------------------------------------------- *)
(** * The loop *)

Lemma remove_nth_length {A} (l : list A) i : (i < length l)%nat -> length (remove_nth l i) = (length l - 1)%nat.
Proof. revert i. induction l as [|x l IH]; intros [|i] H; cbn in *; try lia. rewrite IH by lia. lia. Qed.
Lemma remove_nth_perm {A} (l : list A) i x : nth_error l i = Some x -> Permutation l (x :: remove_nth l i).
Proof.
  revert i. induction l as [|y l IH]; intros [|i] H; cbn in H; try discriminate.
  - inversion H. reflexivity.
  - cbn [remove_nth]. rewrite (IH i H) at 1. apply perm_swap.
Qed.
Lemma remove_nth_nth {A} (l : list A) i j : (j < i)%nat -> nth_error (remove_nth l i) j = nth_error l j.
Proof. revert i j. induction l as [|y l IH]; intros [|i] [|j] H; cbn; try reflexivity; try lia. apply IH. lia. Qed.
Lemma remove_set {A} (l : list A) i j v : (j < i)%nat -> remove_nth (set_nth l j v) i = set_nth (remove_nth l i) j v.
Proof. revert i j. induction l as [|y l IH]; intros [|i] [|j] H; cbn; try reflexivity; try lia. f_equal. apply IH. lia. Qed.
Lemma set_nth_perm {A} (l : list A) i x v : nth_error l i = Some x -> exists r, Permutation l (x :: r) /\ Permutation (set_nth l i v) (v :: r).
Proof.
  intros H. exists (remove_nth l i). split; [apply remove_nth_perm; exact H|].
  revert i H. induction l as [|y l IH]; intros [|i] H; cbn in H; try discriminate; [reflexivity|].
  cbn [set_nth remove_nth]. rewrite (IH i H). apply perm_swap.
Qed.

Lemma pair_perm {A} (l : list A) i j x y v : (j < i)%nat -> nth_error l i = Some x -> nth_error l j = Some y ->
  exists r, Permutation l (y :: x :: r) /\ Permutation (remove_nth (set_nth l j v) i) (v :: r).
Proof.
  intros Hij Hi Hj. rewrite remove_set by exact Hij.
  destruct (set_nth_perm (remove_nth l i) j y v) as (r & H1 & H2); [rewrite remove_nth_nth by exact Hij; exact Hj|].
  exists r. split; [|exact H2]. rewrite (remove_nth_perm l i x Hi), H1. apply perm_swap.
Qed.

Section Loop.
  Variable p : profile.
  Variable ranges : list (list whand).
  Hypothesis Hok : Forall (Forall hole_hand) ranges.
  Hypothesis Hn9 : (length ranges <= 9)%nat.

  Definition settled (l : list crange) : Prop :=
    forall i j, (j < i < length l)%nat -> 10000 <= estimate_join_size (nth i l cr_default) (nth j l cr_default).
  Definition small (ps : list nat) (cr : crange) : Prop := (2 <= length ps)%nat -> cr_size cr < 10000.

  Definition members (pss : list (list nat)) (l : list crange) : Prop :=
    Forall2 (fun ps cr => range_is ranges ps cr /\ small ps cr /\ ps <> []) pss l /\
    Permutation (concat pss) (seq 0 (length ranges)).

  Lemma Forall2_nth_r {A C} (R : A -> C -> Prop) l l' i y : Forall2 R l l' -> nth_error l' i = Some y ->
    exists x, nth_error l i = Some x /\ R x y.
  Proof.
    intros H. revert i. induction H as [|a c l l' Ha _ IH]; intros [|i] E; cbn in E; try discriminate.
    - inversion E; subst. exists a. auto.
    - apply IH. exact E.
  Qed.
  Lemma Forall2_set {A C} (R : A -> C -> Prop) l l' i x y : Forall2 R l l' -> R x y -> Forall2 R (set_nth l i x) (set_nth l' i y).
  Proof. intros H Hxy. revert i. induction H as [|a c l l' Ha H IH]; intros [|i]; cbn [set_nth]; constructor; auto. Qed.
  Lemma Forall2_remove {A C} (R : A -> C -> Prop) l l' i : Forall2 R l l' -> Forall2 R (remove_nth l i) (remove_nth l' i).
  Proof. intros H. revert i. induction H as [|a c l l' Ha H IH]; intros [|i]; cbn [remove_nth]; [constructor|constructor|exact H|constructor; auto]. Qed.
  Lemma concat_perm {A} (l l' : list (list A)) : Permutation l l' -> Permutation (concat l) (concat l').
  Proof.
    induction 1 as [|x l l' _ IH|x y l|l l' l'' _ IH1 _ IH2]; cbn [concat].
    - reflexivity.
    - apply Permutation_app_head. exact IH.
    - rewrite !app_assoc. apply Permutation_app_tail, Permutation_app_comm.
    - etransitivity; eassumption.
  Qed.

  Lemma join_loop_ok fuel : forall pss l, (length l < fuel)%nat -> members pss l ->
    exists pss' l', join_loop p fuel l = Ret l' /\ members pss' l' /\ settled l'.
  Proof.
    induction fuel as [|fuel IH]; intros pss l Hf [Hm Hp]; [lia|]. cbn [join_loop].
    destruct (best_pair_ok l) as (s & i & j & E & Hpair & Hmin). rewrite E. cbn [bind].
    destruct (N.ltb_spec s MAX_SIZE) as [Hlt|Hge].
    - destruct Hpair as [(-> & _)|((Hj & Hi) & Hs & Es)]; [unfold MAX_SIZE, U64MAX in Hlt; lia|].
      destruct (nth_error l i) as [ci|] eqn:Ei; [|apply nth_error_None in Ei; lia].
      destruct (nth_error l j) as [cj|] eqn:Ej; [|apply nth_error_None in Ej; lia].
      rewrite (proj2 (get_ret l j cj) Ej), (proj2 (get_ret l i ci) Ei). cbn [bind].
      destruct (Forall2_nth_r _ _ _ _ _ Hm Ei) as (pi & Epi & Hri & _ & Hnei).
      destruct (Forall2_nth_r _ _ _ _ _ Hm Ej) as (pj & Epj & Hrj & _ & Hnej).
      destruct (pair_perm pss i j pi pj (pj ++ pi) Hj Epi Epj) as (r & HP1 & HP2).
      assert (Hlen9 : (length (pj ++ pi) <= 9)%nat).
      { apply concat_perm in HP1. rewrite Hp in HP1. apply Permutation_length in HP1. rewrite seq_length in HP1.
        cbn [concat] in HP1. rewrite app_assoc, app_length in HP1. lia. }
      destruct (join_ok p ranges Hok pj pi cj ci Hrj Hri Hlen9) as (cr & Ecr & Hcr). rewrite Ecr. cbn [bind].
      rewrite upd_ok by lia. cbn [bind].
      destruct (IH (remove_nth (set_nth pss j (pj ++ pi)) i) (remove_nth (set_nth l j cr) i)) as (pss' & l' & El & Hl').
      + rewrite remove_nth_length by (rewrite set_nth_length; lia). rewrite set_nth_length. lia.
      + split.
        * apply Forall2_remove, Forall2_set; [exact Hm|]. split; [exact Hcr|]. split.
          -- intros _. destruct Hcr as (_ & _ & _ & -> & Hcs). rewrite <- (Forall2_length _ _ _ Hcs), map_app, <- joined_fair, <- compatible_joined.
             rewrite compatible_sym, <- (estimate_ok ranges pi pj ci cj Hri Hrj).
             rewrite (nth_error_nth _ _ _ Ei), (nth_error_nth _ _ _ Ej) in Es. rewrite <- Es. exact Hlt.
          -- intros E0. apply app_eq_nil in E0 as [E0 _]. contradiction.
        * rewrite (concat_perm _ _ HP2). cbn [concat]. rewrite <- app_assoc. rewrite (concat_perm _ _ HP1) in Hp. cbn [concat] in Hp. exact Hp.
      + exists pss', l'. auto.
    - exists pss, l. split; [reflexivity|]. split; [split; assumption|]. intros i' j' Hij. destruct (Hmin i' j' Hij) as [H|[_ H]].
      + unfold MAX_SIZE in Hge. lia.
      + unfold U64MAX in H. lia.
  Qed.

  Theorem from_ranges_ok : exists pss crs, from_ranges p ranges = Ret crs /\ members pss crs /\ settled crs.
  Proof.
    unfold from_ranges.
    assert (H : forall k, (k <= length ranges)%nat -> exists cs,
      mapM (fun '(i, r) => from_range p r i) (combine (seq (length ranges - k) k) (skipn (length ranges - k) ranges)) = Ret cs /\
      Forall2 (fun ps cr => range_is ranges ps cr /\ small ps cr /\ ps <> []) (map (fun i => [i]) (seq (length ranges - k) k)) cs).
    { induction k as [|k IH]; intros Hk.
      - exists []. split; [reflexivity|constructor].
      - destruct (IH ltac:(lia)) as (cs & E & Hcs).
        assert (Hsk : skipn (length ranges - S k) ranges = range_of ranges (length ranges - S k) :: skipn (length ranges - k) ranges).
        { replace (length ranges - k)%nat with (S (length ranges - S k)) by lia. unfold range_of.
          destruct (nth_error ranges (length ranges - S k)) as [x|] eqn:Ex; [|apply nth_error_None in Ex; lia].
          rewrite (nth_error_nth _ _ _ Ex). apply EnumProofs.skipn_cons_nth. exact Ex. }
        rewrite Hsk. cbn [seq combine mapM map]. replace (S (length ranges - S k)) with (length ranges - k)%nat by lia.
        destruct (from_range_ok p ranges Hok (length ranges - S k)) as (cr & Ecr & Hcr); [lia|]. rewrite Ecr. cbn [bind]. rewrite E. cbn [bind].
        exists (cr :: cs). split; [reflexivity|]. constructor; [|exact Hcs]. split; [exact Hcr|]. split; [intros H2; cbn in H2; lia|discriminate]. }
    destruct (H (length ranges) (le_n _)) as (cs & E & Hcs). rewrite Nat.sub_diag in E, Hcs. cbn [skipn] in E.
    enough (HJ : exists pss crs, join_loop p (S (length cs)) cs = Ret crs /\ members pss crs /\ settled crs).
    { destruct HJ as (pss & crs & EJ & HJ). exists pss, crs. split; [|exact HJ].
      transitivity (bind (Ret cs) (fun cs => join_loop p (S (length cs)) cs)); [rewrite <- E; reflexivity|exact EJ]. }
    apply join_loop_ok with (pss := map (fun i => [i]) (seq 0 (length ranges))); [lia|]. split; [exact Hcs|].
    replace (concat (map (fun i => [i]) (seq 0 (length ranges)))) with (seq 0 (length ranges)); [reflexivity|].
    clear. induction (seq 0 (length ranges)) as [|i l IH]; [reflexivity|]. cbn [map concat app]. rewrite <- IH. reflexivity.
  Qed.
End Loop.
