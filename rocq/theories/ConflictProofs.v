(* With two or three players, ConflictingRanges is reported exactly when no deal is possible. *)
From Verif Require Import Base BaseProofs SumFacts ListFacts Ghost Float64 Hand FastDivide Range Combined Sim Approx SpecPoker SpecNames SpecHand SpecRange SpecEquity SpecResults SpecRun SpecConflict
  EnumProofs BoardProofs CombinedProofs PositionProofs SetupProofs ExactProofs CombineRunProofs.
From Coq Require Import Permutation.
Local Open Scope N_scope.
#[local] Opaque NUM_HANDS.

(* ------------------------------------------------------------------------- *)
(** * Hands through a card *)

Definition has (v : N) (h : whand) : bool := (first_card h =? v) || (second_card h =? v).
Definition touch (g h : whand) : bool := has (first_card g) h || has (second_card g) h.
Definition count_of {A} (p : A -> bool) (l : list A) : N := sumf (fun x => if p x then 1 else 0) l.
Definition other (v : N) (h : whand) : N := if first_card h =? v then second_card h else first_card h.
Definition wf (F : list whand) : Prop := Forall hole_hand F /\ no_repeats F.

Lemma has_iff v h : has v h = true <-> v = first_card h \/ v = second_card h.
Proof. unfold has. rewrite orb_true_iff, !N.eqb_eq. intuition. Qed.
Lemma touch_iff g h : touch g h = true <-> exists v, has v g = true /\ has v h = true.
Proof.
  unfold touch. rewrite orb_true_iff. split.
  - intros [H|H]; eexists; (split; [|exact H]); apply has_iff; auto.
  - intros (v & H1 & H2). apply has_iff in H1 as [->| ->]; auto.
Qed.
Lemma touch_sym g h : touch g h = touch h g.
Proof. apply eq_true_iff_eq. rewrite !touch_iff. split; intros (v & H1 & H2); exists v; auto. Qed.
Lemma count_length {A} (p : A -> bool) l : count_of p l = N.of_nat (length (filter p l)).
Proof. unfold count_of. rewrite <- sumf_1_length, sumf_filter. reflexivity. Qed.
Lemma count_le {A} (p q : A -> bool) l : (forall x, In x l -> p x = true -> q x = true) -> count_of p l <= count_of q l.
Proof. intros H. apply sumf_le. intros x Hx. specialize (H x Hx). destruct (p x), (q x); lia. Qed.
Lemma count_or {A} (p q r : A -> bool) l : (forall x, In x l -> p x = true -> q x = true \/ r x = true) -> count_of p l <= count_of q l + count_of r l.
Proof.
  intros H. unfold count_of. rewrite <- sumf_add. apply sumf_le. intros x Hx. specialize (H x Hx). destruct (p x), (q x), (r x); lia.
Qed.
Lemma count_all {A} (p : A -> bool) l : (forall x, In x l -> p x = true) -> count_of p l = N.of_nat (length l).
Proof. intros H. rewrite <- sumf_1_length. apply sumf_ext. intros x Hx. rewrite (H x Hx). reflexivity. Qed.
Lemma count_none {A} (p : A -> bool) l : count_of p l = 0 -> forall x, In x l -> p x = false.
Proof. intros H x Hx. pose proof (sumf_in_le (fun x => if p x then 1 else 0) l x Hx) as Hle. unfold count_of in H. cbn beta in Hle. destruct (p x); [lia|reflexivity]. Qed.
Lemma count_some {A} (p : A -> bool) l : 0 < count_of p l -> exists x, In x l /\ p x = true.
Proof.
  rewrite count_length. destruct (filter p l) as [|x l'] eqn:E; [cbn; lia|]. intros _. exists x. apply filter_In. rewrite E. left. reflexivity.
Qed.
Lemma count_at_most {A} (p : A -> bool) l : count_of p l <= N.of_nat (length l).
Proof. rewrite <- (count_all (fun _ => true) l) by reflexivity. apply count_le. reflexivity. Qed.

Lemma others_distinct v F : Forall hole_hand F -> no_repeats F -> (forall h, In h F -> has v h = true) -> NoDup (map (other v) F).
Proof.
  intros HF HN Hv. unfold no_repeats in HN. induction HN as [|h F Hh HN IH]; [constructor|]. inversion HF as [|x l Hx Hl]; subst. cbn [map]. constructor.
  - intros Hin. apply in_map_iff in Hin as (g & Eg & Hg). rewrite Forall_forall in Hh. apply (Hh g Hg). pose proof (Hv h (or_introl eq_refl)) as V1. pose proof (Hv g (or_intror Hg)) as V2.
    apply has_iff in V1, V2. unfold other in Eg. unfold same_two. destruct (N.eqb_spec (first_card g) v), (N.eqb_spec (first_card h) v); intuition congruence.
  - apply IH; [exact Hl|]. intros g Hg. apply Hv. right. exact Hg.
Qed.
Lemma no_repeats_filter p F : no_repeats F -> no_repeats (filter p F).
Proof.
  unfold no_repeats. induction 1 as [|h F Hh _ IH]; [constructor|]. cbn [filter]. destruct (p h); [|exact IH]. constructor; [|exact IH].
  rewrite Forall_forall in *. intros g Hg. apply filter_In in Hg as [Hg _]. apply Hh. exact Hg.
Qed.
Lemma wf_filter p F : wf F -> wf (filter p F).
Proof.
  intros [H1 H2]. split; [|apply no_repeats_filter; exact H2]. rewrite Forall_forall in *. intros h Hh. apply filter_In in Hh as [Hh _]. auto.
Qed.
(* at most 51 hands contain a card; fewer if other cards are excluded *)
Lemma star F v bad (p : whand -> bool) : wf F -> NoDup (v :: bad) -> Forall is_card (v :: bad) ->
  (forall h, In h F -> p h = true -> has v h = true /\ forall b, In b bad -> has b h = false) ->
  count_of p F + N.of_nat (length bad) <= 51.
Proof.
  intros [HF HN] Hnd Hc Hp. rewrite count_length. set (L := filter p F).
  assert (HL : forall h, In h L -> hole_hand h /\ has v h = true /\ forall b, In b bad -> has b h = false).
  { intros h Hh. apply filter_In in Hh as [Hh1 Hh2]. rewrite Forall_forall in HF. split; [apply HF; exact Hh1|]. apply Hp; assumption. }
  assert (HD : NoDup (map (other v) L)).
  { apply others_distinct; [apply Forall_forall; intros h Hh; apply HL; exact Hh|apply no_repeats_filter; exact HN|intros h Hh; apply HL; exact Hh]. }
  assert (HA : NoDup (map (other v) L ++ v :: bad)).
  { apply NoDup_app_intro; [exact HD|exact Hnd|]. intros x Hx Hb. apply in_map_iff in Hx as (h & <- & Hh). destruct (HL h Hh) as ((_ & _ & Hne) & H1 & H2). apply has_iff in H1. unfold other in Hb. destruct Hb as [Hb|Hb].
    - destruct (N.eqb_spec (first_card h) v); intuition congruence.
    - apply H2 in Hb. unfold has in Hb. apply orb_false_iff in Hb as [B1 B2]. destruct (N.eqb_spec (first_card h) v); rewrite N.eqb_refl in *; discriminate. }
  assert (HI : incl (map (other v) L ++ v :: bad) (nseq 0 52)).
  { intros x Hx. apply nseq_In. apply in_app_iff in Hx as [Hx|Hx].
    - apply in_map_iff in Hx as (h & <- & Hh). destruct (HL h Hh) as ((H1 & H2 & _) & _). unfold is_card in H1, H2. unfold other. destruct (first_card h =? v); lia.
    - rewrite Forall_forall in Hc. specialize (Hc x Hx). unfold is_card in Hc. lia. }
  apply (NoDup_incl_length HA) in HI. rewrite app_length, map_length in HI. cbn [length] in HI. change (length (nseq 0 52)) with 52%nat in HI. lia.
Qed.

(* ------------------------------------------------------------------------- *)
(** * Three families of hands without three disjoint hands *)

Definition blocked (F G H : list whand) : Prop :=
  forall f g h, In f F -> In g G -> In h H -> touch f g = true \/ touch f h = true \/ touch g h = true.
Definition apart (F G : list whand) : N := sumf (fun f => count_of (fun g => negb (touch f g)) G) F.

Lemma blocked_swap F G H : blocked F G H -> blocked F H G.
Proof. intros HB f g h Hf Hg Hh. destruct (HB f h g Hf Hh Hg) as [E|[E|E]]; rewrite 1?(touch_sym h g) in E; auto. Qed.
Lemma blocked_turn F G H : blocked F G H -> blocked H F G.
Proof. intros HB h f g Hh Hf Hg. rewrite (touch_sym h f), (touch_sym h g). destruct (HB f g h Hf Hg Hh) as [E|[E|E]]; auto. Qed.
Lemma apart_sym F G : apart F G = apart G F.
Proof. unfold apart, count_of. rewrite sumf_swap. apply sumf_ext. intros g _. apply sumf_ext. intros f _. rewrite touch_sym. reflexivity. Qed.
Lemma apart_le F G : apart F G <= N.of_nat (length F) * N.of_nat (length G).
Proof.
  unfold apart. etransitivity; [apply (sumf_le _ (fun _ => N.of_nat (length G))); intros f _; apply count_at_most|]. rewrite sumf_const. lia.
Qed.
Lemma apart_pos F G : 0 < apart F G -> exists f g, In f F /\ In g G /\ touch f g = false.
Proof.
  unfold apart. induction F as [|f F IH]; intros H; [cbn in H; lia|]. rewrite sumf_cons in H.
  destruct (N.eq_dec (count_of (fun g => negb (touch f g)) G) 0) as [E|E].
  - destruct IH as (f' & g & Hf & Hg & Ht); [lia|]. exists f', g. split; [right; exact Hf|]. auto.
  - destruct (count_some (fun g => negb (touch f g)) G) as (g & Hg & Ht); [lia|]. exists f, g. split; [left; reflexivity|]. split; [exact Hg|]. apply negb_true_iff. exact Ht.
Qed.
Lemma covered F cs : wf F -> Forall is_card cs -> count_of (fun h => existsb (fun v => has v h) cs) F <= 51 * N.of_nat (length cs).
Proof.
  intros HF. induction cs as [|v cs IH]; intros Hc.
  - unfold count_of. rewrite sumf_zero; [cbn; lia|]. reflexivity.
  - inversion Hc as [|x l Hv Hcs]; subst. specialize (IH Hcs). cbn [length].
    pose proof (count_or (fun h => existsb (fun v => has v h) (v :: cs)) (has v) (fun h => existsb (fun v => has v h) cs) F) as HO.
    assert (HS : count_of (has v) F + N.of_nat (@length N []) <= 51).
    { apply (star F v []); [exact HF|constructor; [intros []|constructor]|constructor; [exact Hv|constructor]|]. intros h _ Hh. split; [exact Hh|]. intros b []. }
    cbn [length] in HS. etransitivity; [apply HO; intros h _ Hh; cbn [existsb] in Hh; apply orb_true_iff; exact Hh|]. lia.
Qed.
Lemma blocked_size F G H : wf F -> wf G -> wf H -> blocked F G H -> 0 < apart G H -> N.of_nat (length F) <= 204.
Proof.
  intros WF WG WH HB Hp. apply apart_pos in Hp as (g & h & Hg & Hh & Ht). destruct WG as [WG _], WH as [WH _]. rewrite Forall_forall in WG, WH.
  destruct (WG g Hg) as (G1 & G2 & _), (WH h Hh) as (H1 & H2 & _).
  pose proof (covered F [first_card g; second_card g; first_card h; second_card h] WF) as HC.
  rewrite count_all in HC; [cbn [length] in HC; specialize (HC ltac:(repeat constructor; assumption)); lia|].
  intros f Hf. cbn [existsb]. rewrite orb_false_r. destruct (HB f g h Hf Hg Hh) as [E|[E|E]]; [| |congruence]; rewrite touch_sym in E; unfold touch in E; apply orb_true_iff in E as [-> | ->]; rewrite ?orb_true_r; reflexivity.
Qed.
Lemma cross F G H v g h : wf F -> blocked F G H -> 5 <= count_of (has v) F -> In g G -> In h H -> has v g = false -> has v h = false -> touch g h = true.
Proof.
  intros [WF HN] HB H5 Hg Hh Vg Vh. destruct (touch g h) eqn:E; [reflexivity|exfalso].
  set (L := filter (has v) F). assert (HL : forall f, In f L -> In f F /\ has v f = true) by (intros f Hf; apply filter_In; exact Hf).
  assert (HD : NoDup (map (other v) L)).
  { apply others_distinct; [|apply no_repeats_filter; exact HN|intros f Hf; apply HL; exact Hf]. apply Forall_forall. intros f Hf. rewrite Forall_forall in WF. apply WF, HL. exact Hf. }
  assert (HI : incl (map (other v) L) [first_card g; second_card g; first_card h; second_card h]).
  { assert (K : forall f k, has v f = true -> has v k = false -> touch f k = true -> other v f = first_card k \/ other v f = second_card k).
    { intros f k V1 V2 HT. apply touch_iff in HT as (w & T1 & T2). assert (Hne : w <> v) by (intros ->; congruence). apply has_iff in T1, T2, V1. unfold other.
      destruct (N.eqb_spec (first_card f) v) as [Ef|Ef].
      - destruct T1 as [T1|T1]; [congruence|]. rewrite <- T1. exact T2.
      - destruct V1 as [V1|V1]; [congruence|]. destruct T1 as [T1|T1]; [|congruence]. rewrite <- T1. exact T2. }
    intros x Hx. apply in_map_iff in Hx as (f & <- & Hf). apply HL in Hf as [Hf Hv]. cbn [In].
    destruct (HB f g h Hf Hg Hh) as [T|[T|T]]; [| |congruence]; apply K in T; try assumption; intuition. }
  apply (NoDup_incl_length HD) in HI. rewrite map_length in HI. cbn [length] in HI. rewrite count_length in H5. fold L in H5. lia.
Qed.
Definition off (v : N) (F : list whand) : N := count_of (fun h => negb (has v h)) F.
Lemma cross_small F v g : wf F -> hole_hand g -> is_card v -> has v g = false -> (forall h, In h F -> has v h = false -> touch g h = true) -> off v F <= 100.
Proof.
  intros WF (G1 & G2 & _) Hv Vg HT. unfold has in Vg. apply orb_false_iff in Vg as [V1 V2]. apply N.eqb_neq in V1, V2.
  assert (HS : forall a, is_card a -> a <> v -> count_of (fun h => has a h && negb (has v h)) F <= 50).
  { intros a Ha Hne. pose proof (star F a [v] (fun h => has a h && negb (has v h)) WF) as S. cbn [length] in S. assert (S' := S ltac:(repeat constructor; [intros [E|[]]; congruence|intros []])). 
    specialize (S' ltac:(repeat constructor; assumption)). enough (count_of (fun h => has a h && negb (has v h)) F + N.of_nat 1 <= 51) by lia. apply S'.
    intros h _ Hh. apply andb_true_iff in Hh as [Hh1 Hh2]. split; [exact Hh1|]. intros b [<-|[]]. apply negb_true_iff. exact Hh2. }
  pose proof (HS _ G1 V1) as B1. pose proof (HS _ G2 V2) as B2. unfold off.
  etransitivity; [apply (count_or _ (fun h => has (first_card g) h && negb (has v h)) (fun h => has (second_card g) h && negb (has v h)))|lia].
  intros h Hh Hn. apply negb_true_iff in Hn. specialize (HT h Hh Hn). unfold touch in HT. rewrite Hn. cbn [negb]. rewrite !andb_true_r. apply orb_true_iff. exact HT.
Qed.
Lemma star_part F G v : wf F -> Forall hole_hand G -> is_card v ->
  sumf (fun g => if has v g then 0 else count_of (fun f => has v f && negb (touch f g)) F) G <= 49 * off v G.
Proof.
  intros WF WG Hv. unfold off, count_of at 2. rewrite <- sumf_mul. apply sumf_le. intros g Hg. rewrite Forall_forall in WG. destruct (WG g Hg) as (G1 & G2 & Hne).
  destruct (has v g) eqn:V; cbn [negb]; [lia|]. unfold has in V. apply orb_false_iff in V as [V1 V2]. apply N.eqb_neq in V1, V2.
  enough (count_of (fun f => has v f && negb (touch f g)) F + N.of_nat 2 <= 51) by lia. apply (star F v [first_card g; second_card g]); [exact WF| | |].
  - constructor; [intros [E|[E|[]]]; congruence|]. constructor; [intros [E|[]]; congruence|]. constructor; [intros []|constructor].
  - repeat constructor; assumption.
  - intros f _ Hf. apply andb_true_iff in Hf as [Hf1 Hf2]. split; [exact Hf1|]. apply negb_true_iff in Hf2. rewrite touch_sym in Hf2. unfold touch in Hf2. apply orb_false_iff in Hf2 as [T1 T2]. intros b [<-|[<-|[]]]; assumption.
Qed.
Lemma star_pairs F G v : wf F -> wf G -> is_card v -> (forall f g, In f F -> In g G -> has v f = false -> has v g = false -> touch f g = true) ->
  apart F G <= 49 * (off v F + off v G).
Proof.
  intros WF WG Hv HX. pose proof (star_part F G v WF (proj1 WG) Hv) as A1. pose proof (star_part G F v WG (proj1 WF) Hv) as A2.
  enough (HS : apart F G <= sumf (fun g => if has v g then 0 else count_of (fun f => has v f && negb (touch f g)) F) G + sumf (fun f => if has v f then 0 else count_of (fun g => has v g && negb (touch g f)) G) F) by lia.
  assert (E : sumf (fun g => if has v g then 0 else count_of (fun f => has v f && negb (touch f g)) F) G = sumf (fun f => sumf (fun g => if has v g then 0 else if has v f && negb (touch f g) then 1 else 0) G) F).
  { rewrite sumf_swap. apply sumf_ext. intros g _. destruct (has v g); [symmetry; apply sumf_zero; reflexivity|reflexivity]. }
  rewrite E, <- sumf_add. unfold apart. apply sumf_le. intros f Hf. unfold count_of.
  assert (E2 : (if has v f then 0 else sumf (fun x => if has v x && negb (touch x f) then 1 else 0) G) = sumf (fun x => if has v f then 0 else if has v x && negb (touch x f) then 1 else 0) G).
  { destruct (has v f); [symmetry; apply sumf_zero; reflexivity|reflexivity]. }
  rewrite E2, <- sumf_add. apply sumf_le. intros g Hg. rewrite (touch_sym g f). specialize (HX f g Hf Hg). destruct (touch f g) eqn:T; cbn [negb]; [lia|].
  destruct (has v f) eqn:V1, (has v g) eqn:V2; cbn [andb]; try lia.
  exfalso. assert (touch f g = true) by (apply touch_iff; exists v; auto). congruence.
Qed.
Definition far (F G : list whand) : Prop := 10000 <= apart F G.
Lemma off_zero F v : off v F = 0 -> count_of (has v) F = N.of_nat (length F).
Proof. intros H. apply count_all. intros h Hh. apply negb_false_iff. apply (count_none _ _ H h Hh). Qed.
Lemma large_side F G H v : wf F -> wf G -> wf H -> blocked F G H -> is_card v -> far F G -> far F H -> far G H -> 5 <= count_of (has v) F -> off v H = 0 -> False.
Proof.
  intros WF WG WH HB Hv FG FH GH H5 H0. unfold far in *.
  pose proof (blocked_size F G H WF WG WH HB ltac:(lia)) as SF. pose proof (apart_le F H) as LFH.
  assert (HH5 : 5 <= count_of (has v) H) by (rewrite (off_zero _ _ H0); nia).
  assert (XGH : apart G H <= 49 * (off v G + off v H)).
  { apply star_pairs; try assumption. intros g h Hg Hh V1 V2. apply (cross F G H v); assumption. }
  assert (XFH : apart F H <= 49 * (off v F + off v H)).
  { apply star_pairs; try assumption. intros f h Hf Hh V1 V2. pose proof (count_none _ _ H0 h Hh) as E. cbn beta in E. rewrite V2 in E. discriminate. }
  assert (Hex : exists g, In g G /\ negb (has v g) = true) by (apply count_some; fold (off v G); lia). destruct Hex as (g & Hg & Vg). apply negb_true_iff in Vg.
  assert (HS : off v F <= 100); [|lia]. apply (cross_small F v g); try assumption; [destruct WG as [WG _]; rewrite Forall_forall in WG; apply WG; exact Hg|].
  intros f Hf V. rewrite touch_sym. apply (cross H F G v); try assumption. apply blocked_turn. exact HB.
Qed.
Lemma large_star F G H v : wf F -> wf G -> wf H -> blocked F G H -> is_card v -> far F G -> far F H -> far G H -> 5 <= count_of (has v) F -> False.
Proof.
  intros WF WG WH HB Hv FG FH GH H5. destruct (N.eq_dec (off v H) 0) as [E|E]; [apply (large_side F G H v); assumption|].
  destruct (N.eq_dec (off v G) 0) as [E'|E'].
  { apply (large_side F H G v); try assumption; [apply blocked_swap; exact HB|]. unfold far. rewrite apart_sym. exact GH. }
  assert (HX : forall g h, In g G -> In h H -> has v g = false -> has v h = false -> touch g h = true) by (intros g h Hg Hh V1 V2; apply (cross F G H v); assumption).
  assert (Hex : exists g, In g G /\ negb (has v g) = true) by (apply count_some; fold (off v G); lia). destruct Hex as (g & Hg & Vg). apply negb_true_iff in Vg.
  assert (Hex : exists h, In h H /\ negb (has v h) = true) by (apply count_some; fold (off v H); lia). destruct Hex as (h & Hh & Vh). apply negb_true_iff in Vh.
  assert (Wg : hole_hand g) by (destruct WG as [WG _]; rewrite Forall_forall in WG; apply WG; exact Hg). assert (Wh : hole_hand h) by (destruct WH as [WH _]; rewrite Forall_forall in WH; apply WH; exact Hh).
  assert (B1 : off v H <= 100) by (apply (cross_small H v g); try assumption; intros k Hk V; apply HX; assumption).
  assert (B2 : off v G <= 100) by (apply (cross_small G v h); try assumption; intros k Hk V; rewrite touch_sym; apply HX; assumption).
  pose proof (star_pairs G H v WG WH Hv HX) as B. unfold far in GH. lia.
Qed.
Lemma few_touch F g : (forall v, is_card v -> count_of (has v) F < 5) -> hole_hand g -> count_of (touch g) F <= 8.
Proof.
  intros HD (G1 & G2 & _). pose proof (HD _ G1) as B1. pose proof (HD _ G2) as B2.
  etransitivity; [apply (count_or _ (has (first_card g)) (has (second_card g)))|lia]. intros h _ Hh. apply orb_true_iff. exact Hh.
Qed.
Lemma pick_other {A} (p : A -> bool) l : count_of p l < N.of_nat (length l) -> exists x, In x l /\ p x = false.
Proof.
  intros H. destruct (count_some (fun x => negb (p x)) l) as (x & Hx & E).
  - pose proof (count_or (fun _ => true) p (fun x => negb (p x)) l) as HO. rewrite (count_all (fun _ => true)) in HO by reflexivity.
    assert (HO' := HO ltac:(intros y _ _; destruct (p y); auto)). lia.
  - exists x. split; [exact Hx|]. apply negb_true_iff. exact E.
Qed.
Lemma some_star F : (exists v, is_card v /\ 5 <= count_of (has v) F) \/ (forall v, is_card v -> count_of (has v) F < 5).
Proof.
  destruct (existsb (fun v => 5 <=? count_of (has v) F) (nseq 0 52)) eqn:E.
  - left. apply existsb_exists in E as (v & Hv & E). apply nseq_In in Hv. exists v. split; [unfold is_card; lia|apply N.leb_le; exact E].
  - right. intros v Hv. destruct (N.ltb_spec (count_of (has v) F) 5) as [Hl|Hl]; [exact Hl|exfalso].
    assert (E' : existsb (fun v => 5 <=? count_of (has v) F) (nseq 0 52) = true); [|congruence]. apply existsb_exists. exists v. split; [apply nseq_In; unfold is_card in Hv; lia|apply N.leb_le; exact Hl].
Qed.
Theorem three_apart F G H : wf F -> wf G -> wf H -> far F G -> far F H -> far G H ->
  exists f g h, In f F /\ In g G /\ In h H /\ touch f g = false /\ touch f h = false /\ touch g h = false.
Proof.
  intros WF WG WH FG FH GH.
  destruct (existsb (fun f => existsb (fun g => existsb (fun h => negb (touch f g) && (negb (touch f h) && negb (touch g h))) H) G) F) eqn:E.
  { apply existsb_exists in E as (f & Hf & E). apply existsb_exists in E as (g & Hg & E). apply existsb_exists in E as (h & Hh & E). apply andb_true_iff in E as [E1 E]. apply andb_true_iff in E as [E2 E3].
    apply negb_true_iff in E1, E2, E3. exists f, g, h. auto 10. }
  exfalso. assert (HB : blocked F G H).
  { intros f g h Hf Hg Hh. destruct (touch f g) eqn:T1; [auto|]. destruct (touch f h) eqn:T2; [auto|]. destruct (touch g h) eqn:T3; [auto|]. exfalso.
    assert (E' : existsb (fun f => existsb (fun g => existsb (fun h => negb (touch f g) && (negb (touch f h) && negb (touch g h))) H) G) F = true); [|congruence].
    apply existsb_exists. exists f. split; [exact Hf|]. apply existsb_exists. exists g. split; [exact Hg|]. apply existsb_exists. exists h. split; [exact Hh|]. rewrite T1, T2, T3. reflexivity. }
  assert (GF : far G F) by (unfold far; rewrite apart_sym; exact FG). assert (HF : far H F) by (unfold far; rewrite apart_sym; exact FH). assert (HG : far H G) by (unfold far; rewrite apart_sym; exact GH).
  destruct (some_star F) as [(v & Hv & H5)|DF]; [exact (large_star F G H v WF WG WH HB Hv FG FH GH H5)|].
  destruct (some_star H) as [(v & Hv & H5)|DH]; [exact (large_star H F G v WH WF WG (blocked_turn _ _ _ HB) Hv HF HG FG H5)|].
  destruct (some_star G) as [(v & Hv & H5)|DG]; [exact (large_star G H F v WG WH WF (blocked_turn _ _ _ (blocked_turn _ _ _ HB)) Hv GH GF HF H5)|].
  unfold far in *. pose proof (blocked_size F G H WF WG WH HB ltac:(lia)) as SF. pose proof (apart_le F G) as L1. pose proof (apart_le F H) as L2.
  assert (NG : 16 < N.of_nat (length G)) by nia. assert (NH : 16 < N.of_nat (length H)) by nia.
  destruct F as [|f F']; [change (apart [] G) with 0 in FG; lia|]. assert (Hf : In f (f :: F')) by (left; reflexivity). destruct WF as [WF _], WG as [WG _]. rewrite Forall_forall in WF, WG.
  pose proof (few_touch G f DG (WF f Hf)) as B1. destruct (pick_other (touch f) G) as (g & Hg & T1); [lia|].
  pose proof (few_touch H f DH (WF f Hf)) as B2. pose proof (few_touch H g DH (WG g Hg)) as B3.
  destruct (pick_other (fun h => touch f h || touch g h) H) as (h & Hh & T2).
  - eapply N.le_lt_trans; [apply (count_or _ (touch f) (touch g)); intros h _ Hh; apply orb_true_iff; exact Hh|]. lia.
  - apply orb_false_iff in T2 as [T2 T3]. destruct (HB f g h Hf Hg Hh) as [X|[X|X]]; congruence.
Qed.

(* ------------------------------------------------------------------------- *)
(** * Two or three players *)

Lemma touch_shares f g : shares (dealt [f]) (dealt [g]) = touch f g.
Proof.
  unfold shares, dealt, two_cards, touch, has. cbn [flat_map app existsb]. rewrite !orb_false_r. rewrite (N.eqb_sym (first_card f) (first_card g)), (N.eqb_sym (first_card f) (second_card g)), (N.eqb_sym (second_card f) (first_card g)), (N.eqb_sym (second_card f) (second_card g)). reflexivity.
Qed.
Lemma fair_single r : Forall hole_hand r -> fair [r] = map (fun h => [h]) r.
Proof.
  intros H. unfold fair. cbn [picks]. induction H as [|h r (_ & _ & Hne) _ IH]; [reflexivity|]. cbn [flat_map map app] in *. cbn [filter].
  assert (E : distinct (dealt [h]) = true); [|rewrite E, IH; reflexivity]. unfold dealt, two_cards. cbn [flat_map app distinct existsb]. apply N.eqb_neq in Hne. rewrite Hne. reflexivity.
Qed.
Lemma compatible_apart r s : Forall hole_hand r -> Forall hole_hand s -> compatible (fair [r]) (fair [s]) = apart r s.
Proof.
  intros Hr Hs. rewrite (fair_single r Hr), (fair_single s Hs). unfold compatible, apart, count_of. rewrite sumf_map. apply sumf_ext. intros f _. rewrite sumf_map. apply sumf_ext. intros g _.
  rewrite touch_shares. destruct (touch f g); reflexivity.
Qed.
Lemma in_picks_of {A} (rs : list (list A)) d : In d (picks rs) <-> Forall2 (fun h r => In h r) d rs.
Proof.
  revert d. induction rs as [|r rs IH]; intros d; cbn [picks].
  - split; [intros [<-|[]]; constructor|]. intros H. inversion H. left. reflexivity.
  - rewrite in_flat_map. split.
    + intros (h & Hh & Hd). apply in_map_iff in Hd as (d' & <- & Hd). constructor; [exact Hh|apply IH; exact Hd].
    + intros H. inversion H as [|h r' d' rs' Hh Hd]; subst. exists h. split; [exact Hh|]. apply in_map. apply IH. exact Hd.
Qed.
Lemma in_fair rs d : In d (fair rs) <-> Forall2 (fun h r => In h r) d rs /\ distinct (dealt d) = true.
Proof. unfold fair. rewrite filter_In, in_picks_of. reflexivity. Qed.
Lemma Forall2_map_r' {A B C} (R : A -> C -> Prop) (f : B -> C) l l' : Forall2 R l (map f l') <-> Forall2 (fun a b => R a (f b)) l l'.
Proof.
  revert l'. induction l as [|x l IH]; intros [|y l']; cbn [map]; split; intros H; inversion H; subst; constructor; try assumption; apply IH; assumption.
Qed.
Lemma Forall2_swap {A B} (R : A -> B -> Prop) l l' : Forall2 R l l' -> Forall2 (fun b a => R a b) l' l.
Proof. induction 1; constructor; assumption. Qed.
(* a card-disjoint choice, in any order of the players, is a deal *)
Lemma deal_of ranges board dead q : Permutation q (seq 0 (length ranges)) -> fair (map (range_of (filtered board dead ranges)) q) <> [] -> deals ranges board dead <> [].
Proof.
  intros HP HF HD. destruct (fair (map (range_of (filtered board dead ranges)) q)) as [|d l] eqn:E; [contradiction|].
  assert (Hd : In d (fair (map (range_of (filtered board dead ranges)) q))) by (rewrite E; left; reflexivity). clear E HF l. apply in_fair in Hd as [Hd Hdis].
  apply (proj1 (Forall2_map_r' (fun h r => In h r) (range_of (filtered board dead ranges)) d q)) in Hd. apply Forall2_swap in Hd. destruct (Permutation_Forall2 HP Hd) as (d' & HPd & Hd'). apply Forall2_swap in Hd'.
  assert (Hin : In d' (deals ranges board dead)); [|rewrite HD in Hin; exact Hin]. rewrite <- deals_filtered. apply filter_In. split.
  - apply in_picks_of. rewrite <- (map_range_of (filtered board dead ranges)). rewrite filtered_length. apply Forall2_map_r'. exact Hd'.
  - apply possible_spec. split; [rewrite <- (dealt_perm _ _ HPd); apply distinct_NoDup; exact Hdis|].
    intros c Hc. unfold dealt in Hc. apply in_flat_map in Hc as (h & Hh & Hc).
    assert (Hx : exists i, In h (range_of (filtered board dead ranges) i)).
    { clear - Hd' Hh. induction Hd' as [|x i l l' Hx _ IH]; [destruct Hh|]. destruct Hh as [->|Hh]; [exists i; exact Hx|apply IH; exact Hh]. }
    destruct Hx as (i & Hi). unfold range_of, filtered in Hi. destruct (Nat.ltb_spec i (length ranges)) as [Hl|Hl]; [|rewrite nth_overflow in Hi by (rewrite map_length; lia); destruct Hi].
    rewrite (nth_indep _ _ (filter (free board dead) [])) in Hi by (rewrite map_length; exact Hl). rewrite map_nth in Hi. apply filter_In in Hi as [_ Hf].
    unfold free, avoids in Hf. unfold on_table. destruct Hc as [<-|[<-|[]]]; destruct (N.testbit board (first_card h)), (N.testbit dead (first_card h)), (N.testbit board (second_card h)), (N.testbit dead (second_card h)); try discriminate; reflexivity.
Qed.
Lemma compatible_fair rs1 rs2 : 0 < compatible (fair rs1) (fair rs2) -> fair (rs1 ++ rs2) <> [].
Proof. rewrite compatible_joined, joined_fair. intros H E. rewrite E in H. cbn in H. lia. Qed.
Lemma three_fair r s t : wf r -> wf s -> wf t -> far r s -> far r t -> far s t -> fair [r; s; t] <> [].
Proof.
  intros Wr Ws Wt H1 H2 H3 E. destruct (three_apart r s t Wr Ws Wt H1 H2 H3) as (f & g & h & Hf & Hg & Hh & T1 & T2 & T3).
  assert (Hin : In [f; g; h] (fair [r; s; t])); [|rewrite E in Hin; exact Hin]. apply in_fair. split; [repeat constructor; assumption|].
  change [f; g; h] with ([f] ++ [g; h]). rewrite dealt_app, distinct_app. change [g; h] with ([g] ++ [h]). rewrite dealt_app, distinct_app, touch_shares, T3.
  assert (D : forall r x, wf r -> In x r -> distinct (dealt [x]) = true).
  { intros r' x [W _] Hx. rewrite Forall_forall in W. destruct (W x Hx) as (_ & _ & Hne). unfold dealt, two_cards. cbn [flat_map app distinct existsb]. apply N.eqb_neq in Hne. rewrite Hne. reflexivity. }
  rewrite (D r f Wr Hf), (D s g Ws Hg), (D t h Wt Hh). cbn [andb negb].
  assert (ES : shares (dealt [f]) (dealt [g] ++ dealt [h]) = false); [|rewrite ES; reflexivity].
  rewrite <- touch_shares in T1, T2. unfold shares in *. apply not_true_iff_false. intros X. apply existsb_exists in X as (c & Hc & X). rewrite existsb_app in X. apply orb_true_iff in X as [X|X].
  - assert (Y : existsb (fun c => existsb (N.eqb c) (dealt [g])) (dealt [f]) = true) by (apply existsb_exists; exists c; auto). congruence.
  - assert (Y : existsb (fun c => existsb (N.eqb c) (dealt [h])) (dealt [f]) = true) by (apply existsb_exists; exists c; auto). congruence.
Qed.

Lemma conflict_found p ranges board dead : Forall range_ok ranges -> (2 <= length ranges <= 3)%nat -> (length ranges = 3%nat -> Forall no_repeats ranges) -> deals ranges board dead = [] ->
  combine_ranges p ranges board dead = Ret (RErr ConflictingRanges).
Proof.
  intros Hr Hn HN Hd. pose proof (ok_hole _ Hr) as Hh. unfold combine_ranges. rewrite (filter_ranges_ok p board dead ranges Hh). cbn [bind].
  pose proof (filtered_ok _ board dead ranges Hh) as Hfo. set (rs := filtered board dead ranges) in *. assert (Hl : length rs = length ranges) by apply filtered_length.
  destruct (from_ranges_ok p rs Hfo ltac:(lia)) as (pss & crs & Efr & [HF HP] & Hset).
  rewrite Efr. cbn [bind]. assert (Ee : existsb (fun cr => cr_size cr =? 0) crs = true); [|rewrite Ee; reflexivity].
  assert (Hfair : fair (map (range_of rs) (concat pss)) = []).
  { destruct (fair (map (range_of rs) (concat pss))) as [|d l] eqn:E; [reflexivity|exfalso]. apply (deal_of ranges board dead (concat pss)); [rewrite <- Hl; exact HP| |exact Hd]. fold rs. rewrite E. discriminate. }
  assert (Hlc : length (concat pss) = length ranges) by (rewrite (Permutation_length HP), seq_length; exact Hl).
  assert (Hsets : forall i j ri rj pi pj, (j < i)%nat -> nth_error pss i = Some pi -> nth_error pss j = Some pj -> nth_error crs i = Some ri -> nth_error crs j = Some rj -> 10000 <= compatible (fair (map (range_of rs) pj)) (fair (map (range_of rs) pi))).
  { intros i j ri rj pi pj Hij Pi Pj Ri Rj. assert (Hi : (i < length crs)%nat) by (apply nth_error_Some; congruence). specialize (Hset i j ltac:(lia)).
    rewrite (nth_error_nth _ _ _ Ri), (nth_error_nth _ _ _ Rj) in Hset. destruct (Forall2_nth_r _ _ _ _ _ HF Ri) as (qi & Qi & (Hqi & _)). destruct (Forall2_nth_r _ _ _ _ _ HF Rj) as (qj & Qj & (Hqj & _)).
    rewrite Pi in Qi. rewrite Pj in Qj. injection Qi as <-. injection Qj as <-. rewrite (estimate_ok rs _ _ _ _ Hqi Hqj) in Hset. rewrite compatible_sym. exact Hset. }
  destruct HF as [|p1 c1 pss crs (R1 & _ & N1) HF]; [cbn in Hlc; lia|].
  destruct HF as [|p2 c2 pss crs (R2 & _ & N2) HF].
  { cbn [concat app] in Hfair. rewrite app_nil_r in Hfair. cbn [existsb]. rewrite (range_is_size _ _ _ R1). unfold size_of, fairs. rewrite Hfair. reflexivity. }
  pose proof (Hsets 1%nat 0%nat c2 c1 p2 p1 ltac:(lia) eq_refl eq_refl eq_refl eq_refl) as S12.
  destruct HF as [|p3 c3 pss crs (R3 & _ & N3) HF].
  { exfalso. cbn [concat] in Hfair. rewrite app_nil_r, map_app in Hfair. apply (compatible_fair (map (range_of rs) p1) (map (range_of rs) p2)); [lia|exact Hfair]. }
  pose proof (Hsets 2%nat 0%nat c3 c1 p3 p1 ltac:(lia) eq_refl eq_refl eq_refl eq_refl) as S13. pose proof (Hsets 2%nat 1%nat c3 c2 p3 p2 ltac:(lia) eq_refl eq_refl eq_refl eq_refl) as S23.
  exfalso. cbn [concat] in Hlc, Hfair. rewrite !app_length in Hlc.
  destruct p1 as [|i1 p1]; [contradiction|]. destruct p2 as [|i2 p2]; [contradiction|]. destruct p3 as [|i3 p3]; [contradiction|]. cbn [length] in Hlc.
  assert (H3 : length ranges = 3%nat) by lia. destruct p1; [|cbn [length] in Hlc; lia]. destruct p2; [|cbn [length] in Hlc; lia]. destruct p3; [|cbn [length] in Hlc; lia].
  assert (Epss : concat pss = []) by (destruct (concat pss); [reflexivity|cbn [length] in Hlc; lia]). rewrite Epss in Hfair. cbn [app map] in Hfair, S12, S13, S23.
  assert (W : forall i, wf (range_of rs i)).
  { intros i. unfold range_of. destruct (Nat.ltb_spec i (length rs)) as [Hi|Hi]; [|rewrite nth_overflow by exact Hi; split; constructor]. unfold rs, filtered.
    rewrite (nth_indep _ _ (filter (free board dead) [])) by exact Hi. rewrite map_nth. apply wf_filter. specialize (HN H3). rewrite Forall_forall in Hh, HN.
    assert (Hin : In (nth i ranges []) ranges) by (apply nth_In; lia). split; [apply Hh; exact Hin|apply HN; exact Hin]. }
  apply (three_fair (range_of rs i1) (range_of rs i2) (range_of rs i3)); try apply W; try exact Hfair; unfold far; rewrite <- compatible_apart by apply W; assumption.
Qed.

Lemma equity_conflict p ranges board dead : Forall range_ok ranges -> board < 2 ^ 64 -> dead < 2 ^ 64 -> accepted (length ranges) board dead ->
  (length ranges <= 3)%nat -> (length ranges = 3%nat -> Forall no_repeats ranges) ->
  (forall threads cancelled sched, exact_equity p ranges board dead threads cancelled sched = Ret (RErr ConflictingRanges) <-> deals ranges board dead = []) /\
  (forall threads target cancelled shuf rngs fuel sched, approx_equity p ranges board dead threads target cancelled shuf rngs fuel sched = Ret (RErr ConflictingRanges) <-> deals ranges board dead = []).
Proof.
  intros Hr Hb Hd Ha H3 HN. destruct (equity_conflict_sound p ranges board dead Hr) as [S1 S2]. apply (accepted_ok _ _ _ Hb Hd) in Ha. assert (H2 : (2 <= length ranges)%nat) by (apply validate_none in Ha; lia).
  assert (Ha' : validate (@length (list combo) ranges) board dead = None) by exact Ha.
  assert (HC : deals ranges board dead = [] -> combine_ranges p ranges board dead = Ret (RErr ConflictingRanges)) by (intros E; apply conflict_found; [exact Hr|lia|exact HN|exact E]).
  split; intros; (split; [first [apply S1|apply S2]|]); intros E; specialize (HC E); [unfold exact_equity|unfold approx_equity]; rewrite Ha', HC; reflexivity.
Qed.
