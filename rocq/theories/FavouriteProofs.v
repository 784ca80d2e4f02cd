(* The player who is never behind has at least the other player's equity. *)
From Coq Require Import Floats.SpecFloat QArith Lqa Permutation.
From Verif Require Import Base BaseProofs SumFacts Ghost Float64 FloatProofs FloatSumProofs ConvergeProofs EquityFloatProofs Hand FastDivide Range Combined Sim Approx SpecPoker ListFacts
  SpecNames SpecHand SpecRange SpecEquity SpecResults SpecRun SpecApprox SpecShare SpecFavourite EnumProofs ShowdownProofs BoardProofs CombinedProofs PositionProofs MergeProofs
  MachineProofs SetupProofs ExactProofs ResultProofs CombineRunProofs RunProofs ConvergeRunProofs EquityProofs ShareProofs SureProofs NumberProofs.
Local Open Scope N_scope.
#[local] Opaque NUM_HANDS.

(* ------------------------------------------------------------------------- *)
(** * Order of nonnegative floats *)

Definition val (f : f64) (v : Q) : Prop := (f = f_zero /\ v == 0 \/ is_num f v)%Q.
Definition below (f g : f64) : Prop := f = g \/ exists v w, val f v /\ val g w /\ (v < w)%Q.
Lemma upto_val k f v : upto_B k f v -> val f v.
Proof. intros [[H|[H _]] _]; [left; exact H|right; exact H]. Qed.
Lemma val_inj f g v w : val f v -> val g w -> (v == w)%Q -> f = g.
Proof.
  intros [[-> Hv]|Hv] [[-> Hw]|Hw] E; [reflexivity| | |exact (num_unique _ _ _ _ Hv Hw E)]; exfalso.
  - apply num_pos in Hw. lra.
  - apply num_pos in Hv. lra.
Qed.
Lemma val_fun f v w : val f v -> val f w -> (v == w)%Q.
Proof.
  intros [[-> Hv]|Hv] [[E Hw]|Hw]; [lra| | |].
  - destruct Hw as (m & e & Ef & _). discriminate.
  - subst f. destruct Hv as (m & e & Ef & _). discriminate.
  - destruct Hv as (m & e & -> & _ & E1), Hw as (m' & e' & E2 & _ & E3). injection E2 as <- <-. lra.
Qed.
Lemma below_of f g v w : val f v -> val g w -> (v <= w)%Q -> below f g.
Proof. intros Hf Hg H. destruct (Qlt_le_dec v w) as [L|L]; [right; exists v, w; auto|left]. apply (val_inj f g v w Hf Hg). lra. Qed.
Lemma below_trans f g h : below f g -> below g h -> below f h.
Proof.
  intros [->|(v & w & Hv & Hw & L)]; [auto|]. intros [<-|(w' & x & Hw' & Hx & L')]; [right; exists v, w; auto|]. right. exists v, x. pose proof (val_fun _ _ _ Hw Hw'). repeat split; auto. lra.
Qed.

Lemma F_zero : F 0.
Proof. exists 0%Z, 0%Z. split; [lia|]. unfold V. change (inject_Z 0) with 0%Q. ring. Qed.
Lemma val_F f v : val f v -> F v.
Proof. intros [[_ H]|H]; [|exact (num_F _ _ H)]. destruct F_zero as (m & e & Hm & E). exists m, e. split; [exact Hm|]. lra. Qed.
Lemma nearest_self u v : F u -> (u == v)%Q -> nearest v u.
Proof. intros Hu E. split; [exact Hu|]. intros x _. split; intros L; lra. Qed.
Lemma add_nearest f g v w : upto_B 118 f v -> upto_B 118 g w -> exists z, val (f_add f g) z /\ nearest (v + w) z.
Proof.
  intros Hf Hg. pose proof (val_F _ _ (upto_val _ _ _ Hf)) as Ff. pose proof (val_F _ _ (upto_val _ _ _ Hg)) as Fg. destruct Hf as [[[-> E]|[Nf L]] U], Hg as [[[-> E']|[Ng L']] U'].
  - exists v. split; [left; split; [reflexivity|exact E]|]. apply nearest_self; [exact Ff|lra].
  - exists w. rewrite (num_add g w Ng). split; [right; exact Ng|]. apply nearest_self; [exact Fg|lra].
  - exists v. rewrite (add_zero_r f v Nf). split; [right; exact Nf|]. apply nearest_self; [exact Ff|lra].
  - assert (B0 : (B 0 == 1)%Q) by reflexivity. destruct (add_ok_range f g v w 0 118 ltac:(lia) ltac:(lia) ltac:(lia) Nf Ng) as (z & Hz); try lra.
    exists z. split; [right; exact (proj1 Hz)|exact (proj2 Hz)].
Qed.
Lemma below_add f g s : tie_ok f -> tie_ok g -> tie_ok s -> below f g -> below (f_add f s) (f_add g s).
Proof.
  intros (v & Hv) (w & Hw) (x & Hx) [->|(v' & w' & Hv' & Hw' & L)]; [left; reflexivity|].
  pose proof (val_fun _ _ _ (upto_val _ _ _ Hv) Hv') as E1. pose proof (val_fun _ _ _ (upto_val _ _ _ Hw) Hw') as E2.
  destruct (add_nearest f s v x Hv Hx) as (z & Z1 & Z2). destruct (add_nearest g s w x Hw Hx) as (y & Y1 & Y2).
  apply (below_of _ _ z y Z1 Y1). apply (nearest_mono _ _ _ _ Z2 Y2). lra.
Qed.
Lemma below_more f s : tie_ok f -> tie_ok s -> below f (f_add f s) /\ below s (f_add f s).
Proof.
  intros (v & Hv) (x & Hx). destruct (add_upto 118 118 f s v x ltac:(lia) ltac:(lia) ltac:(lia) Hv Hx) as (z & Hz & H1 & H2 & _).
  split; [exact (below_of _ _ v z (upto_val _ _ _ Hv) (upto_val _ _ _ Hz) H1)|exact (below_of _ _ x z (upto_val _ _ _ Hx) (upto_val _ _ _ Hz) H2)].
Qed.
Lemma num_leb f g v w : is_num f v -> is_num g w -> (v <= w)%Q -> SFleb f g = true.
Proof.
  intros (m & e & -> & [C1 C2] & Ev) (m' & e' & -> & [C1' C2'] & Ew) L. unfold SFleb. cbn [SFcompare].
  destruct (Z.compare_spec e e') as [E|E|E]; [|reflexivity|exfalso].
  - subst e'. apply pos_leb. rewrite Zle_Qle. apply Qmult_le_r with (B e); [apply B_pos|]. unfold V in Ev, Ew. lra.
  - assert (K : (B (52 + e) < B (53 + e'))%Q); [|apply B_lt_inv in K; lia]. rewrite !B_add, (B_Z 52), (B_Z 53) by lia. unfold V in Ev, Ew. pose proof (B_pos e). pose proof (B_pos e'). rewrite Zle_Qle in C1. rewrite Zlt_Qlt in C2'. nra.
Qed.

(* ------------------------------------------------------------------------- *)
(** * Ties *)

Definition covers (b : list N) (j k i : nat) : Prop := N.testbit (N.of_nat i) (N.of_nat k) = true -> N.testbit (N.of_nat i) (N.of_nat j) = true \/ nth i b 0 = 0.
Lemma share_ok i (b : list N) : nth i b 0 < 2 ^ 64 -> tie_ok (f_of_N (nth i b 0 / count_ones (N.of_nat i))).
Proof. intros Hb. destruct (of_N_upto _ (div_small i b Hb)) as (w & Hw & _). exists w. exact (upto_more 64 118 _ _ ltac:(lia) Hw). Qed.
Lemma add_nothing t : tie_ok t -> f_add t f_zero = t.
Proof. intros (v & [[[-> _]|[Nv _]] _]); [reflexivity|]. exact (add_zero_r t v Nv). Qed.
Lemma step_below b j k t s i : nth i b 0 < 2 ^ 64 -> covers b j k i -> tie_ok t -> tie_ok s -> below t s -> below (tie_step b k t i) (tie_step b j s i).
Proof.
  intros Hb Hc Ht Hs Hl. pose proof (share_ok i b Hb) as Hsh. unfold tie_step. unfold covers in Hc.
  destruct (N.testbit (N.of_nat i) (N.of_nat k)) eqn:Ek, (N.testbit (N.of_nat i) (N.of_nat j)) eqn:Ej, (negb (count_ones (N.of_nat i) =? 1)) eqn:En; cbn [andb]; try exact Hl.
  - apply below_add; assumption.
  - destruct (Hc eq_refl) as [E|E]; [discriminate|]. rewrite E. replace (0 / count_ones (N.of_nat i)) with 0 by (destruct (count_ones (N.of_nat i)); reflexivity). change (f_of_N 0) with f_zero. rewrite (add_nothing t Ht). exact Hl.
  - apply (below_trans _ _ _ Hl). apply below_more; assumption.
Qed.
Lemma fold_below b j k : forall l t s, (forall i, In i l -> nth i b 0 < 2 ^ 64 /\ covers b j k i) -> tie_ok t -> tie_ok s -> below t s ->
  below (fold_left (tie_step b k) l t) (fold_left (tie_step b j) l s).
Proof.
  induction l as [|i l IH]; intros t s Hl Ht Hs Hb; cbn [fold_left]; [exact Hb|]. destruct (Hl i (or_introl eq_refl)) as [H1 H2].
  apply IH; [intros; apply Hl; right; assumption|apply step_ok; assumption|apply step_ok; assumption|apply step_below; assumption].
Qed.
Lemma total_below n j k bs : Forall (fun b => forall i, (i < 2 ^ n)%nat -> nth i b 0 < 2 ^ 64) bs -> (forall b i, In b bs -> (i < 2 ^ n)%nat -> covers b j k i) ->
  below (tie_total n k bs) (tie_total n j bs).
Proof.
  intros HF HC. unfold tie_total. assert (H0 : tie_ok f_zero) by (eexists; apply upto_zero).
  enough (G : forall t s, tie_ok t -> tie_ok s -> below t s -> below (fold_left (fun t b => fold_left (tie_step b k) (seq 0 (2 ^ n)) t) bs t) (fold_left (fun t b => fold_left (tie_step b j) (seq 0 (2 ^ n)) t) bs s)).
  { apply G; [exact H0|exact H0|left; reflexivity]. }
  clear H0. induction HF as [|b bs Hb _ IH]; intros t s Ht Hs Hl; cbn [fold_left]; [exact Hl|].
  assert (Hsm : forall i, In i (seq 0 (2 ^ n)) -> nth i b 0 < 2 ^ 64) by (intros i Hi; apply in_seq in Hi; apply Hb; lia).
  apply IH; [intros b' i Hb'; apply HC; right; exact Hb'|apply fold_ok; assumption|apply fold_ok; assumption|]. apply fold_below; try assumption.
  intros i Hi. split; [exact (Hsm i Hi)|]. apply in_seq in Hi. apply HC; [left; reflexivity|lia].
Qed.

(* ------------------------------------------------------------------------- *)
(** * Equities *)

Lemma behind_masks p ranges board dead j k bs : (j < 8)%nat -> Forall (counts p ranges board dead) bs -> never_behind ranges board dead j k -> forall b i, In b bs -> covers b j k i.
Proof.
  intros Hj HC Hn b i Hb Hi. rewrite Forall_forall in HC. destruct (N.testbit (N.of_nat i) (N.of_nat j)) eqn:Ej; [left; reflexivity|right]. apply (eff_zero p ranges board dead); [exact (HC b Hb)|].
  intros d l Hd Hl E. rewrite <- E, N2Nat.id, wmask_bit in Hi, Ej. apply existsb_exists in Hi as (x & Hx & Ex). apply Nat.eqb_eq in Ex. subst x. 
  assert (Hw : In j (winners d l)) by (apply (Hn d l Hd Hl); apply filter_In in Hx; tauto).
  assert (Et : existsb (Nat.eqb j) (seen (winners d l)) = true); [|rewrite Et in Ej; discriminate]. apply existsb_exists. exists j. split; [|apply Nat.eqb_refl]. apply filter_In. split; [exact Hw|]. apply Nat.ltb_lt. exact Hj.
Qed.
Lemma entry_of p n bs r k : (n <= 9)%nat -> hist p n bs r -> (k < n)%nat -> tie_ok (f_of_N (nth k (r_wins r) 0)) /\ tie_ok (nth k (r_ties r) f_zero).
Proof.
  intros Hn [H1 H2 H3 H4 H5 H6 H7 H8] Hk. split.
  - assert (Hp : (2 ^ k < 2 ^ n)%nat) by (apply Nat.pow_lt_mono_r; lia). rewrite (agr_fun p _ _ _ (H6 k Hk) (H5 _ Hp)).
    destruct (of_N_upto (nth (2 ^ k) (r_wins_by_mask r) 0)) as (v & Hv & _); [apply (proj1 (Forall_nth _ _) H4); lia|]. exists v. exact (upto_more 64 118 _ _ ltac:(lia) Hv).
  - rewrite (H7 k Hk). apply tie_total_ok. exact H8.
Qed.
Lemma zero_add f : tie_ok f -> f_add f_zero f = f.
Proof. intros (v & [[[-> _]|[Nv _]] _]); [reflexivity|]. exact (num_add f v Nv). Qed.
Lemma div_below s f g k : (k < 150)%Z -> (exists z, upto_B k s z) -> s <> f_zero -> (exists v, upto_B k f v) -> (exists w, upto_B k g w) -> SFleb f_zero (f_div g s) = true -> SFleb (f_div g s) (f_div g s) = true ->
  below f g -> SFleb (f_div f s) (f_div g s) = true.
Proof.
  intros Hk (z & [[[Es _]|[Ns Ls]] Us]) Hs (v & Hv) (w & Hw) Hp Hr [->|(v' & w' & Hv' & Hw' & L)]; [contradiction|contradiction|exact Hr|].
  pose proof (val_fun _ _ _ (upto_val _ _ _ Hv) Hv') as E1. pose proof (val_fun _ _ _ (upto_val _ _ _ Hw) Hw') as E2.
  destruct Hv as [[[-> Ev]|[Nv Lv]] Uv].
  - replace (f_div f_zero s) with f_zero by (destruct Ns as (m & e & -> & _); reflexivity). exact Hp.
  - destruct Hw as [[[-> Ew]|[Nw Lw]] Uw]; [exfalso; lra|].
    assert (Hm : forall x, (1 <= x)%Q -> (x <= B k)%Q -> mid_range x).
    { intros x H1 H2. split; [apply Qle_trans with (B 0); [apply B_le; lia|exact H1]|]. apply Qle_trans with (1 := H2). apply B_le. lia. }
    destruct (div_ok f s v z Nv Ns (Hm v Lv Uv) (Hm z Ls Us)) as (q & Hq). destruct (div_ok g s w z Nw Ns (Hm w Lw Uw) (Hm z Ls Us)) as (q' & Hq').
    apply (num_leb _ _ q q' (proj1 Hq) (proj1 Hq')). apply (nearest_mono _ _ _ _ (proj2 Hq) (proj2 Hq')).
    apply Qmult_lt_r; [apply Qinv_lt_0_compat; lra|lra].
Qed.
Lemma unit_self x : within_one x -> SFleb f_zero x = true /\ SFleb x x = true.
Proof.
  intros [H1 H2]. split; [exact H1|]. unfold SFleb in *. destruct x as [b|b| |b m e]; try discriminate; [reflexivity| |].
  - destruct b; [discriminate H1|reflexivity].
  - cbn [SFcompare]. rewrite Z.compare_refl. change (Pos.compare_cont Eq m m) with (Pos.compare m m). rewrite Pos.compare_refl. destruct b; reflexivity.
Qed.
Definition entries (r : results) : list f64 := map (fun '(w, t) => f_add (f_add f_zero (f_of_N w)) t) (combine (r_wins r) (r_ties r)).
Lemma entry_at p n bs r i : hist p n bs r -> (i < n)%nat -> nth i (entries r) f_zero = f_add (f_add f_zero (f_of_N (nth i (r_wins r) 0))) (nth i (r_ties r) f_zero).
Proof. intros HH Hi. unfold entries. rewrite (nth_combine_map _ _ _ 0 f_zero) by (rewrite ?(h_wins _ _ _ _ HH), ?(h_ties _ _ _ _ HH); exact Hi). reflexivity. Qed.
Lemma entries_below p ranges board dead j k bs r : (length ranges <= 9)%nat -> Forall (counts p ranges board dead) bs -> hist p (length ranges) bs r -> (j < length ranges)%nat -> (k < length ranges)%nat -> (j < 8)%nat -> j <> k ->
  never_behind ranges board dead j k -> below (nth k (entries r) f_zero) (nth j (entries r) f_zero).
Proof.
  intros H9 HC HH Hj Hk H8 Hne Hnb. pose proof (behind_masks p ranges board dead j k bs H8 HC Hnb) as HM.
  destruct (entry_of p _ bs r j H9 HH Hj) as [Wj Tj]. destruct (entry_of p _ bs r k H9 HH Hk) as [_ Tk].
  assert (E0 : nth k (r_wins r) 0 = 0).
  { pose proof (h_single _ _ _ _ HH k Hk) as Hs. unfold msum in Hs. rewrite sumf_zero in Hs; [apply (agr_exact p _ 0 Hs); reflexivity|]. intros b Hb.
    destruct (HM b (2 ^ k)%nat Hb) as [E|E]; [rewrite Nat2N.inj_pow; change (N.of_nat 2) with 2; apply N.pow2_bits_true| |exact E].
    exfalso. rewrite Nat2N.inj_pow in E. change (N.of_nat 2) with 2 in E. rewrite N.pow2_bits_false in E by lia. discriminate. }
  rewrite (entry_at _ _ _ _ k HH Hk), (entry_at _ _ _ _ j HH Hj), E0, (zero_add _ Wj). change (f_of_N 0) with f_zero. change (f_add f_zero f_zero) with f_zero. rewrite (zero_add _ Tk).
  apply below_trans with (nth j (r_ties r) f_zero); [|apply below_more; assumption].
  rewrite (h_tie _ _ _ _ HH k Hk), (h_tie _ _ _ _ HH j Hj). apply total_below; [exact (h_batches _ _ _ _ HH)|]. intros b i Hb _. exact (HM b i Hb).
Qed.
Lemma below_both f g : below f g -> below g f -> f = g.
Proof.
  intros [E|(v & w & Hv & Hw & L)]; [auto|]. intros [E|(w' & v' & Hw' & Hv' & L')]; [auto|]. exfalso. pose proof (val_fun _ _ _ Hv Hv'). pose proof (val_fun _ _ _ Hw Hw'). lra.
Qed.
Lemma equity_at p n bs r i : hist p n bs r -> (i < n)%nat -> nth i (get_equity (r_wins r) (r_ties r)) f_zero = f_div (nth i (entries r) f_zero) (fold_left f_add (entries r) f_zero).
Proof.
  intros HH Hi. unfold get_equity. fold (entries r). assert (Hlen : length (entries r) = n) by (unfold entries; rewrite map_length, combine_length, (h_wins _ _ _ _ HH), (h_ties _ _ _ _ HH); lia).
  rewrite (nth_indep _ f_zero (f_div f_zero (fold_left f_add (entries r) f_zero))) by (rewrite map_length; lia). apply (map_nth (fun e => f_div e (fold_left f_add (entries r) f_zero))).
Qed.
Lemma inseparable p ranges board dead j k bs r : (length ranges <= 9)%nat -> Forall (counts p ranges board dead) bs -> hist p (length ranges) bs r -> (j < length ranges)%nat -> (k < length ranges)%nat -> (j < 8)%nat -> (k < 8)%nat ->
  never_behind ranges board dead j k -> never_behind ranges board dead k j -> nth j (get_equity (r_wins r) (r_ties r)) f_zero = nth k (get_equity (r_wins r) (r_ties r)) f_zero.
Proof.
  intros H9 HC HH Hj Hk Hj8 Hk8 H1 H2. destruct (Nat.eq_dec j k) as [->|Hne]; [reflexivity|]. rewrite (equity_at p _ bs r j HH Hj), (equity_at p _ bs r k HH Hk). f_equal.
  apply below_both; eapply entries_below; try eassumption. congruence.
Qed.
Lemma favourite p ranges board dead j k bs r : (length ranges <= 9)%nat -> Forall (counts p ranges board dead) bs -> hist p (length ranges) bs r -> (j < length ranges)%nat -> (k < length ranges)%nat -> (j < 8)%nat -> j <> k ->
  never_behind ranges board dead j k -> no_pots r \/ SFleb (nth k (get_equity (r_wins r) (r_ties r)) f_zero) (nth j (get_equity (r_wins r) (r_ties r)) f_zero) = true.
Proof.
  intros H9 HC HH Hj Hk H8 Hne Hnb. destruct (hist_range p _ bs r H9 HH) as [H|H]; [left; exact H|right].
  destruct (entries_upto p _ bs r H9 HH) as (vs & F2).
  unfold get_equity in *. set (es := map (fun '(w, t) => f_add (f_add f_zero (f_of_N w)) t) (combine (r_wins r) (r_ties r))) in *.
  assert (Hlen : length es = length ranges) by (unfold es; rewrite map_length, combine_length, (h_wins _ _ _ _ HH), (h_ties _ _ _ _ HH); lia).
  destruct (sum_upto es vs 119 f_zero 0 F2 ltac:(lia) ltac:(lia) (upto_zero 119)) as (z & Hz & _).
  assert (HL : below (nth k es f_zero) (nth j es f_zero)) by (eapply entries_below; eassumption).
  assert (HV : forall i, (i < length ranges)%nat -> exists v, upto_B 130 (nth i es f_zero) v).
  { intros i Hi. rewrite <- Hlen in Hi. clear - F2 Hi. revert i Hi. induction F2 as [|x v es vs Hx _ IH]; intros [|i] Hi; cbn [length] in Hi; try lia; [exists v; exact (upto_more 119 130 _ _ ltac:(lia) Hx)|]. cbn [nth]. apply IH. lia. }
  assert (Hdef : forall i, (i < length ranges)%nat -> nth i (map (fun e => f_div e (fold_left f_add es f_zero)) es) f_zero = f_div (nth i es f_zero) (fold_left f_add es f_zero)) by (intros i Hi; exact (equity_at p _ bs r i HH Hi)).
  assert (Hw : forall i, (i < length ranges)%nat -> within_one (f_div (nth i es f_zero) (fold_left f_add es f_zero))).
  { intros i Hi. rewrite <- (Hdef i Hi). apply (proj1 (Forall_forall _ _) H). apply nth_In. rewrite map_length. lia. }
  rewrite (Hdef j Hj), (Hdef k Hk). destruct (unit_self _ (Hw j Hj)) as [U1 U2].
  apply (div_below _ _ _ 130); try assumption; try apply HV; try assumption; [lia|exists z; exact (upto_more (119 + Z.of_nat (length es)) 130 _ _ ltac:(lia) Hz)|].
  intros Es. pose proof (Hw k Hk) as Hwk. rewrite Es in Hwk. destruct Hwk as [Hw1 Hw2]. destruct (HV k Hk) as (v & [[[E _]|[(m & e & E & _) _]] _]); rewrite E in Hw1, Hw2; [discriminate Hw1|discriminate Hw2].
Qed.

Lemma exact_favourite p ranges board dead threads cancelled sched o j k : usable ranges -> exact_equity p ranges board dead threads cancelled sched = Ret (ROk o) ->
  never_behind ranges board dead j k -> (j < length ranges)%nat -> (j < 8)%nat -> (k < length ranges)%nat -> j <> k ->
  no_pots (o_results o) \/ f_le (nth k (r_equities (o_results o)) f_zero) (nth j (r_equities (o_results o)) f_zero).
Proof.
  intros Hu H Hn Hj H8 Hk Hne. destruct (exact_counts _ _ _ _ _ _ _ _ Hu H) as (bs & HH & HC & -> & Hv). apply validate_none in Hv. eapply favourite; try eassumption. lia.
Qed.
Lemma approx_favourite p ranges board dead threads target cancelled shuf rngs fuel sched o j k : Forall range_ok ranges -> permutes shuf ->
  approx_equity p ranges board dead threads target cancelled shuf rngs fuel sched = Ret (ROk o) ->
  never_behind ranges board dead j k -> (j < length ranges)%nat -> (j < 8)%nat -> (k < length ranges)%nat -> j <> k ->
  no_pots (o_results o) \/ f_le (nth k (r_equities (o_results o)) f_zero) (nth j (r_equities (o_results o)) f_zero).
Proof.
  intros Hr Hs H Hn Hj H8 Hk Hne. destruct (approx_counts _ _ _ _ _ _ _ _ _ _ _ _ Hr Hs H) as (bs & HH & HC & -> & Hv). apply validate_none in Hv. eapply favourite; try eassumption. lia.
Qed.
Lemma exact_inseparable p ranges board dead threads cancelled sched o j k : usable ranges -> exact_equity p ranges board dead threads cancelled sched = Ret (ROk o) ->
  never_behind ranges board dead j k -> never_behind ranges board dead k j -> (j < length ranges)%nat -> (j < 8)%nat -> (k < length ranges)%nat -> (k < 8)%nat ->
  nth j (r_equities (o_results o)) f_zero = nth k (r_equities (o_results o)) f_zero.
Proof.
  intros Hu H H1 H2 Hj Hj8 Hk Hk8. destruct (exact_counts _ _ _ _ _ _ _ _ Hu H) as (bs & HH & HC & -> & Hv). apply validate_none in Hv. eapply inseparable; try eassumption. lia.
Qed.
Lemma approx_inseparable p ranges board dead threads target cancelled shuf rngs fuel sched o j k : Forall range_ok ranges -> permutes shuf ->
  approx_equity p ranges board dead threads target cancelled shuf rngs fuel sched = Ret (ROk o) ->
  never_behind ranges board dead j k -> never_behind ranges board dead k j -> (j < length ranges)%nat -> (j < 8)%nat -> (k < length ranges)%nat -> (k < 8)%nat ->
  nth j (r_equities (o_results o)) f_zero = nth k (r_equities (o_results o)) f_zero.
Proof.
  intros Hr Hs H H1 H2 Hj Hj8 Hk Hk8. destruct (approx_counts _ _ _ _ _ _ _ _ _ _ _ _ Hr Hs H) as (bs & HH & HC & -> & Hv). apply validate_none in Hv. eapply inseparable; try eassumption. lia.
Qed.
