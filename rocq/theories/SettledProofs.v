(* When the same players win every deal, they share everything evenly. *)
From Coq Require Import Floats.SpecFloat QArith Lqa Permutation.
From Verif Require Import Base BaseProofs SumFacts Ghost Float64 FloatProofs FloatSumProofs ConvergeProofs EquityFloatProofs Hand FastDivide Range Combined Sim Approx SpecPoker ListFacts
  SpecNames SpecHand SpecRange SpecEquity SpecResults SpecRun SpecApprox SpecShare SpecSettled EnumProofs ShowdownProofs BoardProofs CombinedProofs PositionProofs MergeProofs
  MachineProofs SetupProofs ExactProofs ResultProofs CombineRunProofs RunProofs ConvergeRunProofs EquityProofs ShareProofs QuotientProofs SureProofs ConsistProofs.
Local Open Scope N_scope.
#[local] Opaque NUM_HANDS.

Lemma seen_all d l : (length d <= 8)%nat -> seen (winners d l) = winners d l.
Proof.
  intros H. unfold seen. assert (G : forall x, In x (winners d l) -> (x <? 8)%nat = true) by (intros x Hx; apply Nat.ltb_lt; pose proof (ResultProofs.winners_lt d l x Hx); lia).
  revert G. generalize (winners d l). induction l0 as [|x xs IH]; intros G; [reflexivity|]. cbn [filter]. rewrite (G x (or_introl eq_refl)), IH; [reflexivity|]. intros y Hy. apply G. right. exact Hy.
Qed.
Lemma sum_one (f : nat -> N) a m : (a < m)%nat -> (forall i, i <> a -> f i = 0) -> sumf f (seq 0 m) = f a.
Proof.
  intros Ha Hf. replace m with (a + S (m - S a))%nat by lia. rewrite seq_app, sumf_app, sumf_zero.
  - cbn [seq]. rewrite sumf_cons, Nat.add_0_l, sumf_zero; [lia|]. intros x Hx. apply in_seq in Hx. apply Hf. lia.
  - intros x Hx. apply in_seq in Hx. apply Hf. lia.
Qed.

(* either nothing can be dealt, or some deal and board decide who wins *)
Lemma some_deal ranges board dead : (exists d l, In d (deals ranges board dead) /\ In l (boards board dead d)) \/ (forall d l, In d (deals ranges board dead) -> ~ In l (boards board dead d)).
Proof.
  induction (deals ranges board dead) as [|d ds IH]; [right; intros d l []|]. destruct (boards board dead d) as [|l ls] eqn:E.
  - destruct IH as [(d' & l & Hd & Hl)|IH]; [left; exists d', l; split; [right; exact Hd|exact Hl]|]. right. intros d' l [<-|Hd]; [rewrite E; intros []|apply IH; exact Hd].
  - left. exists d, l. split; [left; reflexivity|]. rewrite E. left. reflexivity.
Qed.

Definition even_split (n : nat) (ws : list nat) : list f64 :=
  map (fun j => if existsb (Nat.eqb j) ws then f_div (f_of_N 1) (f_of_N (N.of_nat (length ws))) else f_zero) (seq 0 n).

Lemma settled_split ranges board dead ws bs r : (length ranges <= 8)%nat -> Forall (counts Debug ranges board dead) bs -> hist Debug (length ranges) bs r -> always_share ranges board dead ws ->
  sum_of (fun x => x) (r_wins_by_mask r) <= 2 ^ 53 -> no_pots r \/ get_equity (r_wins r) (r_ties r) = even_split (length ranges) ws.
Proof.
  intros H8 HC HH Hs Hfit. assert (H9 : (length ranges <= 9)%nat) by lia. destruct (hist_range Debug _ bs r H9 HH) as [H|H]; [left; exact H|right].
  rewrite (weights_sum _ bs r HH) in Hfit. pose proof (equities_int _ bs r HH H9 Hfit) as E. set (n := length ranges) in *.
  set (S := sumf (fun k => taken n k bs) (seq 0 n)) in *. pose proof (taken_sum_le n bs H9) as HS. fold S in HS.
  assert (HM : forall b i, In b bs -> (forall d l, In d (deals ranges board dead) -> In l (boards board dead d) -> N.to_nat (wmask (winners d l)) <> i) -> nth i b 0 = 0).
  { intros b i Hb. rewrite Forall_forall in HC. exact (eff_zero Debug ranges board dead i b (HC b Hb)). }
  assert (HP : n = 0%nat \/ 0 < S).
  { destruct (Nat.eq_dec n 0) as [E0|E0]; [left; exact E0|right]. destruct (N.eq_dec S 0) as [ES|ES]; [exfalso|lia]. rewrite Forall_forall in H.
    specialize (H (f_div (f_of_N (taken n 0 bs)) (f_of_N S))). rewrite E, map_map in H. specialize (H ltac:(apply (in_map (fun k => f_div (f_of_N (taken n k bs)) (f_of_N S))), in_seq; lia)).
    assert (ET : taken n 0 bs = 0). { assert (HI : In 0%nat (seq 0 n)) by (apply in_seq; lia). pose proof (sumf_in_le (fun k => taken n k bs) _ _ HI) as HT. cbv beta in HT. fold S in HT. lia. }
    rewrite ET, ES in H. destruct H as [H _]. discriminate H. }
  destruct HP as [E0|HP]; [rewrite E, E0; reflexivity|].
  destruct (some_deal ranges board dead) as [(d0 & l0 & Hd0 & Hl0)|HN].
  2: { exfalso. assert (ES : S = 0); [|lia]. unfold S. apply sumf_zero. intros k _. unfold taken. apply sumf_zero. intros b Hb. apply sumf_zero. intros i _.
    pose proof (part_le b k i) as HL. rewrite (HM b i Hb) in HL; [lia|]. intros d l Hd Hl. exfalso. exact (HN d l Hd Hl). }
  pose proof (deal_length _ _ _ _ Hd0) as Hlen. fold n in Hlen. pose proof (Hs d0 l0 Hd0 Hl0) as EW.
  assert (Hsw : seen ws = ws) by (rewrite <- EW; apply seen_all; lia).
  set (i0 := N.to_nat (wmask ws)) in *.
  assert (Hlt : wmask ws < 2 ^ N.of_nat n).
  { destruct (N.eq_dec (wmask ws) 0) as [Z|Z]; [rewrite Z; apply N.neq_0_lt_0, N.pow_nonzero; discriminate|]. apply N.log2_lt_pow2; [lia|].
    pose proof (N.bit_log2 _ Z) as HB. rewrite <- (N2Nat.id (N.log2 (wmask ws))), wmask_bit, Hsw in HB. apply existsb_exists in HB as (x & Hx & Ex). apply Nat.eqb_eq in Ex. rewrite <- EW in Hx. apply ResultProofs.winners_lt in Hx. lia. }
  assert (Hi0 : (i0 < 2 ^ n)%nat) by (assert (EN : N.of_nat (2 ^ n) = 2 ^ N.of_nat n) by (rewrite Nat2N.inj_pow; reflexivity); unfold i0; lia).
  assert (Ei : N.of_nat i0 = wmask ws) by (unfold i0; apply N2Nat.id).
  assert (EP : players_of n (wmask ws) = ws).
  { pose proof (wmask_players d0 l0 n (wmask ws) Hlen Hlt) as HW. rewrite EW, Nat.eqb_refl, Hsw in HW. symmetry in HW. apply nats_eqb_eq in HW. symmetry. exact HW. }
  destruct (masks_fact n i0 H9 Hi0) as [EC _]. rewrite Ei, EP in EC.
  assert (HT : forall k, (k < n)%nat -> taken n k bs = if existsb (Nat.eqb k) ws then sumf (fun b => nth i0 b 0 / N.of_nat (length ws)) bs else 0).
  { intros k Hk. unfold taken. assert (G : forall b, In b bs -> sumf (part b k) (seq 0 (2 ^ n)) = if existsb (Nat.eqb k) ws then nth i0 b 0 / N.of_nat (length ws) else 0).
    { intros b Hb. rewrite (sum_one _ i0 _ Hi0).
      - unfold part. rewrite Ei, wmask_bit, Hsw, EC. reflexivity.
      - intros i Hi. pose proof (part_le b k i) as HL. rewrite (HM b i Hb) in HL; [lia|]. intros d l Hd Hl. rewrite (Hs d l Hd Hl). unfold i0 in Hi. congruence. }
    rewrite (sumf_ext _ _ _ G). destruct (existsb _ _); [reflexivity|]. apply sumf_zero. reflexivity. }
  set (T := sumf (fun b => nth i0 b 0 / N.of_nat (length ws)) bs) in *.
  assert (ES : S = N.of_nat (length ws) * T).
  { unfold S. transitivity (sumf (fun k => if N.testbit (wmask ws) (N.of_nat k) then T else 0) (seq 0 n)).
    - apply sumf_ext. intros k Hk. apply in_seq in Hk. rewrite HT by lia. rewrite wmask_bit, Hsw. reflexivity.
    - assert (EL : length ws = length (players_of n (wmask ws))) by (rewrite EP; reflexivity). rewrite EL. unfold players_of. rewrite <- (sumf_filter (fun _ => T) (fun k => N.testbit (wmask ws) (N.of_nat k))). rewrite sumf_const. lia. }
  rewrite E, map_map. unfold even_split. apply map_ext_in. intros k Hk. apply in_seq in Hk. rewrite HT by lia. destruct (existsb _ _) eqn:EX.
  - assert (Hw8 : N.of_nat (length ws) <= 8). { rewrite <- EP. unfold players_of. pose proof (filter_length_le (fun i => N.testbit (wmask ws) (N.of_nat i)) (seq 0 n)) as HF. rewrite seq_length in HF. lia. }
    assert (H53 : 8 <= 2 ^ 53) by discriminate. set (c := N.of_nat (length ws)) in *. assert (L1 : 1 <= c) by (destruct (N.eq_dec c 0) as [Z|Z]; [rewrite Z in ES; cbn in ES; lia|lia]).
    apply same_quotient; [rewrite ES; clear - L1; nia|exact HP|exact (N.le_trans _ _ _ HS Hfit)|exact L1|clear - L1; lia|exact (N.le_trans _ _ _ Hw8 H53)|rewrite ES; clear; lia].
  - change (f_of_N 0) with f_zero. pose proof (int_float S ltac:(lia)) as (m & e & EF & _). rewrite EF. reflexivity.
Qed.

Lemma exact_settled p ranges board dead threads cancelled sched o ws : usable ranges -> p = Debug \/ weights_fit ranges board -> (length ranges <= 8)%nat ->
  exact_equity p ranges board dead threads cancelled sched = Ret (ROk o) -> always_share ranges board dead ws -> sum_of (fun x => x) (r_wins_by_mask (o_results o)) <= 2 ^ 53 ->
  no_pots (o_results o) \/ r_equities (o_results o) = even_split (length ranges) ws.
Proof.
  intros Hu Hw H8 H Hs Hfit. apply exact_debug in H; [|exact Hu|exact Hw]. destruct (exact_counts _ _ _ _ _ _ _ _ Hu H) as (bs & HH & HC & -> & _). exact (settled_split _ _ _ _ _ _ H8 HC HH Hs Hfit).
Qed.
Lemma approx_settled p ranges board dead threads target cancelled shuf rngs fuel sched o ws : Forall range_ok ranges -> permutes shuf ->
  p = Debug \/ N.of_nat (length sched) * heaviest ranges < 2 ^ 64 -> (length ranges <= 8)%nat ->
  approx_equity p ranges board dead threads target cancelled shuf rngs fuel sched = Ret (ROk o) -> always_share ranges board dead ws -> sum_of (fun x => x) (r_wins_by_mask (o_results o)) <= 2 ^ 53 ->
  no_pots (o_results o) \/ r_equities (o_results o) = even_split (length ranges) ws.
Proof.
  intros Hr Hp Hw H8 H Hs Hfit. apply approx_debug in H; try assumption. destruct (approx_counts _ _ _ _ _ _ _ _ _ _ _ _ Hr Hp H) as (bs & HH & HC & -> & _). exact (settled_split _ _ _ _ _ _ H8 HC HH Hs Hfit).
Qed.

(* ------------------------------------------------------------------------- *)
(** * One hand each on a complete board *)

Lemma only_pick {A} (ls : list (list A)) : Forall (fun l => length l = 1%nat) ls -> picks ls = [concat ls].
Proof.
  induction 1 as [|l ls Hl _ IH]; [reflexivity|]. destruct l as [|x [|y l]]; try discriminate Hl. cbn [picks flat_map concat app]. rewrite IH. reflexivity.
Qed.
Lemma none_chosen {A} (l u xs : list A) : In xs (map (app l) (choose (5 - 5) u)) -> xs = l ++ [].
Proof. change (5 - 5)%nat with 0%nat. destruct u; intros [<-|[]]; reflexivity. Qed.
Lemma only_board board dead d l : length (mask_cards board) = 5%nat -> In l (boards board dead d) -> l = mask_cards board ++ [].
Proof. intros H5 Hl. rewrite boards_eq, H5 in Hl. exact (none_chosen _ _ _ Hl). Qed.
Lemma showdown ranges board dead : Forall (fun r => length r = 1%nat) ranges -> length (mask_cards board) = 5%nat -> always_share ranges board dead (winners (concat ranges) (mask_cards board ++ [])).
Proof.
  intros H1 H5 d l Hd Hl. apply (only_board _ _ _ _ H5) in Hl. subst l. unfold deals in Hd. rewrite (only_pick _ H1) in Hd. apply filter_In in Hd as [[<-|[]] _]. reflexivity.
Qed.
Lemma showdown_same p p' (ranges : list (list whand)) board dead threads cancelled sched o threads' target cancelled' shuf rngs fuel sched' o' : usable ranges -> (length ranges <= 8)%nat ->
  Forall (fun r => length r = 1%nat) ranges -> length (mask_cards board) = 5%nat -> permutes shuf -> p = Debug \/ weights_fit ranges board -> p' = Debug \/ N.of_nat (length sched') * heaviest ranges < 2 ^ 64 ->
  exact_equity p ranges board dead threads cancelled sched = Ret (ROk o) -> approx_equity p' ranges board dead threads' target cancelled' shuf rngs fuel sched' = Ret (ROk o') ->
  sum_of (fun x => x) (r_wins_by_mask (o_results o)) <= 2 ^ 53 -> sum_of (fun x => x) (r_wins_by_mask (o_results o')) <= 2 ^ 53 ->
  no_pots (o_results o) \/ no_pots (o_results o') \/ r_equities (o_results o) = r_equities (o_results o').
Proof.
  intros Hu H8 H1 H5 Hp Hw Hw' H H' HF HF'. pose proof (showdown ranges board dead H1 H5) as HS.
  destruct (exact_settled _ _ _ _ _ _ _ _ _ Hu Hw H8 H HS HF) as [E|E]; [left; exact E|right].
  destruct (approx_settled _ _ _ _ _ _ _ _ _ _ _ _ _ (proj1 Hu) Hp Hw' H8 H' HS HF') as [E'|E']; [left; exact E'|right]. rewrite E, E'. reflexivity.
Qed.
