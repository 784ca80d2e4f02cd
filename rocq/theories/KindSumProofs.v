(* Adding up the results of all preflop combinations. *)
From Verif Require Import Base BaseProofs SumFacts ListFacts Float64 TStrings Hand Range FastDivide Combined Sim SpecPoker SpecHand SpecNames SpecEquity
  SpecResults SpecRun SpecFinal SpecTable SpecKind CombinedProofs BoardProofs PositionProofs ShareProofs TableProofs TableRunProofs KindProofs.
Local Open Scope N_scope.

(* ------------------------------------------------------------------------- *)
(** * Every hand belongs to one combination *)

(* only the ranks matter, and whether the suits are the same: 338 cases *)
Definition kind_like (k : kind) (x y : N) (s : bool) : bool :=
  match k with
  | Paired r => (x =? r) && (y =? r)
  | Suited hi lo => s && ((x =? hi) && (y =? lo) || (x =? lo) && (y =? hi))
  | Offsuit hi lo => negb s && ((x =? hi) && (y =? lo) || (x =? lo) && (y =? hi))
  end.
Definition like_once (x y : N) (s : bool) : bool := sumf (fun k => if kind_like k x y s then 1 else 0) kinds =? 1.
Lemma likes_once : forallb (fun x => forallb (fun y => like_once x y true && like_once x y false) (nseq 0 13)) (nseq 0 13) = true.
Proof. vm_compute. reflexivity. Qed.
Lemma one_kind (h : whand) : hole (first_card h) (second_card h) -> sumf (fun k => if is_kind k h then 1 else 0) kinds = 1.
Proof.
  intros (H1 & H2 & _). unfold is_card in H1, H2.
  assert (HR : forall c, c < 52 -> In (rank_of c) (nseq 0 13)). { intros c Hc. apply nseq_In. unfold rank_of. split; [apply N.le_0_l|]. change (0 + N.of_nat 13) with 13. apply N.div_lt_upper_bound; lia. }
  pose proof likes_once as HF. rewrite forallb_forall in HF. specialize (HF _ (HR _ H1)). rewrite forallb_forall in HF. specialize (HF _ (HR _ H2)).
  apply Bool.andb_true_iff in HF as [HT HF]. unfold like_once in HT, HF. rewrite N.eqb_eq in HT, HF.
  destruct (suit_of (first_card h) =? suit_of (second_card h)) eqn:E.
  - etransitivity; [|exact HT]. apply sumf_ext. intros [r|hi lo|hi lo] _; unfold is_kind, kind_like; rewrite ?E; reflexivity.
  - etransitivity; [|exact HF]. apply sumf_ext. intros [r|hi lo|hi lo] _; unfold is_kind, kind_like; rewrite ?E; reflexivity.
Qed.

Lemma all_kinds ranges board dead i (what : list whand -> list N -> bool) : Forall range_ok ranges -> (i < length ranges)%nat ->
  sumf (fun k => total_of ranges board dead (fun d l => is_kind k (holding d i) && what d l)) kinds = total_of ranges board dead what.
Proof.
  intros Hr Hi. rewrite (sumf_ext _ (fun k => sumf (fun d => deal_weight d * sumf (fun l => if is_kind k (holding d i) && what d l then 1 else 0) (boards board dead d)) (deals ranges board dead))) by (intros k _; apply total_sumf).
  rewrite sumf_swap, total_sumf. apply sumf_ext. intros d Hd. rewrite sumf_mul. f_equal. rewrite sumf_swap. apply sumf_ext. intros l _.
  destruct (what d l); [|apply sumf_zero; intros k _; rewrite Bool.andb_false_r; reflexivity].
  etransitivity; [|exact (one_kind (holding d i) (hand_of_deal _ _ _ _ _ Hr Hd Hi))]. apply sumf_ext. intros k _. rewrite Bool.andb_true_r. reflexivity.
Qed.

(* ------------------------------------------------------------------------- *)
(** * The run *)

Lemma collect {A B} (P : A -> B -> Prop) l : (forall x, In x l -> exists y, P x y) -> exists ys, Forall2 P l ys.
Proof.
  induction l as [|x l IH]; intros HE; [exists []; constructor|]. destruct (HE x (or_introl eq_refl)) as (y & Hy). destruct IH as (ys & Hys); [intros z Hz; apply HE; right; exact Hz|].
  exists (y :: ys). constructor; assumption.
Qed.
Lemma sum_matched {A B} (P : A -> B -> Prop) (f : A -> N) (g : B -> N) l ys : (forall x y, P x y -> g y = f x) -> Forall2 P l ys -> sum_of g ys = sumf f l.
Proof. intros HP H. induction H as [|x y l ys H H' IH]; [reflexivity|]. cbn [sum_of fold_right]. rewrite sumf_cons, (HP x y H). f_equal. exact IH. Qed.

Lemma text_combos lower p texts (ranges : list (list whand)) board dead q threads sched o : from_strings lower p texts = Ret ranges -> small_table (length texts) board ->
  exact_equity q ranges board dead threads false sched = Ret (ROk o) -> ~ In Cancel sched -> (0 < threads)%nat ->
  forall i, (i < length texts)%nat -> exists us, Forall2 (fun k u => get_combo_result q (r_combo_results (o_results o)) (N.of_nat i) (kind_name k) = Ret (ROk u)) kinds us /\
    sum_of u_wins us = total_of ranges board dead (fun d l => nats_eqb (winners d l) [i]) /\
    sum_of u_ties us = total_of ranges board dead (fun d l => existsb (Nat.eqb i) (winners d l) && (2 <=? length (winners d l))%nat) /\
    sum_of u_total us = total_of ranges board dead (fun _ _ => true).
Proof.
  intros HT Hs H Hc Ht i Hi. pose proof (small_le _ _ Hs) as H3. assert (H6 : (length texts <= 6)%nat) by lia.
  pose proof (text_usable _ _ _ _ HT H6) as Hu. destruct (read_light _ _ _ _ HT) as (EL & _). assert (Hi' : (i < length ranges)%nat) by lia.
  destruct (collect (fun k u => get_combo_result q (r_combo_results (o_results o)) (N.of_nat i) (kind_name k) = Ret (ROk u) /\
    u_wins u = kind_wins ranges board dead i k /\ u_ties u = kind_ties ranges board dead i k /\ u_total u = kind_total ranges board dead i k) kinds) as (us & HF).
  { intros k Hk. exact (text_combo _ _ _ _ _ _ _ _ _ _ HT Hs H Hc Ht i k Hi Hk). }
  exists us. split; [|split; [|split]].
  - clear - HF. induction HF as [|k u l us HP HF IH]; constructor; [exact (proj1 HP)|exact IH].
  - assert (ES : sum_of u_wins us = sumf (kind_wins ranges board dead i) kinds) by (eapply sum_matched; [|exact HF]; cbn beta; intros k u HP; apply HP). rewrite ES. apply (all_kinds ranges board dead i (fun d l => nats_eqb (winners d l) [i]) (proj1 Hu) Hi').
  - assert (ES : sum_of u_ties us = sumf (kind_ties ranges board dead i) kinds) by (eapply sum_matched; [|exact HF]; cbn beta; intros k u HP; apply HP). rewrite ES.
    apply (all_kinds ranges board dead i (fun d l => existsb (Nat.eqb i) (winners d l) && (2 <=? length (winners d l))%nat) (proj1 Hu) Hi').
  - assert (ES : sum_of u_total us = sumf (kind_total ranges board dead i) kinds) by (eapply sum_matched; [|exact HF]; cbn beta; intros k u HP; apply HP). rewrite ES.
    rewrite <- (all_kinds ranges board dead i (fun _ _ => true) (proj1 Hu) Hi'). apply sumf_ext. intros k _. unfold kind_total. rewrite !total_sumf. apply sumf_ext. intros d _. f_equal. apply sumf_ext. intros l _.
    rewrite Bool.andb_true_r. reflexivity.
Qed.
