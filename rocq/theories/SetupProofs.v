(* What exact_equity computes before the threads run: filtered ranges, dividers, counts. *)
From Verif Require Import Base BaseProofs SumFacts Ghost Float64 Hand FastDivide FastDivideProofs Range Combined Sim SpecPoker ListFacts
  HandProofs HandExprProofs SpecNames SpecHand SpecRange SpecEquity RangeTextProofs EnumProofs ShowdownProofs BoardProofs CombinedProofs PositionProofs MergeProofs.
From Coq Require Import Permutation.
Local Open Scope N_scope.

(* ------------------------------------------------------------------------- *)
(** * Masks *)

Lemma testbit_double m i : N.testbit (2 * m) (N.succ i) = N.testbit m i.
Proof. apply N.testbit_even_succ. lia. Qed.
Lemma ones_step m : count_ones m = (if N.testbit m 0 then 1 else 0) + count_ones (N.div2 m).
Proof. destruct m as [|q]; [reflexivity|]. destruct q; cbn [count_ones pos_ones N.div2 N.testbit Pos.testbit]; lia. Qed.
Lemma ones_length k : forall m, (length (filter (N.testbit m) (nseq 0 k)) <= N.to_nat (count_ones m))%nat.
Proof.
  induction k as [|k IH]; intros m; [cbn; lia|]. cbn [nseq filter]. change (N.succ 0) with 1.
  assert (E : filter (N.testbit m) (nseq 1 k) = map N.succ (filter (N.testbit (N.div2 m)) (nseq 0 k))).
  { assert (Es : nseq 1 k = map N.succ (nseq 0 k)) by (rewrite !nseq_map, map_map; apply map_ext; intros; lia).
    rewrite Es, CombinedProofs.filter_map_swap. f_equal.
    apply filter_ext. intros x. rewrite N.div2_spec, N.shiftr_spec by lia. f_equal. lia. }
  pose proof (ones_step m) as Hone.
  specialize (IH (N.div2 m)).
  destruct (N.testbit m 0) eqn:E0; cbn [length]; rewrite E, map_length, Hone; lia.
Qed.
Lemma mask_cards_length m : N.of_nat (length (mask_cards m)) <= count_ones m.
Proof. pose proof (ones_length 52 m). unfold mask_cards. lia. Qed.

(* ------------------------------------------------------------------------- *)
(** * Filtered ranges *)

Definition free (board dead : N) (h : whand) : bool :=
  avoids board (first_card h) (second_card h) && avoids dead (first_card h) (second_card h).
Definition filtered (board dead : N) (ranges : list (list whand)) : list (list whand) := map (filter (free board dead)) ranges.

Lemma filter_ranges_ok p board dead ranges : Forall (Forall hole_hand) ranges ->
  mapM (fun h => remove_conflicting_combos p h board dead) ranges = Ret (filtered board dead ranges).
Proof.
  intros H. unfold filtered. apply mapM_total. intros r Hr. rewrite Forall_forall in H. specialize (H r Hr).
  rewrite remove_conflicting_filter; [reflexivity|]. eapply Forall_impl; [|exact H]. intros h (H1 & H2 & _).
  unfold is_card in *. change (c_1 h) with (first_card h). change (c_2 h) with (second_card h). lia.
Qed.

Lemma picks_filter {A} (f : A -> bool) rs : picks (map (filter f) rs) = filter (forallb f) (picks rs).
Proof.
  induction rs as [|r rs IH]; [reflexivity|]. cbn [map picks]. rewrite IH, filter_flat_map.
  induction r as [|x r IHr]; [reflexivity|]. cbn [filter flat_map]. rewrite CombinedProofs.filter_map_swap. cbn [forallb].
  destruct (f x); cbn [flat_map andb].
  - rewrite IHr. reflexivity.
  - rewrite IHr. rewrite (filter_none _ (picks rs)) by reflexivity. reflexivity.
Qed.
Lemma filter_implied {A} (f g : A -> bool) l : (forall x, g x = true -> f x = true) -> filter g (filter f l) = filter g l.
Proof.
  intros H. induction l as [|x l IH]; [reflexivity|]. cbn [filter]. destruct (f x) eqn:E; cbn [filter]; rewrite IH; [reflexivity|].
  destruct (g x) eqn:E'; [rewrite (H x E') in E; discriminate|reflexivity].
Qed.
Lemma deals_filtered board dead ranges : deals (filtered board dead ranges) board dead = deals ranges board dead.
Proof.
  unfold deals, filtered. rewrite picks_filter. apply filter_implied. intros d Hd. apply possible_spec in Hd as [_ Hd].
  apply forallb_forall. intros h Hh. unfold free, avoids.
  assert (H : forall c, In c (two_cards h) -> N.testbit board c = false /\ N.testbit dead c = false).
  { intros c Hc. specialize (Hd c (dealt_in d h c Hh Hc)). unfold on_table in Hd. apply orb_false_iff in Hd. exact Hd. }
  destruct (H (first_card h) (or_introl eq_refl)) as [-> ->]. destruct (H (second_card h) (or_intror (or_introl eq_refl))) as [-> ->]. reflexivity.
Qed.
Lemma filtered_ok (P : whand -> Prop) board dead ranges : Forall (Forall P) ranges -> Forall (Forall P) (filtered board dead ranges).
Proof.
  intros H. unfold filtered. rewrite Forall_map. eapply Forall_impl; [|exact H]. intros r Hr. rewrite Forall_forall in *. intros h Hh.
  apply filter_In in Hh as [Hh _]. apply Hr. exact Hh.
Qed.
Lemma filtered_length board dead ranges : length (filtered board dead ranges) = length ranges.
Proof. apply map_length. Qed.

(* ------------------------------------------------------------------------- *)
(** * Numbers of positions *)

Definition len {A} (l : list A) : N := N.of_nat (length l).
Lemma prod_app {A} (f : A -> N) l l' : prod_of f (l ++ l') = prod_of f l * prod_of f l'.
Proof. induction l as [|x l IH]; [change (prod_of f l' = 1 * prod_of f l'); lia|]. cbn [app]. change (prod_of f (x :: l ++ l')) with (f x * prod_of f (l ++ l')). rewrite IH. change (prod_of f (x :: l)) with (f x * prod_of f l). lia. Qed.
Lemma prod_perm {A} (f : A -> N) l l' : Permutation l l' -> prod_of f l = prod_of f l'.
Proof.
  induction 1 as [|x l l' _ IH|x y l|l l' l'' _ IH1 _ IH2]; [reflexivity| | |congruence].
  - change (f x * prod_of f l = f x * prod_of f l'). rewrite IH. reflexivity.
  - change (f y * (f x * prod_of f l) = f x * (f y * prod_of f l)). lia.
Qed.
Lemma prod_map {A C} (f : C -> N) (g : A -> C) l : prod_of f (map g l) = prod_of (fun x => f (g x)) l.
Proof. induction l as [|x l IH]; [reflexivity|]. cbn [map]. change (f (g x) * prod_of f (map g l) = f (g x) * prod_of (fun x => f (g x)) l). rewrite IH. reflexivity. Qed.
Lemma prod_le {A} (f g : A -> N) l : (forall x, In x l -> f x <= g x) -> prod_of f l <= prod_of g l.
Proof.
  induction l as [|x l IH]; intros H; [cbn; lia|]. change (f x * prod_of f l <= g x * prod_of g l).
  apply N.mul_le_mono; [apply H; left; reflexivity|apply IH; intros y Hy; apply H; right; exact Hy].
Qed.
Lemma picks_count {A} (rs : list (list A)) : len (picks rs) = prod_of len rs.
Proof.
  induction rs as [|r rs IH]; [reflexivity|]. cbn [picks]. change (prod_of len (r :: rs)) with (len r * prod_of len rs). rewrite <- IH.
  unfold len. induction r as [|x r IHr]; [reflexivity|]. cbn [flat_map length]. rewrite app_length, map_length. lia.
Qed.
Lemma size_of_le ranges ps : size_of ranges ps <= prod_of (fun i => len (range_of ranges i)) ps.
Proof.
  rewrite <- (prod_map len (range_of ranges)), <- picks_count. unfold size_of, fairs, fair, len.
  pose proof (filter_length_le (fun a => distinct (dealt a)) (picks (map (range_of ranges) ps))). lia.
Qed.
Lemma positions_le ranges pss : positions ranges pss <= prod_of (fun i => len (range_of ranges i)) (concat pss).
Proof.
  induction pss as [|ps pss IH]; [cbn; lia|]. cbn [concat]. rewrite prod_app. cbn [positions fold_right]. fold (positions ranges pss).
  apply N.mul_le_mono; [apply size_of_le|exact IH].
Qed.
Lemma positions_prod ranges pss : Permutation (concat pss) (seq 0 (length ranges)) -> positions ranges pss <= prod_of len ranges.
Proof.
  intros H. eapply N.le_trans; [apply positions_le|]. rewrite (prod_perm _ _ _ H), <- (prod_map len (range_of ranges)), map_range_of. lia.
Qed.
Lemma filtered_prod board dead ranges : prod_of len (filtered board dead ranges) <= prod_of len ranges.
Proof.
  unfold filtered. rewrite prod_map. apply prod_le. intros r _. unfold len. pose proof (filter_length_le (free board dead) r). lia.
Qed.
Lemma positions_pos ranges pss : Forall (fun ps => 0 < size_of ranges ps) pss -> 0 < positions ranges pss.
Proof. induction 1 as [|ps pss H _ IH]; [cbn; lia|]. cbn [positions fold_right]. fold (positions ranges pss). nia. Qed.
Lemma size_positions ranges pss : Forall (fun ps => 0 < size_of ranges ps) pss -> Forall (fun ps => size_of ranges ps <= positions ranges pss) pss.
Proof.
  induction 1 as [|ps pss H HF IH]; constructor; cbn [positions fold_right]; fold (positions ranges pss).
  - pose proof (positions_pos ranges pss HF). nia.
  - eapply Forall_impl; [|exact IH]. cbv beta. intros a Ha. nia.
Qed.

Lemma range_is_size ranges ps cr : range_is ranges ps cr -> cr_size cr = size_of ranges ps.
Proof. intros (_ & _ & _ & H1 & H2). rewrite H1. unfold size_of, fairs. rewrite (CombinedProofs.Forall2_length _ _ _ H2). reflexivity. Qed.

Lemma dividers_ok p ranges pss crs : Forall2 (range_is ranges) pss crs -> Forall (fun ps => 0 < size_of ranges ps) pss ->
  Forall (fun ps => size_of ranges ps < 2 ^ 64) pss ->
  exists dvs, mapM (fun cr => divide_by p (cr_size cr)) crs = Ret dvs /\ Forall2 (fun ps dv => divides p dv (size_of ranges ps)) pss dvs.
Proof.
  induction 1 as [|ps cr pss crs Hr _ IH]; intros H1 H2.
  - exists []. split; [reflexivity|constructor].
  - inversion H1; inversion H2; subst. destruct (IH ltac:(assumption) ltac:(assumption)) as (dvs & E & HF).
    rewrite <- (range_is_size _ _ _ Hr) in *.
    destruct (divide_by_ok p (cr_size cr)) as (dv & Ed & Hd); [assumption|assumption|].
    exists (dv :: dvs). cbn [mapM]. rewrite Ed. cbn [bind]. rewrite E. cbn [bind]. split; [reflexivity|]. constructor; [|exact HF].
    rewrite <- (range_is_size _ _ _ Hr). exact Hd.
Qed.

Lemma preflop_ok p ranges pss m : Forall2 (range_is ranges) pss (m_combined m) -> Forall (fun ps => 0 < size_of ranges ps) pss ->
  positions ranges pss < 2 ^ 64 -> get_preflop_combo_count p m = Ret (positions ranges pss).
Proof.
  unfold get_preflop_combo_count. generalize (m_combined m). intros crs HF Hpos Hlt.
  assert (G : forall a, a * positions ranges pss < 2 ^ 64 -> foldM (fun n c => mul_ 64 p n (cr_size c)) crs a = Ret (a * positions ranges pss)).
  { clear Hlt. induction HF as [|ps cr pss crs Hr HF IH]; intros a Ha; cbn [foldM positions fold_right] in *.
    - rewrite N.mul_1_r. reflexivity.
    - fold (positions ranges pss) in *. inversion Hpos; subst. rewrite (range_is_size _ _ _ Hr).
      pose proof (positions_pos ranges pss ltac:(assumption)). rewrite mul_ok by nia. cbn [bind]. rewrite IH; [f_equal; lia|assumption|nia]. }
  rewrite (G 1); [f_equal; lia|lia].
Qed.

(* ------------------------------------------------------------------------- *)
(** * The number of boards used for the batch size *)

Lemma postflop_ok p m board dead n : hand_of base (mask_cards board) (m_fixed_board m) -> m_dead_mask m = dead -> m_n_players m = n ->
  (length (mask_cards board) <= 5)%nat -> 2 * N.of_nat n + count_ones dead + 5 <= 52 ->
  exists post, get_postflop_combo_count p m = Ret post /\ 0 < post.
Proof.
  intros Hfb Hd Hn Hb Hc. unfold get_postflop_combo_count. rewrite Hd, Hn.
  assert (Hcount : count (m_fixed_board m) = N.of_nat (length (mask_cards board))).
  { rewrite (count_of base (mask_cards board) (m_fixed_board m)) by (try assumption; try (left; reflexivity); try (apply fits_of_length; lia); lia).
    apply N.mod_small. lia. }
  rewrite Hcount. set (bc := length (mask_cards board)) in *. change CARD_COUNT with 52.
  assert (Hbc : (N.of_nat bc <= 5)) by lia. generalize dependent (N.of_nat bc). intros b _ Hb5.
  repeat (rewrite sub_ok by lia; cbn [bind]).
  set (d := 52 - b - count_ones dead - 2 * N.of_nat n). assert (Hd1 : 5 - b <= d <= 52) by (unfold d; lia).
  assert (Hcases : b = 0 \/ b = 1 \/ b = 2 \/ b = 3 \/ b = 4 \/ b = 5) by lia. clearbody d. clear - Hd1 Hcases.
  assert (Hall : forallb (fun b => forallb (fun d => match foldM (fun n i => x <- sub_ 64 p d i ;; mul_ 64 p n x) (n_range 0 (5 - b)) 1 with
      | Ret n => 0 <? fold_left (fun n i => n / (i + 1)) (n_range 0 (5 - b)) n | Fail _ => false end)
      (nseq (5 - b) (N.to_nat (53 - (5 - b))))) (nseq 0 6) = true) by (destruct p; vm_compute; reflexivity).
  pose proof (forallb_In _ _ Hall b) as H1. rewrite nseq_In in H1. specialize (H1 ltac:(lia)). cbv beta in H1.
  pose proof (forallb_In _ _ H1 d) as H2. rewrite nseq_In in H2. specialize (H2 ltac:(lia)). cbv beta in H2.
  destruct (foldM _ (n_range 0 (5 - b)) 1) as [x|f]; [|discriminate]. cbn [bind]. eexists. split; [reflexivity|]. apply N.ltb_lt. exact H2.
Qed.
