(* Proofs that the parser reads well-formed range notation as it is meant. *)
From Verif Require Import Base BaseProofs Hand Range SpecPoker SpecNames SpecText SpecRange PokerFacts IndexProofs TextProofs RangeProofs ParserProofs.
From Coq Require Import Sorted.
Local Open Scope N_scope.

(* ------------------------------------------------------------------------- *)
(** * Single characters *)

Definition lr (r : N) : char := ascii_lower (rank_char r).

Lemma parse_rank_yes cs i r rest : skipn i cs = lr r :: rest -> r < 13 ->
  parse_rank cs i = Ret (true, r, S i) /\ skipn (S i) cs = rest.
Proof.
  intros H Hr. apply skipn_get in H as [Hg Hs]. split; [|exact Hs]. unfold parse_rank. rewrite Hg. cbn [bind]. cbv zeta.
  unfold lr. rewrite char_to_rank_name by exact Hr.
  replace (r =? U8MAX) with false by (symmetry; apply N.eqb_neq; unfold U8MAX; lia). reflexivity.
Qed.
Lemma parse_suit_yes cs i s rest : skipn i cs = suit_char s :: rest -> s < 4 ->
  parse_suit cs i = Ret (true, s, S i) /\ skipn (S i) cs = rest.
Proof.
  intros H Hr. apply skipn_get in H as [Hg Hs]. split; [|exact Hs]. unfold parse_suit. rewrite Hg. cbn [bind]. cbv zeta.
  rewrite (proj1 (char_to_suit_name s Hr)).
  replace (s =? U8MAX) with false by (symmetry; apply N.eqb_neq; unfold U8MAX; lia). reflexivity.
Qed.
Lemma rank_not_suit : forallb (fun r => char_to_suit (lr r) =? U8MAX) (nseq 0 13) = true.
Proof. vm_compute. reflexivity. Qed.
Lemma parse_suit_rank cs i r rest : skipn i cs = lr r :: rest -> r < 13 ->
  parse_suit cs i = Ret (false, U8MAX, i).
Proof.
  intros H Hr. apply skipn_get in H as [Hg _]. unfold parse_suit. rewrite Hg. cbn [bind]. cbv zeta.
  assert (E : char_to_suit (lr r) = U8MAX).
  { apply N.eqb_eq. apply (forallb_In _ _ rank_not_suit). apply nseq_In. lia. }
  rewrite E, N.eqb_refl. reflexivity.
Qed.
Lemma parse_char_yes cs i a rest : skipn i cs = char_of_ascii a :: rest ->
  parse_char cs i a = Ret (true, S i) /\ skipn (S i) cs = rest.
Proof.
  intros H. apply skipn_get in H as [Hg Hs]. split; [|exact Hs]. unfold parse_char. rewrite Hg. cbn [bind].
  unfold is_char. rewrite N.eqb_refl. reflexivity.
Qed.
Lemma parse_char_no cs i c rest a : skipn i cs = c :: rest -> c <> char_of_ascii a ->
  parse_char cs i a = Ret (false, i).
Proof.
  intros H Hc. apply skipn_get in H as [Hg _]. unfold parse_char. rewrite Hg. cbn [bind].
  unfold is_char. replace (c =? char_of_ascii a) with false by (symmetry; now apply N.eqb_neq). reflexivity.
Qed.

(* what may follow a term *)
Definition stop (c : char) : Prop := c = 44 \/ c = 32.

Lemma to_digit_yes d : d < 10 -> to_digit (digit_char d) = Some d.
Proof.
  intros H. unfold to_digit, digit_char. change (char_of_ascii "0"%char) with 48. change (char_of_ascii "9"%char) with 57.
  replace ((48 <=? 48 + d) && (48 + d <=? 57)) with true by (symmetry; apply andb_true_iff; rewrite !N.leb_le; lia).
  f_equal. lia.
Qed.
Lemma to_digit_stop c : stop c -> to_digit c = None.
Proof. intros [->| ->]; reflexivity. Qed.

Lemma decimal_mono ds : forall n, n <= fold_left (fun n d => 10 * n + d) ds n.
Proof. induction ds as [|d ds IH]; intros n; [reflexivity|]. cbn [fold_left]. specialize (IH (10 * n + d)). lia. Qed.

(* a number below 2^32 is read exactly *)
Lemma parse_weight_digits p cs backtrack weight c rest : to_digit c = None -> forall ds fuel i number,
  Forall (fun d => d < 10) ds -> skipn i cs = map digit_char ds ++ c :: rest -> (length ds < fuel)%nat ->
  fold_left (fun n d => 10 * n + d) ds number < 2 ^ 32 ->
  parse_weight_loop p fuel cs backtrack i number weight =
    (let n := fold_left (fun n d => 10 * n + d) ds number in
     if 100 <? n then Ret (weight, backtrack) else Ret (n, (i + length ds)%nat)) /\
  skipn (i + length ds) cs = c :: rest.
Proof.
  intros Hc. induction ds as [|d ds IH]; intros fuel i number Hd Hs Hf Hn; (destruct fuel as [|fuel]; [cbn in Hf; lia|]).
  - cbn [map app] in Hs. pose proof Hs as Hs'. apply skipn_get in Hs as [Hg _]. cbn [parse_weight_loop fold_left length].
    rewrite Hg. cbn [bind]. rewrite Hc. rewrite Nat.add_0_r. split; [|exact Hs']. cbv zeta.
    destruct (N.ltb_spec 100 number); [reflexivity|]. rewrite trunc_small by (change (2 ^ 8) with 256; lia). reflexivity.
  - cbn [map app] in Hs. apply skipn_get in Hs as [Hg Hs]. inversion Hd as [|? ? Hd1 Hd2]. subst.
    cbn [parse_weight_loop]. rewrite Hg. cbn [bind]. rewrite to_digit_yes by exact Hd1.
    cbn [fold_left] in Hn. pose proof (decimal_mono ds (10 * number + d)) as Hm.
    rewrite mul_ok by lia. cbn [bind]. rewrite add_ok by lia. cbn [bind].
    replace (number * 10 + d) with (10 * number + d) by lia.
    destruct (IH fuel (S i) (10 * number + d) Hd2 Hs) as [E1 E2]; [cbn in Hf; lia|exact Hn|].
    cbn [length fold_left]. replace (i + S (length ds))%nat with (S i + length ds)%nat by lia. split; [exact E1|exact E2].
Qed.

Lemma parse_opt_weight_reads p cs i w c rest : skipn i cs = weight_text w ++ c :: rest -> stop c -> well_formed_weight w ->
  exists i', parse_opt_weight p cs i = Ret (match w with None => 100 | Some ds => decimal ds end, i') /\ skipn i' cs = c :: rest.
Proof.
  intros Hs Hc Hw. unfold parse_opt_weight. destruct w as [ds|]; cbn [weight_text] in Hs.
  - destruct Hw as (Hne & Hd & H100).
    destruct (parse_char_yes cs i "@"%char _ Hs) as [-> Hs']. cbn [bind app chars] in *.
    unfold parse_weight.
    destruct (parse_weight_digits p cs (S i) 100 c rest (to_digit_stop c Hc) ds (S (length cs)) (S i) 0 Hd Hs') as [E1 E2].
    + assert (length (map digit_char ds) <= length cs)%nat; [|rewrite map_length in *; lia].
      pose proof (f_equal (@length char) Hs') as L. rewrite skipn_length, app_length in L. lia.
    + fold (decimal ds). change (2 ^ 32) with 4294967296. lia.
    + fold (decimal ds) in E1. rewrite E1. cbv zeta.
      replace (100 <? decimal ds) with false by (symmetry; apply N.ltb_ge; exact H100). eauto.
  - cbn [app] in Hs. rewrite (parse_char_no cs i c rest "@"%char Hs). 2:{ destruct Hc as [->| ->]; discriminate. }
    cbn [bind]. eauto.
Qed.

(* ------------------------------------------------------------------------- *)
(** * Terms *)

Definition su_of (q : qual) : bool := match q with OffsuitOnly => false | _ => true end.
Definition off_of (q : qual) : bool := match q with SuitedOnly => false | _ => true end.

(* the combos a term adds *)
Definition each (l : list N) (f : N -> list combo) : list combo := flat_map f l.
Definition shape_combos (s : shape) (w : N) : list combo :=
  match s with
  | Exact c1 c2 => [ordered c1 c2 w]
  | Plain r1 r2 q => combos_of r1 r2 (su_of q) (off_of q) w
  | Plus r1 r2 q => add_combos_plus [] r1 r2 (su_of q) (off_of q) w
  | Dash r1 r2 r3 r4 q _ => add_combos_dash [] r1 r2 r3 r4 (su_of q) (off_of q) w
  end.

Lemma fold_add_base {A} (f : list combo -> A -> list combo) (g : A -> list combo) l hs :
  (forall hs x, In x l -> f hs x = hs ++ g x) -> fold_left f l hs = hs ++ fold_left f l [].
Proof. intros H. rewrite !(fold_add f g l H). reflexivity. Qed.

Lemma add_combos_plus_base hands r1 r2 su off w : r1 < 13 -> r2 < 13 ->
  add_combos_plus hands r1 r2 su off w = hands ++ add_combos_plus [] r1 r2 su off w.
Proof.
  intros H1 H2. unfold add_combos_plus. destruct (r1 =? r2).
  - apply fold_add_base with (g := fun r => combos_of r r su off w). intros hs r Hr. unfold n_range in Hr. apply nseq_In in Hr.
    apply add_combos_eq; lia.
  - apply fold_add_base with (g := fun r => combos_of r1 r su off w). intros hs r Hr. unfold n_range in Hr. apply nseq_In in Hr.
    apply add_combos_eq; lia.
Qed.
Lemma add_combos_dash_base hands r1 r2 r3 r4 su off w : r1 < 13 -> r2 < 13 -> r3 < 13 -> r4 < 13 ->
  add_combos_dash hands r1 r2 r3 r4 su off w = hands ++ add_combos_dash [] r1 r2 r3 r4 su off w.
Proof.
  intros H1 H2 H3 H4. unfold add_combos_dash. cbv zeta.
  repeat match goal with |- context[if ?b then _ else _] => destruct b end; try (rewrite app_nil_r; reflexivity);
  (match goal with
   | |- context[fun hs r => add_combos hs r r su off w] => apply fold_add_base with (g := fun r => combos_of r r su off w)
   | |- context[fun hs r => add_combos hs r1 r su off w] => apply fold_add_base with (g := fun r => combos_of r1 r su off w)
   | |- context[fun hs r => add_combos hs r2 r su off w] => apply fold_add_base with (g := fun r => combos_of r2 r su off w)
   end); intros hs r Hr; unfold n_range_incl in Hr; apply nseq_In in Hr; apply add_combos_eq; lia.
Qed.

(* the lowered text *)
Definition low (l : list char) : list char := map ascii_lower l.

Lemma low_qual q : low (qual_text q) = qual_text q.
Proof. destruct q; reflexivity. Qed.
Lemma low_weight w : well_formed_weight w -> low (weight_text w) = weight_text w.
Proof.
  destruct w as [ds|]; [|reflexivity]. intros (_ & Hd & _). unfold low, weight_text. rewrite map_app. f_equal.
  induction Hd as [|d ds Hd _ IH]; [reflexivity|]. cbn [map]. rewrite IH. f_equal. unfold ascii_lower, digit_char.
  replace (65 <=? 48 + d) with false by (symmetry; apply N.leb_gt; lia). reflexivity.
Qed.
Lemma low_card c : is_card c -> low (card_name c) = [lr (rank_of c); suit_char (suit_of c)].
Proof.
  intros H. unfold low, card_name. cbn [map]. destruct (split_card c H) as (_ & Hs & _).
  rewrite (proj2 (char_to_suit_name _ Hs)). reflexivity.
Qed.

(* the suffix o / s of the first part *)
Definition after_qual (c : char) : Prop := c <> 111 /\ c <> 115.
Lemma parse_qual cs i q c rest : skipn i cs = qual_text q ++ c :: rest -> after_qual c ->
  exists i', ('(o, i) <- parse_char cs i "o" ;;
              '(s, i) <- (if o then Ret (false, i) else parse_char cs i "s") ;;
              Ret (o, s, i)) = Ret (negb (su_of q), negb (off_of q), i') /\ skipn i' cs = c :: rest.
Proof.
  intros Hs [H1 H2]. destruct q; cbn [qual_text app chars] in Hs.
  - rewrite (parse_char_no cs i c rest "o"%char Hs H1). cbn [bind]. rewrite (parse_char_no cs i c rest "s"%char Hs H2). cbn [bind]. eauto.
  - rewrite (parse_char_no cs i _ _ "o"%char Hs) by discriminate. cbn [bind].
    destruct (parse_char_yes cs i "s"%char _ Hs) as [-> Hs']. cbn [bind]. eauto.
  - destruct (parse_char_yes cs i "o"%char _ Hs) as [-> Hs']. cbn [bind]. eauto.
Qed.

Lemma bind_ext {A B} (m : outcome A) (k k' : A -> outcome B) : (forall a, k a = k' a) -> bind m k = bind m k'.
Proof. intros H. destruct m; cbn; auto. Qed.

(* the part of parse_hand after two ranks without suits *)
Definition unsuited_tail (p : profile) (cs : list char) (hands : list combo) (backtrack : nat) (r1 r2 : N) (x : bool * bool * nat)
  : outcome (bool * list combo * nat) :=
  let '(o, s, i) := x in
    let suited := negb o in
    let offsuited := negb s in
    '(plus, i) <- parse_char cs i "+" ;;
    if plus then
      '(weight, i) <- parse_opt_weight p cs i ;;
      Ret (true, add_combos_plus hands r1 r2 suited offsuited weight, i)
    else
      '(dash, i) <- parse_char cs i "-" ;;
      if dash then
        '(okd, r3, r4, i) <- parse_combos_dash cs r1 r2 suited offsuited i ;;
        if negb okd then Ret (false, hands, backtrack) else
        '(weight, i) <- parse_opt_weight p cs i ;;
        Ret (true, add_combos_dash hands r1 r2 r3 r4 suited offsuited weight, i)
      else
        '(weight, i) <- parse_opt_weight p cs i ;;
        Ret (true, add_combos hands r1 r2 suited offsuited weight, i).

Lemma parse_hand_unsuited p cs hands i r1 r2 rest : r1 < 13 -> r2 < 13 -> skipn i cs = lr r1 :: lr r2 :: rest ->
  parse_hand p cs hands i =
  bind ('(o, i) <- parse_char cs (S (S i)) "o" ;;
        '(s, i) <- (if o then Ret (false, i) else parse_char cs i "s") ;; Ret (o, s, i))
       (unsuited_tail p cs hands i r1 r2) /\ skipn (S (S i)) cs = rest.
Proof.
  intros H1 H2 Hs. unfold parse_hand. cbv zeta.
  destruct (parse_rank_yes cs i r1 _ Hs H1) as [-> Hs1]. cbn [bind negb].
  rewrite (parse_suit_rank cs (S i) r2 rest Hs1 H2). cbn [bind].
  destruct (parse_rank_yes cs (S i) r2 _ Hs1 H2) as [-> Hs2]. cbn [bind negb].
  split; [|exact Hs2].
  destruct (parse_char cs (S (S i)) "o") as [[o j]|f]; cbn [bind]; [|reflexivity].
  destruct (if o then Ret (false, j) else parse_char cs j "s") as [[s k]|f]; reflexivity.
Qed.

Lemma stop_after c : stop c -> after_qual c /\ c <> 43 /\ c <> 45.
Proof. intros [->| ->]; repeat split; discriminate. Qed.

(* the first character of weight_text w ++ c :: rest *)
Lemma weight_head w c rest : stop c -> exists c' rest', weight_text w ++ c :: rest = c' :: rest' /\ after_qual c' /\ c' <> 43 /\ c' <> 45.
Proof.
  intros Hc. destruct w as [ds|]; cbn [weight_text app chars].
  - do 2 eexists. split; [reflexivity|]. repeat split; discriminate.
  - do 2 eexists. split; [reflexivity|]. now apply stop_after.
Qed.

Lemma eqb_true a b : a = b -> (a =? b) = true. Proof. apply N.eqb_eq. Qed.
Lemma eqb_false a b : a <> b -> (a =? b) = false. Proof. apply N.eqb_neq. Qed.

Lemma dash_reads_gen cs i r1 r2 r3 r4 q again c' rest' :
  well_formed_shape (Dash r1 r2 r3 r4 q again) -> after_qual c' ->
  skipn i cs = lr r3 :: lr r4 :: (if again then qual_text q else []) ++ c' :: rest' ->
  exists i', parse_combos_dash cs r1 r2 (su_of q) (off_of q) i = Ret (true, r3, r4, i') /\ skipn i' cs = c' :: rest'.
Proof.
  intros (H1 & H2 & H3 & H4 & HS) [N1 N2] Hs. unfold is_rank in *. unfold parse_combos_dash.
  destruct (parse_rank_yes cs i r3 _ Hs H3) as [-> Hs1]. cbn [bind negb].
  destruct (parse_rank_yes cs _ r4 _ Hs1 H4) as [-> Hs2]. cbn [bind negb].
  assert (G : exists i', ('(o, i) <- parse_char cs (S (S i)) "o" ;;
     if o && negb (off_of q) then Ret (false, r3, r4, i) else
     if o && su_of q then Ret (false, r3, r4, i) else
     '(s, i) <- parse_char cs i "s" ;;
     if s && negb (su_of q) then Ret (false, r3, r4, i) else
     if s && off_of q then Ret (false, r3, r4, i) else Ret (true, r3, r4, i)) = Ret (true, r3, r4, i') /\
     skipn i' cs = c' :: rest').
  { assert (Plain0 : skipn (S (S i)) cs = c' :: rest' ->
      exists i', ('(o, i) <- parse_char cs (S (S i)) "o" ;;
     if o && negb (off_of q) then Ret (false, r3, r4, i) else
     if o && su_of q then Ret (false, r3, r4, i) else
     '(s, i) <- parse_char cs i "s" ;;
     if s && negb (su_of q) then Ret (false, r3, r4, i) else
     if s && off_of q then Ret (false, r3, r4, i) else Ret (true, r3, r4, i)) = Ret (true, r3, r4, i') /\
     skipn i' cs = c' :: rest').
    { intros Hs''.
      rewrite (parse_char_no cs _ c' rest' "o"%char Hs'' N1). cbn [bind andb].
      rewrite (parse_char_no cs _ c' rest' "s"%char Hs'' N2). cbn [bind andb]. eauto. }
    destruct again; [|cbn [app] in Hs2; auto].
    destruct q; cbn [qual_text app chars su_of off_of negb] in *.
    - auto.
    - rewrite (parse_char_no cs _ _ _ "o"%char Hs2) by discriminate. cbn [bind andb].
      destruct (parse_char_yes cs _ "s"%char _ Hs2) as [-> Hs3]. cbn [bind andb negb]. eauto.
    - destruct (parse_char_yes cs _ "o"%char _ Hs2) as [-> Hs3]. cbn [bind andb negb].
      rewrite (parse_char_no cs _ c' rest' "s"%char Hs3 N2). cbn [bind andb]. eauto. }
  destruct G as (i' & G & HG).
  exists i'. split; [|exact HG].
  destruct (parse_char cs (S (S i)) "o") as [[o j]|f]; cbn [bind] in *; [|discriminate G].
  destruct (o && negb (off_of q)); [discriminate G|]. destruct (o && su_of q); [discriminate G|].
  destruct (parse_char cs j "s") as [[s k]|f]; cbn [bind] in *; [|discriminate G].
  destruct (s && negb (su_of q)); [discriminate G|]. destruct (s && off_of q); [discriminate G|].
  injection G as ->.
  destruct HS as [(-> & -> & Hle)|(x & y & z & Hx & Hz & Hside)].
  - rewrite !N.eqb_refl. cbn [andb negb]. reflexivity.
  - unfold two_are, one_side in *.
    assert (r1 <> r2) by lia. assert (r3 <> r4) by lia.
    rewrite (eqb_false r1 r2), (eqb_false r3 r4) by assumption. cbn [andb negb].
    destruct (N.eqb_spec r1 r3); [reflexivity|]. destruct (N.eqb_spec r1 r4); [reflexivity|].
    destruct (N.eqb_spec r2 r3); [reflexivity|]. destruct (N.eqb_spec r2 r4); [reflexivity|]. exfalso. lia.
Qed.

Lemma dash_reads cs i r1 r2 r3 r4 q again w c rest :
  well_formed_shape (Dash r1 r2 r3 r4 q again) -> stop c ->
  skipn i cs = lr r3 :: lr r4 :: (if again then qual_text q else []) ++ weight_text w ++ c :: rest ->
  exists i', parse_combos_dash cs r1 r2 (su_of q) (off_of q) i = Ret (true, r3, r4, i') /\ skipn i' cs = weight_text w ++ c :: rest.
Proof.
  intros HS Hc Hs. destruct (weight_head w c rest Hc) as (c' & rest' & EW & A & _). rewrite EW in Hs |- *.
  now apply dash_reads_gen with (again := again).
Qed.

Definition low_shape (s : shape) : list char :=
  match s with
  | Exact c1 c2 => [lr (rank_of c1); suit_char (suit_of c1); lr (rank_of c2); suit_char (suit_of c2)]
  | Plain r1 r2 q => lr r1 :: lr r2 :: qual_text q
  | Plus r1 r2 q => lr r1 :: lr r2 :: qual_text q ++ chars "+"
  | Dash r1 r2 r3 r4 q again =>
      lr r1 :: lr r2 :: qual_text q ++ chars "-" ++ lr r3 :: lr r4 :: (if again then qual_text q else [])
  end.
Lemma low_shape_ok s : well_formed_shape s -> low (shape_text s) = low_shape s.
Proof.
  destruct s as [c1 c2|r1 r2 q|r1 r2 q|r1 r2 r3 r4 q again]; cbn [shape_text low_shape well_formed_shape].
  - intros (H1 & H2 & _). unfold low. rewrite map_app. fold (low (card_name c1)) (low (card_name c2)). rewrite !low_card by assumption. reflexivity.
  - intros _. unfold low, ranks_text. cbn [map app]. fold (low (qual_text q)). rewrite low_qual. reflexivity.
  - intros _. unfold low, ranks_text. cbn [map app]. rewrite map_app. fold (low (qual_text q)). rewrite low_qual. reflexivity.
  - intros _. unfold low, ranks_text. cbn [map app]. rewrite !map_app. fold (low (qual_text q)). rewrite low_qual.
    cbn [map app chars]. destruct again; [fold (low (qual_text q)); rewrite low_qual|]; reflexivity.
Qed.

Lemma parse_hand_reads p cs hands i t c rest : well_formed t -> stop c ->
  skipn i cs = low_shape (t_shape t) ++ weight_text (t_weight t) ++ c :: rest ->
  exists i', parse_hand p cs hands i = Ret (true, hands ++ shape_combos (t_shape t) (weight_of t), i') /\ skipn i' cs = c :: rest.
Proof.
  intros [HS HW] Hc Hs. unfold weight_of. destruct t as [s w]. cbn [t_shape t_weight] in *.
  destruct s as [c1 c2|r1 r2 q|r1 r2 q|r1 r2 r3 r4 q again]; cbn [low_shape app] in Hs.
  - destruct HS as (Hc1 & Hc2 & Hd). destruct (split_card c1 Hc1) as (R1 & S1 & E1). destruct (split_card c2 Hc2) as (R2 & S2 & E2).
    unfold parse_hand. cbv zeta.
    destruct (parse_rank_yes cs i _ _ Hs R1) as [-> Hs1]. cbn [bind negb].
    destruct (parse_suit_yes cs _ _ _ Hs1 S1) as [-> Hs2]. cbn [bind negb].
    destruct (parse_rank_yes cs _ _ _ Hs2 R2) as [-> Hs3]. cbn [bind negb].
    destruct (parse_suit_yes cs _ _ _ Hs3 S2) as [-> Hs4]. cbn [bind negb].
    rewrite <- E1, <- E2, (eqb_false c1 c2) by exact Hd.
    destruct (parse_opt_weight_reads p cs _ w c rest Hs4 Hc HW) as (i' & -> & HE). cbn [bind].
    exists i'. split; [|exact HE]. rewrite add_combo_ok by (repeat split; assumption). reflexivity.
  - destruct HS as (R1 & R2). destruct (parse_hand_unsuited p cs hands i r1 r2 _ R1 R2 Hs) as [-> Hs2].
    destruct (weight_head w c rest Hc) as (c' & rest' & EW & A & N1 & N2). rewrite EW in Hs2.
    destruct (parse_qual cs _ q c' rest' Hs2 A) as (i' & -> & Hs3). cbn [bind unsuited_tail]. rewrite !negb_involutive.
    rewrite (parse_char_no cs i' c' rest' "+"%char Hs3 N1). cbn [bind].
    rewrite (parse_char_no cs i' c' rest' "-"%char Hs3 N2). cbn [bind]. rewrite <- EW in Hs3.
    destruct (parse_opt_weight_reads p cs _ w c rest Hs3 Hc HW) as (i2 & -> & HE). cbn [bind].
    exists i2. split; [|exact HE]. rewrite add_combos_eq by assumption. reflexivity.
  - destruct HS as (R1 & R2 & Hle). rewrite <- app_assoc in Hs. destruct (parse_hand_unsuited p cs hands i r1 r2 _ R1 R2 Hs) as [-> Hs2].
    cbn [chars app] in Hs2. destruct (parse_qual cs _ q _ _ Hs2) as (i' & -> & Hs3); [split; discriminate|].
    cbn [bind unsuited_tail]. rewrite !negb_involutive.
    destruct (parse_char_yes cs i' "+"%char _ Hs3) as [-> Hs4]. cbn [bind].
    destruct (parse_opt_weight_reads p cs _ w c rest Hs4 Hc HW) as (i2 & -> & HE). cbn [bind].
    exists i2. split; [|exact HE]. rewrite add_combos_plus_base by assumption. reflexivity.
  - pose proof HS as (R1 & R2 & R3 & R4 & _). rewrite <- !app_assoc in Hs.
    destruct (parse_hand_unsuited p cs hands i r1 r2 _ R1 R2 Hs) as [-> Hs2].
    cbn [chars app] in Hs2. destruct (parse_qual cs _ q _ _ Hs2) as (i' & -> & Hs3); [split; discriminate|].
    cbn [bind unsuited_tail]. rewrite !negb_involutive.
    rewrite (parse_char_no cs i' _ _ "+"%char Hs3) by discriminate. cbn [bind].
    destruct (parse_char_yes cs i' "-"%char _ Hs3) as [-> Hs4]. cbn [bind].
    destruct (dash_reads cs (S i') r1 r2 r3 r4 q again w c rest HS Hc Hs4) as (i2 & -> & Hs5). cbn [bind negb].
    destruct (parse_opt_weight_reads p cs _ w c rest Hs5 Hc HW) as (i3 & -> & HE). cbn [bind].
    exists i3. split; [|exact HE]. rewrite add_combos_dash_base by assumption. reflexivity.
Qed.

(* ------------------------------------------------------------------------- *)
(** * Lists of terms *)

Definition low_term (t : term) : list char := low_shape (t_shape t) ++ weight_text (t_weight t).
Fixpoint low_range (ts : list term) : list char :=
  match ts with [] => [] | [t] => low_term t | t :: ts' => low_term t ++ 44 :: low_range ts' end.

Lemma low_term_ok t : well_formed t -> low (term_text t) = low_term t.
Proof.
  intros [HS HW]. unfold term_text, low_term, low. rewrite map_app. fold (low (shape_text (t_shape t))) (low (weight_text (t_weight t))).
  now rewrite low_shape_ok, low_weight.
Qed.
Lemma low_range_ok ts : Forall well_formed ts -> low (range_text ts) = low_range ts.
Proof.
  induction 1 as [|t ts Ht Hts IH]; [reflexivity|]. destruct ts as [|t2 ts].
  - now apply low_term_ok.
  - cbn [range_text low_range]. unfold low in *. rewrite !map_app. fold (low (term_text t)). rewrite low_term_ok by exact Ht.
    cbn [range_text] in IH. rewrite IH. reflexivity.
Qed.

Definition range_combos (ts : list term) : list combo := flat_map (fun t => shape_combos (t_shape t) (weight_of t)) ts.

Lemma low_shape_nonempty s : exists r k, low_shape s = r :: k.
Proof. destruct s; cbn [low_shape]; eauto. Qed.

(* the loop over terms followed by a blank, or by a comma and a character that starts no term *)
Lemma parse_loop_reads p cs ending : forall ts fuel hands i, Forall well_formed ts -> ts <> [] ->
  skipn i cs = low_range ts ++ ending ->
  (exists rest, ending = 32 :: rest) \/ (exists c rest, ending = 44 :: c :: rest /\ char_to_rank c = U8MAX) ->
  (length (low_range ts) + 1 < fuel)%nat ->
  parse_loop p fuel cs hands i = Ret (hands ++ range_combos ts).
Proof.
  induction ts as [|t ts IH]; intros fuel hands i Hw Hne Hs He Hf; [contradiction|].
  inversion Hw as [|? ? Ht Hts]. subst. destruct fuel as [|fuel]; [lia|].
  destruct (low_shape_nonempty (t_shape t)) as (r0 & k0 & Ek).
  destruct ts as [|t2 ts].
  - cbn [low_range] in *. unfold low_term in Hs. rewrite <- app_assoc in Hs. cbn [parse_loop]. unfold range_combos. cbn [flat_map]. rewrite app_nil_r.
    destruct He as [(rest & ->)|(c & rest & -> & Hc)].
    + destruct (parse_hand_reads p cs hands i t 32 rest Ht ltac:(right; reflexivity) Hs) as (i' & -> & Hs'). cbn [bind negb].
      rewrite (parse_char_no cs i' 32 rest ","%char Hs') by discriminate. reflexivity.
    + destruct (parse_hand_reads p cs hands i t 44 (c :: rest) Ht ltac:(left; reflexivity) Hs) as (i' & -> & Hs'). cbn [bind negb].
      destruct (parse_char_yes cs i' ","%char _ Hs') as [-> Hs2]. cbn [bind].
      destruct fuel as [|fuel]; [lia|]. cbn [parse_loop].
      apply skipn_get in Hs2 as [Hg _]. unfold parse_hand. cbv zeta. unfold parse_rank at 1. rewrite Hg. cbn [bind]. cbv zeta.
      rewrite Hc, N.eqb_refl. reflexivity.
  - change (low_range (t :: t2 :: ts)) with (low_term t ++ 44 :: low_range (t2 :: ts)) in *.
    unfold low_term in Hs at 1. rewrite <- !app_assoc in Hs. cbn [app] in Hs. cbn [parse_loop].
    destruct (parse_hand_reads p cs hands i t 44 _ Ht ltac:(left; reflexivity) Hs) as (i' & -> & Hs'). cbn [bind negb].
    destruct (parse_char_yes cs i' ","%char _ Hs') as [-> Hs2]. cbn [bind].
    rewrite (IH fuel _ (S i') Hts); [|discriminate|exact Hs2|exact He|].
    + unfold range_combos. cbn [flat_map]. rewrite <- app_assoc. reflexivity.
    + rewrite app_length in Hf. cbn [length] in Hf. lia.
Qed.

Lemma parse_lowered_reads p ts : Forall well_formed ts ->
  parse_lowered p (low_range ts) = Ret (remove_duplicates (range_combos ts)).
Proof.
  intros Hw. unfold parse_lowered. cbv zeta. change (char_of_ascii " "%char) with 32.
  destruct ts as [|t ts]; [reflexivity|].
  rewrite (parse_loop_reads p (low_range (t :: ts) ++ [32]) [32] (t :: ts) _ [] 0 Hw); [reflexivity|discriminate|reflexivity|eauto|].
  rewrite app_length. cbn [length]. lia.
Qed.

Lemma parse_lowered_tail p ts tail : Forall well_formed ts -> ts <> [] ->
  (forall c rest, tail = c :: rest -> char_to_rank c = U8MAX) ->
  parse_lowered p (low_range ts ++ 44 :: tail) = Ret (remove_duplicates (range_combos ts)).
Proof.
  intros Hw Hne Ht. unfold parse_lowered. cbv zeta. change (char_of_ascii " "%char) with 32.
  rewrite (parse_loop_reads p ((low_range ts ++ 44 :: tail) ++ [32]) (44 :: tail ++ [32]) ts _ [] 0 Hw Hne); [reflexivity| | |].
  - cbn [skipn]. now rewrite <- app_assoc.
  - right. destruct tail as [|c tail]; cbn [app]; do 2 eexists; split; try reflexivity. apply (Ht c tail eq_refl).
  - rewrite !app_length. cbn [length]. lia.
Qed.

(* ------------------------------------------------------------------------- *)
(** * Meaning of terms *)

Lemma plus_In r1 r2 q w a b w' : is_rank r1 -> is_rank r2 -> b < a ->
  In (a, b, w') (add_combos_plus [] r1 r2 (su_of q) (off_of q) w) <->
  w' = w /\ a < 52 /\ denotes (Plus r1 r2 q) a b.
Proof.
  intros H1 H2 Hab. unfold is_rank in *. unfold add_combos_plus.
  assert (Q : forall a b, (if suit_of a =? suit_of b then su_of q = true else off_of q = true) <-> suits_allowed q a b).
  { intros x y. destruct (N.eqb_spec (suit_of x) (suit_of y)), q; cbn; intuition discriminate. }
  destruct (N.eqb_spec r1 r2) as [E|E].
  - rewrite (fold_add _ (fun r => combos_of r r (su_of q) (off_of q) w)).
    2:{ intros hs r Hr. unfold n_range in Hr. apply nseq_In in Hr. apply add_combos_eq; lia. }
    cbn [app]. rewrite in_flat_map. split.
    + intros (r & Hr & H). unfold n_range in Hr. apply nseq_In in Hr. apply combos_of_In in H; [|lia|lia|exact Hab].
      destruct H as (-> & Ha & Hra & Hq). apply Q in Hq. split; [reflexivity|]. split; [exact Ha|]. cbn [denotes].
      split; [exact Hq|]. left. split; [exact E|]. exists r. split; [lia|exact Hra].
    + intros (-> & Ha & Hq & [[_ (r & Hr & Hra)]|[H _]]); [|contradiction].
      assert (r < 13). { destruct (split_card a Ha) as (Hlt & _). destruct Hra as [[<- _]|[<- _]]; exact Hlt. }
      exists r. split; [unfold n_range; apply nseq_In; lia|]. apply combos_of_In; [lia|lia|exact Hab|]. rewrite Q. auto.
  - rewrite (fold_add _ (fun r => combos_of r1 r (su_of q) (off_of q) w)).
    2:{ intros hs r Hr. unfold n_range in Hr. apply nseq_In in Hr. apply add_combos_eq; lia. }
    cbn [app]. rewrite in_flat_map. split.
    + intros (r & Hr & H). unfold n_range in Hr. apply nseq_In in Hr. apply combos_of_In in H; [|lia|lia|exact Hab].
      destruct H as (-> & Ha & Hra & Hq). apply Q in Hq. split; [reflexivity|]. split; [exact Ha|]. cbn [denotes].
      split; [exact Hq|]. right. split; [exact E|]. exists r. split; [lia|]. split; [lia|exact Hra].
    + intros (-> & Ha & Hq & [[H _]|[_ (r & Hr & Hr' & Hra)]]); [contradiction|].
      exists r. split; [unfold n_range; apply nseq_In; lia|]. apply combos_of_In; [lia|lia|exact Hab|]. rewrite Q. auto.
Qed.

Lemma each_In (f : N) lo hi q w a b w' : f < 13 -> hi < 13 -> b < a ->
  In (a, b, w') (fold_left (fun hs r => add_combos hs f r (su_of q) (off_of q) w) (n_range_incl lo hi) []) <->
  w' = w /\ a < 52 /\ suits_allowed q a b /\ exists k, lo <= k /\ k <= hi /\ ranks_are a b f k.
Proof.
  intros Hf Hh Hab.
  assert (Q : forall a b, (if suit_of a =? suit_of b then su_of q = true else off_of q = true) <-> suits_allowed q a b).
  { intros x y. destruct (N.eqb_spec (suit_of x) (suit_of y)), q; cbn; intuition discriminate. }
  rewrite (fold_add _ (fun r => combos_of f r (su_of q) (off_of q) w)).
  2:{ intros hs r Hr. unfold n_range_incl in Hr. apply nseq_In in Hr. apply add_combos_eq; lia. }
  cbn [app]. rewrite in_flat_map. split.
  - intros (r & Hr & H). unfold n_range_incl in Hr. apply nseq_In in Hr. apply combos_of_In in H; [|lia|lia|exact Hab].
    destruct H as (-> & Ha & Hra & Hq). apply Q in Hq. split; [reflexivity|]. split; [exact Ha|]. split; [exact Hq|].
    exists r. split; [lia|]. split; [lia|exact Hra].
  - intros (-> & Ha & Hq & k & Hk1 & Hk2 & Hra). exists k. split; [unfold n_range_incl; apply nseq_In; lia|].
    apply combos_of_In; [lia|lia|exact Hab|]. rewrite Q. auto.
Qed.

Lemma dash_In_gen r1 r2 r3 r4 q again w a b w' : r1 < 13 -> r2 < 13 -> r3 < 13 -> r4 < 13 ->
  (r1 = r2 \/ exists x y z, two_are r1 r2 x y /\ two_are r3 r4 x z /\ x <> y /\ x <> z) -> b < a ->
  In (a, b, w') (add_combos_dash [] r1 r2 r3 r4 (su_of q) (off_of q) w) <->
  w' = w /\ a < 52 /\ denotes (Dash r1 r2 r3 r4 q again) a b.
Proof.
  intros H1 H2 H3 H4 HS Hab. unfold is_rank in *. unfold add_combos_dash. cbv zeta. cbn [denotes].
  assert (Q : forall a b, (if suit_of a =? suit_of b then su_of q = true else off_of q = true) <-> suits_allowed q a b).
  { intros x y. destruct (N.eqb_spec (suit_of x) (suit_of y)), q; cbn; intuition discriminate. }
  destruct (N.eqb_spec r1 r2) as [E|E].
  - rewrite (fold_add _ (fun r => combos_of r r (su_of q) (off_of q) w)).
    2:{ intros hs r Hr. unfold n_range_incl in Hr. apply nseq_In in Hr. apply add_combos_eq; lia. }
    cbn [app]. rewrite in_flat_map. split.
    + intros (r & Hr & H). unfold n_range_incl in Hr. apply nseq_In in Hr. apply combos_of_In in H; [|lia|lia|exact Hab].
      destruct H as (-> & Ha & Hra & Hq). apply Q in Hq. split; [reflexivity|]. split; [exact Ha|]. split; [exact Hq|].
      left. split; [exact E|]. exists r. split; [lia|]. split; [lia|exact Hra].
    + intros (-> & Ha & Hq & [[_ (r & Hr & Hr' & Hra)]|[H _]]); [|contradiction].
      exists r. split; [unfold n_range_incl; apply nseq_In; lia|]. apply combos_of_In; [lia|lia|exact Hab|]. rewrite Q. auto.
  - assert (HC : r1 = r3 \/ r1 = r4 \/ r2 = r3 \/ r2 = r4).
    { destruct HS as [HE|(x & y & z & Hx & Hz & _)]; [contradiction|]. clear - Hx Hz. unfold two_are in *. lia. }
    clear HS.
    (* the shared rank f and the ends u, v used by the code *)
    assert (G : forall f lo hi u v, two_are r1 r2 f u -> two_are r3 r4 f v -> f < 13 -> hi < 13 ->
      (lo = u /\ hi = v /\ u <= v \/ lo = v /\ hi = u /\ v <= u) ->
      In (a, b, w') (fold_left (fun hs r => add_combos hs f r (su_of q) (off_of q) w) (n_range_incl lo hi) []) <->
      w' = w /\ a < 52 /\ suits_allowed q a b /\
       (r1 = r2 /\ (exists r, r3 <= r /\ r <= r1 /\ ranks_are a b r r) \/
        r1 <> r2 /\ (exists x y z k, two_are r1 r2 x y /\ two_are r3 r4 x z /\
                      (y <= k /\ k <= z \/ z <= k /\ k <= y) /\ ranks_are a b x k))).
    { intros f lo hi u v Hu Hv Hf Hh Hlh. rewrite each_In by assumption. split.
      - intros (-> & Ha & Hq & k & Hk1 & Hk2 & Hra). split; [reflexivity|]. split; [exact Ha|]. split; [exact Hq|]. right.
        split; [exact E|]. exists f, u, v, k. split; [exact Hu|]. split; [exact Hv|]. split; [lia|exact Hra].
      - intros (-> & Ha & Hq & [[H _]|[_ (x' & y' & z' & k & Hx' & Hz' & Hk & Hra)]]); [contradiction|].
        split; [reflexivity|]. split; [exact Ha|]. split; [exact Hq|].
        destruct (N.eq_dec x' f) as [->|Nf].
        + exists k. assert (y' = u) by (unfold two_are in *; lia). assert (z' = v) by (unfold two_are in *; lia). subst y' z'.
          split; [lia|]. split; [lia|exact Hra].
        + (* both hands have the same two ranks *)
          assert (x' = u /\ x' = v /\ y' = f /\ z' = f) as (E1 & E2 & E3 & E4) by (unfold two_are in *; lia).
          exists u. assert (Ek : k = f) by (clear - E3 E4 Hk; lia). rewrite Ek, E1 in Hra.
          split; [clear - Hlh E1 E2; lia|]. split; [clear - Hlh E1 E2; lia|].
          clear - Hra. unfold ranks_are, two_are in *. tauto. }
    destruct (N.eqb_spec r1 r3) as [E13|E13].
    { destruct (N.ltb_spec r4 r2) as [L|L]; eapply G with (u := r2) (v := r4); unfold two_are; auto; lia. }
    destruct (N.eqb_spec r1 r4) as [E14|E14].
    { destruct (N.ltb_spec r3 r2) as [L|L]; eapply G with (u := r2) (v := r3); unfold two_are; auto; lia. }
    destruct (N.eqb_spec r2 r3) as [E23|E23].
    { destruct (N.ltb_spec r4 r1) as [L|L]; eapply G with (u := r1) (v := r4); unfold two_are; auto; lia. }
    destruct (N.eqb_spec r2 r4) as [E24|E24].
    { destruct (N.ltb_spec r3 r1) as [L|L]; eapply G with (u := r1) (v := r3); unfold two_are; auto; lia. }
    exfalso. tauto.
Qed.

Lemma dash_In r1 r2 r3 r4 q again w a b w' : well_formed_shape (Dash r1 r2 r3 r4 q again) -> b < a ->
  In (a, b, w') (add_combos_dash [] r1 r2 r3 r4 (su_of q) (off_of q) w) <->
  w' = w /\ a < 52 /\ denotes (Dash r1 r2 r3 r4 q again) a b.
Proof.
  intros (H1 & H2 & H3 & H4 & HS) Hab. apply dash_In_gen; auto.
  destruct HS as [(HE & _)|(x & y & z & Hx & Hz & Hside)]; [auto|]. right. exists x, y, z. unfold one_side in Hside.
  split; [exact Hx|]. split; [exact Hz|]. lia.
Qed.

Lemma shape_combos_In s w a b w' : well_formed_shape s -> b < a ->
  In (a, b, w') (shape_combos s w) <-> w' = w /\ a < 52 /\ denotes s a b.
Proof.
  intros H Hab. destruct s as [c1 c2|r1 r2 q|r1 r2 q|r1 r2 r3 r4 q again]; cbn [shape_combos].
  - destruct H as (H1 & H2 & _). rewrite ordered_In by exact Hab. cbn [denotes]. unfold is_card, two_are in *. split; intros; intuition lia.
  - destruct H as (H1 & H2). rewrite combos_of_In by assumption. cbn [denotes].
    assert (Q : (if suit_of a =? suit_of b then su_of q = true else off_of q = true) <-> suits_allowed q a b).
    { destruct (N.eqb_spec (suit_of a) (suit_of b)), q; cbn; intuition discriminate. }
    rewrite Q. tauto.
  - destruct H as (H1 & H2 & _). now apply plus_In.
  - now apply dash_In.
Qed.

Lemma shape_combos_wf s w : well_formed_shape s -> w <= 100 -> Forall wfc (shape_combos s w).
Proof.
  intros H Hw. destruct s as [c1 c2|r1 r2 q|r1 r2 q|r1 r2 r3 r4 q again]; cbn [shape_combos].
  - destruct H as (H1 & H2 & Hd). unfold is_card in *. constructor; [|constructor]. unfold wfc, ordered, c_1, c_2, c_w. cbn [fst snd]. lia.
  - destruct H. now apply combos_of_wf.
  - now apply add_combos_plus_wf.
  - now apply add_combos_dash_wf.
Qed.

Lemma weight_of_le t : well_formed t -> weight_of t <= 100.
Proof. intros [_ H]. unfold weight_of. destruct (t_weight t); [apply H|lia]. Qed.

Lemma range_combos_wf ts : Forall well_formed ts -> Forall wfc (range_combos ts).
Proof.
  intros H. apply Forall_forall. intros c Hc. apply in_flat_map in Hc as (t & Ht & Hc). rewrite Forall_forall in H.
  pose proof (H t Ht) as Hw. pose proof (shape_combos_wf _ _ (proj1 Hw) (weight_of_le t Hw)) as HF. rewrite Forall_forall in HF. auto.
Qed.

(* the first term denoting a hand *)
Lemma lookup_range a b w ts : b < a -> Forall well_formed ts ->
  lookup a b (range_combos ts) = Some w <->
  a < 52 /\ exists before t after, ts = before ++ t :: after /\ denotes (t_shape t) a b /\
    (forall u, In u before -> ~ denotes (t_shape u) a b) /\ w = weight_of t.
Proof.
  intros Hab Hw. induction Hw as [|t ts Ht Hts IH].
  - cbn. split; [discriminate|]. intros (_ & before & t & after & E & _). destruct before; discriminate E.
  - unfold range_combos. cbn [flat_map]. fold (range_combos ts). rewrite lookup_app.
    destruct (lookup a b (shape_combos (t_shape t) (weight_of t))) as [v|] eqn:E.
    + apply lookup_In in E. apply shape_combos_In in E; [|apply Ht|exact Hab]. destruct E as (-> & Ha & HD). split.
      * intros H. injection H as <-. split; [exact Ha|]. exists [], t, ts. repeat split; auto.
      * intros (_ & before & t' & after & E & HD' & Hn & ->). destruct before as [|u before]; cbn [app] in E; injection E as <- ->; [reflexivity|].
        exfalso. apply (Hn t); [left; reflexivity|exact HD].
    + rewrite IH. rewrite lookup_None in E. split.
      * intros (Ha & before & t' & after & -> & HD' & Hn & ->). split; [exact Ha|]. exists (t :: before), t', after.
        split; [reflexivity|]. split; [exact HD'|]. split; [|reflexivity]. intros u [<-|Hu]; [|auto].
        intros HD. apply (E (weight_of t)). apply shape_combos_In; [apply Ht|exact Hab|auto].
      * intros (Ha & before & t' & after & E' & HD' & Hn & ->). split; [exact Ha|].
        destruct before as [|u before]; cbn [app] in E'; injection E' as <- ->.
        -- exfalso. apply (E (weight_of t)). apply shape_combos_In; [apply Ht|exact Hab|auto].
        -- exists before, t', after. repeat split; auto. intros v Hv. apply Hn. right. exact Hv.
Qed.

(* ------------------------------------------------------------------------- *)
(** * from_string *)

Lemma reads_low text canonical : reads_as text canonical -> low text = low canonical.
Proof. intros H. now apply Forall2_same_map. Qed.

Lemma reads_ascii text canonical : reads_as text canonical -> ascii_text canonical -> ascii_text text.
Proof.
  induction 1 as [|x y l k Hxy H IH]; intros HA; [constructor|]. inversion HA as [|? ? Hy Hk]. subst.
  constructor; [|apply IH; exact Hk]. unfold same_char in Hxy. lia.
Qed.

Lemma rank_char_ascii r : rank_char r < 128.
Proof.
  unfold rank_char. destruct (Nat.lt_ge_cases (N.to_nat r) 13) as [H|H].
  - assert (HF : Forall (fun c => c < 128) (chars "23456789TJQKA")) by (cbn; repeat constructor).
    rewrite Forall_forall in HF. apply HF. apply nth_In. cbn. lia.
  - rewrite nth_overflow; [lia|cbn; lia].
Qed.
Lemma suit_char_ascii s : suit_char s < 128.
Proof.
  unfold suit_char. destruct (Nat.lt_ge_cases (N.to_nat s) 4) as [H|H].
  - assert (HF : Forall (fun c => c < 128) (chars "shcd")) by (cbn; repeat constructor).
    rewrite Forall_forall in HF. apply HF. apply nth_In. cbn. lia.
  - rewrite nth_overflow; [lia|cbn; lia].
Qed.
Lemma qual_text_ascii q : ascii_text (qual_text q).
Proof. destruct q; cbn; repeat constructor. Qed.
Lemma term_text_ascii t : well_formed t -> ascii_text (term_text t).
Proof.
  intros [_ HW]. unfold term_text, ascii_text. apply Forall_app. split.
  - destruct (t_shape t); cbn [shape_text]; unfold card_name, ranks_text; repeat (apply Forall_app; split);
      repeat first [apply qual_text_ascii | constructor | apply rank_char_ascii | apply suit_char_ascii | reflexivity].
    destruct again; [apply qual_text_ascii|constructor].
  - destruct (t_weight t) as [ds|]; [|constructor]. cbn [weight_text]. destruct HW as (_ & Hd & _).
    apply Forall_app. split; [repeat constructor|]. apply Forall_forall. intros c Hc. apply in_map_iff in Hc as (d & <- & Hin).
    rewrite Forall_forall in Hd. specialize (Hd d Hin). unfold digit_char. lia.
Qed.
Lemma range_text_ascii ts : Forall well_formed ts -> ascii_text (range_text ts).
Proof.
  induction 1 as [|t ts Ht Hts IH]; [constructor|]. destruct ts as [|t2 ts].
  - now apply term_text_ascii.
  - change (range_text (t :: t2 :: ts)) with (term_text t ++ chars "," ++ range_text (t2 :: ts)).
    apply Forall_app. split; [now apply term_text_ascii|]. apply Forall_app. split; [repeat constructor|exact IH].
Qed.

(* "random" starts with no rank character, so no list of terms spells it *)
Lemma lr_not_r r : r < 13 -> lr r <> 114.
Proof.
  intros H. assert (E : forallb (fun r => negb (lr r =? 114)) (nseq 0 13) = true) by (vm_compute; reflexivity).
  apply N.eqb_neq, negb_true_iff. apply (forallb_In _ _ E). apply nseq_In. lia.
Qed.
Lemma low_shape_head s : well_formed_shape s -> exists r k, low_shape s = lr r :: k /\ r < 13.
Proof.
  destruct s as [c1 c2|r1 r2 q|r1 r2 q|r1 r2 r3 r4 q again]; cbn [well_formed_shape low_shape]; unfold is_rank.
  - intros (H1 & _). destruct (split_card c1 H1) as (Hr & _). eauto.
  - intros (H1 & _). eauto.
  - intros (H1 & _). eauto.
  - intros (H1 & _). eauto.
Qed.
Lemma low_range_not_random ts ending : Forall well_formed ts -> ts <> [] -> low (chars "random") <> low_range ts ++ ending.
Proof.
  intros Hw Hne E. destruct ts as [|t ts]; [contradiction|]. inversion Hw as [|? ? [Ht _] _]. subst.
  destruct (low_shape_head _ Ht) as (r & k & Ek & Hr).
  assert (G : exists k', low_range (t :: ts) = lr r :: k').
  { destruct ts; cbn [low_range]; unfold low_term; rewrite Ek; cbn [app]; eauto. }
  destruct G as (k' & G). rewrite G in E. cbn [app] in E. apply (lr_not_r r Hr). now injection E.
Qed.
Lemma not_random_eqb text : text <> chars "random" -> chars_eqb text (chars "random") = false.
Proof. intros H. destruct (chars_eqb text (chars "random")) eqn:E; [|reflexivity]. apply chars_eqb_eq in E. contradiction. Qed.

Lemma from_string_reads lower p ts text : lowers_ascii lower -> Forall well_formed ts -> reads_as text (range_text ts) ->
  from_string lower p text = Ret (remove_duplicates (range_combos ts)).
Proof.
  intros HL Hw Hr. pose proof (reads_ascii _ _ Hr (range_text_ascii ts Hw)) as HA.
  pose proof (reads_low _ _ Hr) as El. rewrite (low_range_ok ts Hw) in El.
  unfold from_string. rewrite not_random_eqb.
  - rewrite (HL text HA). fold (low text). rewrite El. now apply parse_lowered_reads.
  - intros ->. destruct ts as [|t ts]; [discriminate El|].
    apply (low_range_not_random (t :: ts) [] Hw); [discriminate|]. rewrite app_nil_r. exact El.
Qed.

(* C23 and C24 *)
Lemma range_denotation lower p ts text : lowers_ascii lower -> Forall well_formed ts -> reads_as text (range_text ts) ->
  exists hands, from_string lower p text = Ret hands /\
    forall a b, b < a -> is_card a -> ((exists w, In (a, b, w) hands) <-> exists t, In t ts /\ denotes (t_shape t) a b).
Proof.
  intros HL Hw Hr. eexists. split; [exact (from_string_reads lower p ts text HL Hw Hr)|]. intros a b Hab Ha.
  destruct (remove_duplicates_spec _ (range_combos_wf ts Hw)) as (HS & HF & HK). split.
  - intros (w & Hin). apply (sorted_lookup _ _ _ _ HS) in Hin. rewrite HK in Hin. apply lookup_range in Hin; [|exact Hab|exact Hw].
    destruct Hin as (_ & before & t & after & -> & HD & _). exists t. split; [apply in_app_iff; right; left; reflexivity|exact HD].
  - intros (t & Hin & HD). destruct (lookup a b (range_combos ts)) as [w|] eqn:E.
    + rewrite <- HK in E. apply lookup_In in E. eauto.
    + exfalso. rewrite lookup_None in E. apply (E (weight_of t)). apply in_flat_map. exists t. split; [exact Hin|].
      rewrite Forall_forall in Hw. apply shape_combos_In; [apply Hw; exact Hin|exact Hab|]. auto.
Qed.

Lemma first_weight lower p ts text : lowers_ascii lower -> Forall well_formed ts -> reads_as text (range_text ts) ->
  exists hands, from_string lower p text = Ret hands /\
    forall a b w, In (a, b, w) hands <-> b < a /\ is_card a /\
      exists before t after, ts = before ++ t :: after /\ denotes (t_shape t) a b /\
        (forall u, In u before -> ~ denotes (t_shape u) a b) /\ w = weight_of t.
Proof.
  intros HL Hw Hr. eexists. split; [exact (from_string_reads lower p ts text HL Hw Hr)|]. intros a b w.
  destruct (remove_duplicates_spec _ (range_combos_wf ts Hw)) as (HS & HF & HK). split.
  - intros Hin. assert (Hab : b < a). { rewrite Forall_forall in HF. apply HF in Hin. unfold wfc, c_1, c_2 in Hin. apply Hin. }
    apply (sorted_lookup _ _ _ _ HS) in Hin. rewrite HK in Hin. apply lookup_range in Hin; [|exact Hab|exact Hw]. unfold is_card. tauto.
  - intros (Hab & Ha & H). apply lookup_In. rewrite HK. apply lookup_range; [exact Hab|exact Hw|]. auto.
Qed.

Lemma case_insensitive lower p t1 t2 : lowers_ascii lower -> ascii_text t1 -> ascii_text t2 ->
  Forall2 same_char t1 t2 -> t1 <> chars "random" -> t2 <> chars "random" ->
  from_string lower p t1 = from_string lower p t2.
Proof.
  intros HL A1 A2 H N1 N2. unfold from_string. rewrite !not_random_eqb by assumption.
  rewrite (HL t1 A1), (HL t2 A2). apply Forall2_same_map in H. now rewrite H.
Qed.

Lemma malformed_tail lower p ts text tail : lowers_ascii lower -> Forall well_formed ts -> ts <> [] ->
  reads_as text (range_text ts) -> ascii_text tail ->
  (forall c rest r, tail = c :: rest -> r < 13 -> ~ same_char c (rank_char r)) ->
  from_string lower p (text ++ chars "," ++ tail) = from_string lower p text.
Proof.
  intros HL Hw Hne Hr HT Htail. rewrite (from_string_reads lower p ts text HL Hw Hr).
  pose proof (reads_ascii _ _ Hr (range_text_ascii ts Hw)) as HA.
  pose proof (reads_low _ _ Hr) as El. rewrite (low_range_ok ts Hw) in El.
  assert (HA' : ascii_text (text ++ chars "," ++ tail)).
  { apply Forall_app. split; [exact HA|]. apply Forall_app. split; [repeat constructor|exact HT]. }
  unfold from_string. rewrite not_random_eqb.
  - rewrite (HL _ HA'), !map_app. fold (low text). rewrite El. cbn [chars map app]. change (ascii_lower (char_of_ascii ",")) with 44.
    apply parse_lowered_tail; auto. intros c rest E. destruct tail as [|c0 tail]; [discriminate E|]. cbn [map] in E. injection E as <- <-.
    destruct (char_to_rank_cases (ascii_lower c0)) as [(r & Hr' & _ & Hc)|(E & _)]; [|exact E].
    exfalso. apply (Htail c0 tail r eq_refl Hr'). apply same_char_lower. exact Hc.
  - intros E. apply (f_equal low) in E. unfold low in E at 1. rewrite map_app in E. fold (low text) in E. rewrite El in E.
    symmetry in E. exact (low_range_not_random ts _ Hw Hne E).
Qed.

(* checked and unchecked builds agree when the checked one returns *)
Definition below {A} (m m' : outcome A) : Prop := forall a, m = Ret a -> m' = Ret a.
Lemma below_refl {A} (m : outcome A) : below m m. Proof. intros a H. exact H. Qed.
Lemma below_bind {A B} (m m' : outcome A) (k k' : A -> outcome B) :
  below m m' -> (forall a, below (k a) (k' a)) -> below (bind m k) (bind m' k').
Proof. intros Hm Hk b H. apply bind_ret in H as (a & H1 & H2). rewrite (Hm a H1). cbn. now apply Hk. Qed.
Lemma below_add w a b : below (add_ w Debug a b) (add_ w Release a b).
Proof. intros r H. unfold add_ in *. destruct (a + b <? 2 ^ w); [exact H|discriminate H]. Qed.
Lemma below_mul w a b : below (mul_ w Debug a b) (mul_ w Release a b).
Proof. intros r H. unfold mul_ in *. destruct (a * b <? 2 ^ w); [exact H|discriminate H]. Qed.
Lemma below_weight_loop cs backtrack weight : forall fuel i number,
  below (parse_weight_loop Debug fuel cs backtrack i number weight) (parse_weight_loop Release fuel cs backtrack i number weight).
Proof.
  induction fuel as [|fuel IH]; intros i number; [apply below_refl|]. cbn [parse_weight_loop].
  apply below_bind; [apply below_refl|]. intros x. destruct (to_digit x); [|apply below_refl].
  apply below_bind; [apply below_mul|]. intros m. apply below_bind; [apply below_add|]. intros k. apply IH.
Qed.
Lemma below_opt_weight cs i : below (parse_opt_weight Debug cs i) (parse_opt_weight Release cs i).
Proof.
  unfold parse_opt_weight. apply below_bind; [apply below_refl|]. intros [b j]. destruct b; [|apply below_refl]. apply below_weight_loop.
Qed.
Ltac below_tac :=
  repeat first
   [ apply below_refl | apply below_opt_weight
   | apply below_bind; [|intros ?]
   | match goal with
     | |- below (match ?x with _ => _ end) _ => destruct x
     | |- below (let (_, _) := ?x in _) _ => destruct x
     | |- below (if ?b then _ else _) _ => destruct b
     end ].
Lemma below_hand cs hands i : below (parse_hand Debug cs hands i) (parse_hand Release cs hands i).
Proof. unfold parse_hand. cbv zeta. below_tac. Qed.
Lemma below_loop cs : forall fuel hands i, below (parse_loop Debug fuel cs hands i) (parse_loop Release fuel cs hands i).
Proof.
  induction fuel as [|fuel IH]; intros hands i; [apply below_refl|]. cbn [parse_loop].
  apply below_bind; [apply below_hand|]. intros [[ok hands'] j]. destruct ok; cbn [negb]; [|apply below_refl].
  apply below_bind; [apply below_refl|]. intros [b k]. destruct b; [apply IH|apply below_refl].
Qed.
Lemma builds_agree lower text hands : from_string lower Debug text = Ret hands -> from_string lower Release text = Ret hands.
Proof.
  unfold from_string. destruct (chars_eqb text (chars "random")); [auto|]. unfold parse_lowered. cbv zeta.
  intros H. apply bind_ret in H as (hs & H1 & H2). rewrite (below_loop _ _ _ _ _ H1). exact H2.
Qed.
