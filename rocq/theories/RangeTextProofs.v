(* Further proofs about range texts: long numbers, weights above 100, symmetric dashes,
   removal of conflicting combos. *)
From Verif Require Import Base BaseProofs Hand Range SpecPoker SpecNames SpecText SpecRange PokerFacts IndexProofs TextProofs RangeProofs ParserProofs NotationProofs.
From Coq Require Import Sorted.
Local Open Scope N_scope.

(* ------------------------------------------------------------------------- *)
(** * Without ten digits in a row both builds parse alike *)

Lemma to_digit_some c d : to_digit c = Some d -> is_digit c /\ d < 10.
Proof.
  unfold to_digit, is_digit. change (char_of_ascii "0"%char) with 48. change (char_of_ascii "9"%char) with 57.
  destruct (N.leb_spec 48 c), (N.leb_spec c 57); cbn [andb]; try discriminate. intros H1. injection H1 as <-. lia.
Qed.

Lemma weight_loop_same cs backtrack weight : ~ long_number cs -> forall fuel start k number,
  (k <= 9)%nat -> (forall j, (j < k)%nat -> is_digit (nth (start + j) cs 0)) -> number < 10 ^ N.of_nat k ->
  parse_weight_loop Debug fuel cs backtrack (start + k) number weight =
  parse_weight_loop Release fuel cs backtrack (start + k) number weight.
Proof.
  intros HL. induction fuel as [|fuel IH]; intros start k number Hk HD Hn; [reflexivity|]. cbn [parse_weight_loop].
  destruct (get cs (start + k)) as [x|f] eqn:Hg; cbn [bind]; [|reflexivity].
  destruct (to_digit x) as [num|] eqn:Hx; [|reflexivity].
  apply to_digit_some in Hx as [Hdig Hnum]. apply get_ret in Hg.
  assert (HD' : forall j, (j < S k)%nat -> is_digit (nth (start + j) cs 0)).
  { intros j Hj. destruct (Nat.eq_dec j k) as [->|Hne]; [|apply HD; lia]. pose proof (nth_error_nth cs (start + k) 0 Hg) as Hv. unfold char in *. rewrite Hv. exact Hdig. }
  assert (Hk' : (S k <= 9)%nat).
  { destruct (Nat.le_gt_cases (S k) 9); [assumption|]. exfalso. apply HL. exists start. intros j Hj. apply HD'. lia. }
  assert (HP : 10 ^ N.of_nat (S k) <= 1000000000).
  { change 1000000000 with (10 ^ 9). apply N.pow_le_mono_r; lia. }
  rewrite Nat2N.inj_succ, N.pow_succ_r' in HP.
  rewrite !mul_ok by (change (2 ^ 32) with 4294967296; lia). cbn [bind].
  rewrite !add_ok by (change (2 ^ 32) with 4294967296; lia). cbn [bind].
  rewrite <- Nat.add_succ_r. apply IH; [exact Hk'|exact HD'|]. rewrite Nat2N.inj_succ, N.pow_succ_r'. lia.
Qed.

Lemma opt_weight_same cs : ~ long_number cs -> forall i, parse_opt_weight Debug cs i = parse_opt_weight Release cs i.
Proof.
  intros HL i. unfold parse_opt_weight. apply bind_ext. intros [b j]. destruct b; [|reflexivity]. unfold parse_weight.
  rewrite <- (Nat.add_0_r j) at 2 4. apply weight_loop_same; [exact HL|lia|intros x Hx; lia|reflexivity].
Qed.

Lemma hand_same cs : ~ long_number cs -> forall hands i, parse_hand Debug cs hands i = parse_hand Release cs hands i.
Proof.
  intros HL hands i. unfold parse_hand. cbv zeta.
  repeat first
   [ reflexivity | rewrite !(opt_weight_same cs HL)
   | apply bind_ext; intros ?
   | match goal with
     | |- context[let (_, _) := ?x in _] => destruct x
     | |- context[if ?b then _ else _] => destruct b
     end ].
Qed.
Lemma loop_same cs : ~ long_number cs -> forall fuel hands i, parse_loop Debug fuel cs hands i = parse_loop Release fuel cs hands i.
Proof.
  intros HL. induction fuel as [|fuel IH]; intros hands i; [reflexivity|]. cbn [parse_loop]. rewrite (hand_same cs HL).
  apply bind_ext. intros [[ok hs] j]. destruct ok; cbn [negb]; [|reflexivity]. apply bind_ext. intros [b k]. destruct b; [apply IH|reflexivity].
Qed.

Lemma lower_digit c : is_digit (ascii_lower c) <-> is_digit c.
Proof. unfold is_digit, ascii_lower. destruct (N.leb_spec 65 c), (N.leb_spec c 90); cbn [andb]; lia. Qed.

Lemma long_number_low text : long_number (map ascii_lower text ++ [32]) -> long_number text.
Proof.
  intros (i & H). exists i. intros j Hj. specialize (H j Hj).
  destruct (Nat.lt_ge_cases (i + j) (length text)) as [L|L].
  - rewrite app_nth1 in H by (rewrite map_length; exact L). change 0 with (ascii_lower 0) in H. rewrite map_nth in H.
    now apply lower_digit.
  - exfalso. rewrite app_nth2 in H by (rewrite map_length; exact L). rewrite map_length in H.
    destruct (i + j - length text)%nat as [|[|?]]; cbn in H; destruct H; lia.
Qed.

Lemma short_numbers_return lower text : lowers_ascii lower -> ascii_text text -> ~ long_number text ->
  exists hands, from_string lower Debug text = Ret hands /\ from_string lower Release text = Ret hands.
Proof.
  intros HL HA HN. destruct (from_string_runs lower Release text) as [(hs & E & _)|[E _]]; [|discriminate E].
  exists hs. split; [|exact E]. rewrite <- E. unfold from_string. destruct (chars_eqb text (chars "random")); [reflexivity|].
  rewrite (HL text HA). unfold parse_lowered. cbv zeta. change (char_of_ascii " "%char) with 32. rewrite loop_same; [reflexivity|].
  intros H. apply HN. now apply long_number_low.
Qed.

(* ------------------------------------------------------------------------- *)
(** * Weights above 100 *)

Lemma shape_combos_app s w p cs hands i ds c rest : well_formed_shape s -> Forall (fun d => d < 10) ds -> to_digit c = None ->
  100 < decimal ds -> decimal ds < 2 ^ 32 -> ds <> [] ->
  skipn i cs = low_shape s ++ chars "@" ++ map digit_char ds ++ c :: rest -> w = 100 ->
  exists i', parse_hand p cs hands i = Ret (true, hands ++ shape_combos s w, i') /\
     skipn i' cs = map digit_char ds ++ c :: rest.
Proof.
  intros HS Hd Hc Hbig Hn Hne Hs ->.
  assert (W : forall j, skipn j cs = 64 :: map digit_char ds ++ c :: rest ->
    parse_opt_weight p cs j = Ret (100, S j) /\ skipn (S j) cs = map digit_char ds ++ c :: rest).
  { intros j Hj. unfold parse_opt_weight. destruct (parse_char_yes cs j "@"%char _ Hj) as [-> Hj']. cbn [bind]. split; [|exact Hj'].
    unfold parse_weight. destruct (parse_weight_digits p cs (S j) 100 c rest Hc ds (S (length cs)) (S j) 0 Hd Hj') as [E1 _].
    - pose proof (f_equal (@length char) Hj') as L. rewrite skipn_length, app_length, map_length in L. lia.
    - exact Hn.
    - fold (decimal ds) in E1. rewrite E1. cbv zeta. replace (100 <? decimal ds) with true by (symmetry; apply N.ltb_lt; exact Hbig). reflexivity. }
  destruct s as [c1 c2|r1 r2 q|r1 r2 q|r1 r2 r3 r4 q again]; cbn [low_shape app chars] in Hs.
  - destruct HS as (Hc1 & Hc2 & Hdf). destruct (split_card c1 Hc1) as (R1 & S1 & E1). destruct (split_card c2 Hc2) as (R2 & S2 & E2).
    unfold parse_hand. cbv zeta.
    destruct (parse_rank_yes cs i _ _ Hs R1) as [-> Hs1]. cbn [bind negb].
    destruct (parse_suit_yes cs _ _ _ Hs1 S1) as [-> Hs2]. cbn [bind negb].
    destruct (parse_rank_yes cs _ _ _ Hs2 R2) as [-> Hs3]. cbn [bind negb].
    destruct (parse_suit_yes cs _ _ _ Hs3 S2) as [-> Hs4]. cbn [bind negb].
    rewrite <- E1, <- E2, (eqb_false c1 c2) by exact Hdf.
    destruct (W _ Hs4) as [-> HE]. cbn [bind]. eexists. split; [|exact HE]. rewrite add_combo_ok by (repeat split; assumption). reflexivity.
  - destruct HS as (R1 & R2). destruct (parse_hand_unsuited p cs hands i r1 r2 _ R1 R2 Hs) as [-> Hs2].
    destruct (parse_qual cs _ q _ _ Hs2) as (i' & -> & Hs3); [split; discriminate|]. cbn [bind unsuited_tail]. rewrite !negb_involutive.
    rewrite (parse_char_no cs i' _ _ "+"%char Hs3) by discriminate. cbn [bind].
    rewrite (parse_char_no cs i' _ _ "-"%char Hs3) by discriminate. cbn [bind].
    destruct (W _ Hs3) as [-> HE]. cbn [bind]. eexists. split; [|exact HE]. rewrite add_combos_eq by assumption. reflexivity.
  - destruct HS as (R1 & R2 & Hle). rewrite <- app_assoc in Hs. destruct (parse_hand_unsuited p cs hands i r1 r2 _ R1 R2 Hs) as [-> Hs2].
    cbn [chars app] in Hs2. destruct (parse_qual cs _ q _ _ Hs2) as (i' & -> & Hs3); [split; discriminate|].
    cbn [bind unsuited_tail]. rewrite !negb_involutive.
    destruct (parse_char_yes cs i' "+"%char _ Hs3) as [-> Hs4]. cbn [bind].
    destruct (W _ Hs4) as [-> HE]. cbn [bind]. eexists. split; [|exact HE]. rewrite add_combos_plus_base by assumption. reflexivity.
  - pose proof HS as (R1 & R2 & R3 & R4 & _). rewrite <- !app_assoc in Hs.
    destruct (parse_hand_unsuited p cs hands i r1 r2 _ R1 R2 Hs) as [-> Hs2].
    cbn [chars app] in Hs2. destruct (parse_qual cs _ q _ _ Hs2) as (i' & -> & Hs3); [split; discriminate|].
    cbn [bind unsuited_tail]. rewrite !negb_involutive.
    rewrite (parse_char_no cs i' _ _ "+"%char Hs3) by discriminate. cbn [bind].
    destruct (parse_char_yes cs i' "-"%char _ Hs3) as [-> Hs4]. cbn [bind].
    destruct (dash_reads_gen cs (S i') r1 r2 r3 r4 q again 64 (map digit_char ds ++ c :: rest) HS) as (i2 & -> & Hs5); [split; discriminate|exact Hs4|].
    cbn [bind negb]. destruct (W _ Hs5) as [-> HE]. cbn [bind]. eexists. split; [|exact HE]. rewrite add_combos_dash_base by assumption. reflexivity.
Qed.

(* a comma after a dropped weight is not reached *)
Lemma digit_no_comma d : d < 10 -> digit_char d <> 44.
Proof. unfold digit_char. lia. Qed.

Lemma parse_loop_big p cs s ds c rest : well_formed_shape s -> Forall (fun d => d < 10) ds -> to_digit c = None ->
  100 < decimal ds -> decimal ds < 2 ^ 32 -> forall ts fuel hands i, Forall well_formed ts ->
  skipn i cs = flat_map (fun t => low_term t ++ [44]) ts ++ low_shape s ++ chars "@" ++ map digit_char ds ++ c :: rest ->
  (length ts < fuel)%nat ->
  parse_loop p fuel cs hands i = Ret (hands ++ range_combos ts ++ shape_combos s 100).
Proof.
  intros HS Hd Hc Hbig Hn.
  assert (Hne : ds <> []) by (intros ->; cbn in Hbig; lia).
  induction ts as [|t ts IH]; intros fuel hands i Hw Hs Hf; (destruct fuel as [|fuel]; [cbn in Hf; lia|]); cbn [parse_loop].
  - cbn [flat_map app] in Hs.
    destruct (shape_combos_app s 100 p cs hands i ds c rest HS Hd Hc Hbig Hn Hne Hs eq_refl) as (i' & -> & Hs'). cbn [bind negb].
    destruct ds as [|d ds]; [contradiction|]. cbn [map app] in Hs'. inversion Hd.
    rewrite (parse_char_no cs i' _ _ ","%char Hs') by (apply digit_no_comma; assumption). reflexivity.
  - inversion Hw as [|? ? Ht Hts]. subst. cbn [flat_map] in Hs. unfold low_term at 1 in Hs. rewrite <- !app_assoc in Hs.
    destruct (parse_hand_reads p cs hands i t 44 _ Ht ltac:(left; reflexivity) Hs) as (i' & -> & Hs'). cbn [bind negb].
    destruct (parse_char_yes cs i' ","%char _ Hs') as [-> Hs2]. cbn [bind]. cbn [app] in Hs2.
    rewrite (IH fuel _ (S i') Hts Hs2) by (cbn in Hf; lia).
    unfold range_combos. cbn [flat_map]. rewrite <- !app_assoc. reflexivity.
Qed.

(* ------------------------------------------------------------------------- *)
(** * Dash in both directions *)

Lemma lookup_order a b l : Forall wfc l -> a <= b -> lookup a b l = None.
Proof.
  intros H Hab. apply lookup_None. intros w Hin. rewrite Forall_forall in H. apply H in Hin. unfold wfc, c_1, c_2 in Hin. cbn in Hin. lia.
Qed.

Lemma dash_sym lower p r1 r2 r3 r4 q again w text text' : lowers_ascii lower -> r1 <> r2 ->
  let t := {| t_shape := Dash r1 r2 r3 r4 q again; t_weight := w |} in
  let t' := {| t_shape := Dash r3 r4 r1 r2 q again; t_weight := w |} in
  well_formed t -> reads_as text (range_text [t]) -> reads_as text' (range_text [t']) ->
  from_string lower p text = from_string lower p text'.
Proof.
  intros HL Hne t t' Hw H1 H2.
  pose proof Hw as [HS HW]. cbn [t_shape t_weight t] in HS, HW.
  assert (HS' : well_formed_shape (Dash r3 r4 r1 r2 q again) /\ r3 <> r4).
  { destruct HS as (A1 & A2 & A3 & A4 & [(E & _)|(x & y & z & B1 & B2 & B3)]); [contradiction|].
    split; [|unfold two_are, one_side in *; lia]. cbn [well_formed_shape]. split; [exact A3|]. split; [exact A4|]. split; [exact A1|]. split; [exact A2|].
    right. exists x, z, y. split; [exact B2|]. split; [exact B1|]. unfold one_side in *. lia. }
  destruct HS' as [HS' Hne'].
  assert (Hw' : well_formed t') by (split; assumption).
  assert (F1 : Forall well_formed [t]) by (constructor; [exact Hw|constructor]).
  assert (F2 : Forall well_formed [t']) by (constructor; [exact Hw'|constructor]).
  rewrite (from_string_reads lower p [t] text HL F1 H1), (from_string_reads lower p [t'] text' HL F2 H2). f_equal.
  destruct (remove_duplicates_spec _ (range_combos_wf _ F1)) as (S1 & W1 & K1).
  destruct (remove_duplicates_spec _ (range_combos_wf _ F2)) as (S2 & W2 & K2).
  apply sorted_ext; auto. intros a b. rewrite K1, K2.
  destruct (N.lt_ge_cases b a) as [Hab|Hab]; [|rewrite !lookup_order; auto using range_combos_wf].
  assert (D : denotes (t_shape t) a b <-> denotes (t_shape t') a b).
  { cbn [t t_shape denotes]. split; intros (Q & [[E _]|[_ (x & y & z & k & B1 & B2 & B3 & B4)]]); try contradiction;
      (split; [exact Q|]); right; (split; [assumption|]); exists x, z, y, k; (split; [exact B2|]); (split; [exact B1|]); (split; [lia|exact B4]). }
  assert (G : forall w0, lookup a b (range_combos [t]) = Some w0 <-> lookup a b (range_combos [t']) = Some w0).
  { intros w0. rewrite !lookup_range by assumption.
    split; intros (Ha & before & u & after & E & HD & Hn & ->); (split; [exact Ha|]);
      (destruct before as [|v before]; cbn [app] in E; [|destruct before; discriminate E]); injection E as <- <-.
    - exists [], t', []. split; [reflexivity|]. split; [apply D; exact HD|]. split; [intros u []|reflexivity].
    - exists [], t, []. split; [reflexivity|]. split; [apply D; exact HD|]. split; [intros u []|reflexivity]. }
  destruct (lookup a b (range_combos [t])) as [w1|] eqn:E1.
  - symmetry. now apply G.
  - destruct (lookup a b (range_combos [t'])) as [w2|] eqn:E2; [|reflexivity]. destruct (G w2) as [_ G2]. discriminate (G2 eq_refl).
Qed.

Lemma StronglySorted_impl {A} (P Q : A -> A -> Prop) l : (forall x y, P x y -> Q x y) -> StronglySorted P l -> StronglySorted Q l.
Proof. intros H. induction 1 as [|x l HS IH HF]; constructor; [exact IH|]. eapply Forall_impl; [|exact HF]. auto. Qed.

(* ------------------------------------------------------------------------- *)
(** * Removing conflicting combos *)

Lemma testbit_lor_bits a b m : N.land (N.lor (2 ^ a) (2 ^ b)) m = 0 <-> N.testbit m a = false /\ N.testbit m b = false.
Proof.
  rewrite N.land_comm, N.land_lor_distr_r. rewrite N.lor_eq_0_iff.
  assert (G : forall x, N.land m (2 ^ x) = 0 <-> N.testbit m x = false).
  { intros x. split; intros H.
    - assert (E : N.testbit (N.land m (2 ^ x)) x = false) by (rewrite H; apply N.bits_0).
      rewrite N.land_spec, N.pow2_bits_true, andb_true_r in E. exact E.
    - apply N.bits_inj. intros k. rewrite N.land_spec, N.bits_0. destruct (N.eq_dec k x) as [->|Hk]; [now rewrite H|].
      rewrite N.pow2_bits_false by congruence. apply andb_false_r. }
  now rewrite !G.
Qed.

Lemma remove_conflicting_filter p hands board dead : Forall (fun c => c_1 c < 64 /\ c_2 c < 64) hands ->
  remove_conflicting_combos p hands board dead =
  Ret (filter (fun c => avoids board (c_1 c) (c_2 c) && avoids dead (c_1 c) (c_2 c)) hands).
Proof.
  intros H. unfold remove_conflicting_combos.
  assert (G : forall kept, foldM (fun kept x =>
           a <- shl_ 64 p 1 (c_1 x) ;;
           b <- shl_ 64 p 1 (c_2 x) ;;
           Ret (if N.land (N.lor a b) (N.lor board dead) =? 0 then kept ++ [x] else kept)) hands kept =
     Ret (kept ++ filter (fun c => avoids board (c_1 c) (c_2 c) && avoids dead (c_1 c) (c_2 c)) hands)).
  { induction H as [|x hands [H1 H2] H IH]; intros kept; [cbn; now rewrite app_nil_r|]. cbn [foldM].
    rewrite !shl1_ok by lia. cbn [bind filter].
    assert (E : (N.land (N.lor (2 ^ c_1 x) (2 ^ c_2 x)) (N.lor board dead) =? 0) =
      avoids board (c_1 x) (c_2 x) && avoids dead (c_1 x) (c_2 x)).
    { pose proof (testbit_lor_bits (c_1 x) (c_2 x) (N.lor board dead)) as T. rewrite !N.lor_spec in T. unfold avoids.
      destruct (N.testbit board (c_1 x)), (N.testbit board (c_2 x)), (N.testbit dead (c_1 x)), (N.testbit dead (c_2 x));
        cbn [orb negb andb] in *; first [apply N.eqb_neq; intros E; apply T in E; intuition discriminate | apply N.eqb_eq, T; auto]. }
    rewrite E. destruct (avoids board (c_1 x) (c_2 x) && avoids dead (c_1 x) (c_2 x)); rewrite IH; [now rewrite <- app_assoc|reflexivity]. }
  apply G.
Qed.

(* ------------------------------------------------------------------------- *)
(** * A weight above 100 ends the parse with weight 100 *)

Definition with_commas (ts : list term) : list char := flat_map (fun t => term_text t ++ chars ",") ts.

Lemma low_with_commas ts : Forall well_formed ts -> low (with_commas ts) = flat_map (fun t => low_term t ++ [44]) ts.
Proof.
  induction 1 as [|t ts Ht _ IH]; [reflexivity|]. unfold with_commas in *. cbn [flat_map]. unfold low in *. rewrite !map_app.
  fold (low (term_text t)). rewrite low_term_ok by exact Ht. now rewrite IH.
Qed.
Lemma with_commas_ascii ts : Forall well_formed ts -> ascii_text (with_commas ts).
Proof.
  induction 1 as [|t ts Ht _ IH]; [constructor|]. unfold with_commas in *. cbn [flat_map].
  apply Forall_app. split; [|exact IH]. apply Forall_app. split; [now apply term_text_ascii|repeat constructor].
Qed.

Lemma big_weight lower p ts s ds text tail : lowers_ascii lower -> Forall well_formed ts -> well_formed_shape s ->
  Forall (fun d => d < 10) ds -> 100 < decimal ds -> decimal ds < 2 ^ 32 -> ascii_text tail ->
  (forall c rest, tail = c :: rest -> ~ is_digit c) ->
  reads_as text (with_commas ts ++ shape_text s ++ chars "@" ++ map digit_char ds) ->
  from_string lower p (text ++ tail) = Ret (remove_duplicates (range_combos (ts ++ [{| t_shape := s; t_weight := None |}]))).
Proof.
  intros HL Hw HS Hd Hbig Hn HT Htail Hr.
  assert (HC : ascii_text (with_commas ts ++ shape_text s ++ chars "@" ++ map digit_char ds)).
  { apply Forall_app. split; [now apply with_commas_ascii|]. apply Forall_app. split.
    - pose proof (term_text_ascii {| t_shape := s; t_weight := None |} (conj HS I)) as H. unfold term_text in H. cbn [t_shape t_weight weight_text] in H.
      now rewrite app_nil_r in H.
    - apply Forall_app. split; [repeat constructor|]. apply Forall_forall. intros c Hc. apply in_map_iff in Hc as (d & <- & Hin).
      rewrite Forall_forall in Hd. specialize (Hd d Hin). unfold digit_char. lia. }
  pose proof (reads_ascii _ _ Hr HC) as HA. pose proof (reads_low _ _ Hr) as El.
  assert (Ed : low (map digit_char ds) = map digit_char ds).
  { clear -Hd. induction Hd as [|d ds Hd _ IH]; [reflexivity|]. cbn [map low]. unfold low in *. cbn [map]. rewrite IH. f_equal.
    unfold ascii_lower, digit_char. replace (65 <=? 48 + d) with false by (symmetry; apply N.leb_gt; lia). reflexivity. }
  assert (El2 : low text = flat_map (fun t => low_term t ++ [44]) ts ++ low_shape s ++ chars "@" ++ map digit_char ds).
  { rewrite El. unfold low at 1. rewrite !map_app. fold (low (with_commas ts)) (low (shape_text s)) (low (map digit_char ds)).
    rewrite low_with_commas by exact Hw. rewrite low_shape_ok by exact HS. rewrite Ed. reflexivity. }
  unfold from_string. rewrite not_random_eqb.
  2:{ intros E. apply (f_equal low) in E. unfold low in E at 1. rewrite map_app in E. fold (low text) in E. rewrite El2 in E.
      destruct ts as [|t ts].
      - cbn [flat_map app] in E. destruct (low_shape_head s HS) as (r & k & Ek & Hr'). rewrite Ek in E. cbn [app] in E.
        apply (lr_not_r r Hr'). now injection E.
      - inversion Hw as [|? ? Ht _]. subst. cbn [flat_map] in E. unfold low_term in E.
        destruct (low_shape_head _ (proj1 Ht)) as (r & k & Ek & Hr'). rewrite Ek in E. cbn [app] in E. apply (lr_not_r r Hr'). now injection E. }
  assert (HA' : ascii_text (text ++ tail)) by (apply Forall_app; auto).
  rewrite (HL _ HA'), map_app. fold (low text). rewrite El2. unfold parse_lowered. cbv zeta. change (char_of_ascii " "%char) with 32.
  assert (G : exists c rest, map ascii_lower tail ++ [32] = c :: rest /\ to_digit c = None).
  { destruct tail as [|c tail]; cbn [map app].
    - do 2 eexists. split; reflexivity.
    - do 2 eexists. split; [reflexivity|]. destruct (to_digit (ascii_lower c)) as [d|] eqn:E; [|reflexivity].
      exfalso. apply to_digit_some in E as [E _]. apply (proj1 (lower_digit c)) in E. exact (Htail c tail eq_refl E). }
  destruct G as (c & rest & EG & Hc).
  rewrite (parse_loop_big p _ s ds c rest HS Hd Hc Hbig Hn ts _ [] 0 Hw).
  - cbn [bind app]. unfold range_combos. rewrite flat_map_app. cbn [flat_map]. rewrite app_nil_r. reflexivity.
  - cbn [skipn]. rewrite <- EG, <- !app_assoc. reflexivity.
  - rewrite !app_length. cbn [length].
    assert (L : (length ts <= length (flat_map (fun t => low_term t ++ [44%N]) ts))%nat).
    { clear. induction ts as [|t ts IH]; [cbn; lia|]. cbn [flat_map length]. rewrite !app_length. cbn [length]. lia. }
    lia.
Qed.
