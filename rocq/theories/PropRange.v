(* Properties C21 - C31: parsing of ranges. *)
From Verif Require Import Base BaseProofs Hand Range SpecPoker SpecNames SpecText SpecRange
  IndexProofs TextProofs RangeProofs ParserProofs NotationProofs RangeTextProofs.
From Coq Require Import Sorted.
Local Open Scope N_scope.

(* ASCII lower-casing is a [lowers_ascii] function, used by the examples *)
Example ascii_lowering : lowers_ascii (map ascii_lower).
Proof. intros text _. reflexivity. Qed.

(* ------------------------------------------------------------------------- *)
(** * C21: parsing never panics *)

(* False in checked builds: a long enough weight overflows u32. *)
Theorem C21_refuted : from_string_ascii Debug (chars "AA@4294967296") = Fail Overflow.
Proof. vm_compute. reflexivity. Qed.

(* Unchecked builds return for every text, whatever lower-casing does to it. *)
Theorem C21_unchecked_total : forall lower text, exists hands, from_string lower Release text = Ret hands.
Proof. intros lower text. destruct (from_string_runs lower Release text) as [(hs & E & _)|[E _]]; [eauto|discriminate E]. Qed.

(* In checked builds that overflow is the only failure ... *)
Theorem C21_checked_overflow_only : forall lower text,
  (exists hands, from_string lower Debug text = Ret hands) \/ from_string lower Debug text = Fail Overflow.
Proof. intros lower text. destruct (from_string_runs lower Debug text) as [(hs & E & _)|[_ E]]; eauto. Qed.

(* ... and it needs ten digits in a row; without them both builds give the same range. *)
Theorem C21_short_numbers : forall lower text, lowers_ascii lower -> ascii_text text -> ~ long_number text ->
  exists hands, from_string lower Debug text = Ret hands /\ from_string lower Release text = Ret hands.
Proof. exact short_numbers_return. Qed.

Theorem C21_builds_agree : forall lower text hands,
  from_string lower Debug text = Ret hands -> from_string lower Release text = Ret hands.
Proof. exact builds_agree. Qed.

Example C21_example : exists hands, from_string_ascii Debug (chars "AKs-A2s@50, oops") = Ret hands /\ length hands = 48%nat.
Proof. eexists. split; vm_compute; reflexivity. Qed.

(* ------------------------------------------------------------------------- *)
(** * C22: parsed ranges are well formed *)

Theorem C22_well_formed : forall lower p text hands, from_string lower p text = Ret hands ->
  (forall a b w, In (a, b, w) hands -> is_card a /\ is_card b /\ b < a /\ w <= 100) /\
  NoDup (map fst hands) /\
  (text <> chars "random" -> StronglySorted (fun x y => hand_before (fst x) (fst y)) hands).
Proof.
  intros lower p text hands E. destruct (from_string_runs lower p text) as [(hs & E' & H1 & H2 & H3)|[_ E']]; [|congruence].
  rewrite E in E'. injection E' as <-. split; [|split; [exact H2|]].
  - intros a b w Hin. rewrite Forall_forall in H1. apply H1 in Hin. unfold wfc, c_1, c_2, c_w in Hin. cbn in Hin. unfold is_card. lia.
  - intros Ht. apply H3 in Ht. eapply StronglySorted_impl; [|exact Ht]. intros x y H. unfold clt in H. rewrite combo_cmp_lex in H. exact H.
Qed.

Example C22_example : from_string_ascii Debug (chars "72o,KsAh@10,AhKs") =
  Ret [(20, 1, 100); (20, 2, 100); (20, 3, 100); (21, 0, 100); (21, 2, 100); (21, 3, 100);
       (22, 0, 100); (22, 1, 100); (22, 3, 100); (23, 0, 100); (23, 1, 100); (23, 2, 100); (49, 44, 10)].
Proof. vm_compute. reflexivity. Qed.

(* ------------------------------------------------------------------------- *)
(** * C23, C24: what the notation means *)

Theorem C23_denotation : forall lower p ts text, lowers_ascii lower -> Forall well_formed ts -> reads_as text (range_text ts) ->
  exists hands, from_string lower p text = Ret hands /\
    forall a b, b < a -> is_card a -> ((exists w, In (a, b, w) hands) <-> exists t, In t ts /\ denotes (t_shape t) a b).
Proof. exact range_denotation. Qed.

Theorem C24_first_weight : forall lower p ts text, lowers_ascii lower -> Forall well_formed ts -> reads_as text (range_text ts) ->
  exists hands, from_string lower p text = Ret hands /\
    forall a b w, In (a, b, w) hands <-> b < a /\ is_card a /\
      exists before t after, ts = before ++ t :: after /\ denotes (t_shape t) a b /\
        (forall u, In u before -> ~ denotes (t_shape u) a b) /\ w = weight_of t.
Proof. exact first_weight. Qed.

Definition example_terms : list term :=
  [ {| t_shape := Dash 12 7 12 3 SuitedOnly true; t_weight := Some [5; 0] |};      (* A9s-A5s@50 *)
    {| t_shape := Plus 10 10 AnySuits; t_weight := None |};                        (* QQ+ *)
    {| t_shape := Exact 48 47; t_weight := Some [7] |} ].                          (* AsKd@7 *)
Example C23_example_text : range_text example_terms = chars "A9s-A5s@50,QQ+,AsKd@7".
Proof. reflexivity. Qed.
Example C23_example_well_formed : Forall well_formed example_terms.
Proof.
  constructor; [|constructor; [|constructor; [|constructor]]]; (split; [|]); cbn [t_shape t_weight well_formed_shape well_formed_weight];
    unfold is_rank, hole, is_card.
  - repeat (split; [lia|]). right. exists 12, 7, 3. unfold two_are, one_side. lia.
  - split; [discriminate|]. split; [repeat constructor|vm_compute; discriminate].
  - lia.
  - exact I.
  - lia.
  - split; [discriminate|]. split; [repeat constructor|vm_compute; discriminate].
Qed.
Example C23_example : exists hands, from_string_ascii Debug (chars "a9s-a5S@50,qQ+,AsKd@7") = Ret hands /\
  In (51, 31, 50) hands /\ In (48, 47, 7) hands /\ In (43, 42, 100) hands /\ length hands = 39%nat.
Proof. eexists. split; [vm_compute; reflexivity|]. vm_compute. repeat split; tauto. Qed.
Example C24_example : from_string_ascii Debug (chars "AsAd@7,AA@9,AsAd@3") =
  Ret [(49, 48, 9); (50, 48, 9); (50, 49, 9); (51, 48, 7); (51, 49, 9); (51, 50, 9)].
Proof. vm_compute. reflexivity. Qed.

(* ------------------------------------------------------------------------- *)
(** * C25: random *)

Theorem C25_random : forall lower p, exists hands, from_string lower p (chars "random") = Ret hands /\
  NoDup (map fst hands) /\ length hands = 1326%nat /\
  forall a b w, In (a, b, w) hands <-> b < a /\ is_card a /\ w = 100.
Proof.
  intros lower p. exists (add_all []). split; [reflexivity|]. split; [exact add_all_NoDup|]. split; [vm_compute; reflexivity|exact add_all_In].
Qed.
Example C25_example : exists hands, from_string_ascii Debug (chars "random") = Ret hands /\ In (51, 0, 100) hands.
Proof. exists (add_all []). split; [reflexivity|]. apply add_all_In. lia. Qed.

(* ------------------------------------------------------------------------- *)
(** * C26: case *)

(* False for one word: only the lower-case spelling of random is recognised. *)
Theorem C26_refuted : reads_as (chars "RANDOM") (chars "random") /\
  from_string_ascii Debug (chars "RANDOM") = Ret [] /\ from_string_ascii Debug (chars "random") <> Ret [].
Proof.
  split; [|split; [vm_compute; reflexivity|vm_compute; discriminate]].
  repeat (constructor; [unfold same_char; vm_compute; intuition discriminate|]). constructor.
Qed.

Theorem C26_other_texts : forall lower p t1 t2, lowers_ascii lower -> ascii_text t1 -> ascii_text t2 ->
  reads_as t1 t2 -> t1 <> chars "random" -> t2 <> chars "random" ->
  from_string lower p t1 = from_string lower p t2.
Proof. exact case_insensitive. Qed.
Example C26_example : from_string_ascii Debug (chars "AhKS,TJo") = from_string_ascii Debug (chars "aHks,tjO") /\
  exists c hs, from_string_ascii Debug (chars "aHks,tjO") = Ret (c :: hs).
Proof. split; [vm_compute; reflexivity|]. eexists _, _. vm_compute. reflexivity. Qed.

(* ------------------------------------------------------------------------- *)
(** * C27: malformed tails *)

Theorem C27_malformed_tail : forall lower p ts text tail, lowers_ascii lower -> Forall well_formed ts -> ts <> [] ->
  reads_as text (range_text ts) -> ascii_text tail ->
  (forall c rest r, tail = c :: rest -> r < 13 -> ~ same_char c (rank_char r)) ->
  from_string lower p (text ++ chars "," ++ tail) = from_string lower p text.
Proof. exact malformed_tail. Qed.
Example C27_example : from_string_ascii Debug (chars "AA, KK,garbage") = from_string_ascii Debug (chars "AA") /\
  exists hs, from_string_ascii Debug (chars "AA") = Ret ((49, 48, 100) :: hs).
Proof. split; [vm_compute; reflexivity|]. eexists. vm_compute. reflexivity. Qed.

(* ------------------------------------------------------------------------- *)
(** * C28: weights above 100 *)

(* False: numbers wrap at 2^32 in unchecked builds. *)
Theorem C28_refuted : exists hands, from_string_ascii Release (chars "AA@4294967297") = Ret hands /\ In (49, 48, 1) hands.
Proof. eexists. split; [vm_compute; reflexivity|left; reflexivity]. Qed.

(* Below 2^32 a weight above 100 is never used: the terms before keep their meaning, this
   term counts with weight 100, and everything after it is dropped. *)
Theorem C28_below_2_32 : forall lower p ts s ds text tail, lowers_ascii lower -> Forall well_formed ts -> well_formed_shape s ->
  Forall (fun d => d < 10) ds -> 100 < decimal ds -> decimal ds < 2 ^ 32 -> ascii_text tail ->
  (forall c rest, tail = c :: rest -> ~ is_digit c) ->
  reads_as text (flat_map (fun t => term_text t ++ chars ",") ts ++ shape_text s ++ chars "@" ++ map digit_char ds) ->
  from_string lower p (text ++ tail) =
  from_string lower p (range_text (ts ++ [{| t_shape := s; t_weight := None |}])).
Proof.
  intros lower p ts s ds text tail HL Hw HS Hd H1 H2 HT Ht Hr.
  rewrite (big_weight lower p ts s ds text tail HL Hw HS Hd H1 H2 HT Ht Hr). symmetry. apply from_string_reads; [exact HL| |].
  - apply Forall_app. split; [exact Hw|]. constructor; [split; [exact HS|exact I]|constructor].
  - generalize (range_text (ts ++ [{| t_shape := s; t_weight := None |}])). induction l as [|x l IH]; constructor; [left; reflexivity|exact IH].
Qed.
Example C28_example : from_string_ascii Debug (chars "AA@20,KK@101,QQ") = from_string_ascii Debug (chars "AA@20,KK") /\
  exists c hs, from_string_ascii Debug (chars "AA@20,KK") = Ret (c :: hs).
Proof. split; [vm_compute; reflexivity|]. eexists _, _. vm_compute. reflexivity. Qed.

(* ------------------------------------------------------------------------- *)
(** * C29: remove_conflicting_combos *)

Theorem C29_remove_conflicting : forall p hands board dead,
  Forall (fun c => is_card (c_1 c) /\ is_card (c_2 c)) hands ->
  remove_conflicting_combos p hands board dead =
  Ret (filter (fun c => avoids board (c_1 c) (c_2 c) && avoids dead (c_1 c) (c_2 c)) hands).
Proof.
  intros p hands board dead H. apply remove_conflicting_filter. eapply Forall_impl; [|exact H]. cbn. unfold is_card. intros. lia.
Qed.
Example C29_example : remove_conflicting_combos Debug [(51, 50, 3); (50, 49, 4); (49, 0, 5)] (2 ^ 51) (2 ^ 0) = Ret [(50, 49, 4)].
Proof. vm_compute. reflexivity. Qed.

(* ------------------------------------------------------------------------- *)
(** * C30: the order on combos *)

Theorem C30_order : forall x y z : combo, 
  combo_cmp x x = Eq /\ combo_cmp y x = CompOpp (combo_cmp x y) /\
  (combo_cmp x y <> Gt -> combo_cmp y z <> Gt -> combo_cmp x z <> Gt).
Proof. exact order_total. Qed.
Theorem C30_equality : forall a b w a' b' w', is_card a -> is_card b -> is_card a' -> is_card b' ->
  (combo_cmp (a, b, w) (a', b', w') = Eq <-> a = a' /\ b = b') /\
  (combo_eqb (a, b, w) (a', b', w') = true <-> a = a' /\ b = b').
Proof.
  intros a b w a' b' w' Ha Hb Ha' Hb'. split; [exact (combo_cmp_same (a, b, w) (a', b', w'))|].
  apply (combo_eqb_same (a, b, w) (a', b', w')); unfold is_card, c_2 in *; cbn; lia.
Qed.
Theorem C30_meaning : forall x y : combo, combo_cmp x y = Lt <-> hand_before (fst x) (fst y).
Proof. intros x y. rewrite combo_cmp_lex. reflexivity. Qed.
Example C30_example : combo_cmp (51, 0, 7) (48, 5, 9) = Lt /\ combo_cmp (51, 0, 7) (51, 0, 9) = Eq /\ combo_cmp (51, 0, 7) (47, 44, 9) = Gt.
Proof. vm_compute. repeat split. Qed.

(* ------------------------------------------------------------------------- *)
(** * C31: dashes in both directions *)

(* False for pairs: only the descending direction is understood. *)
Theorem C31_refuted : from_string_ascii Debug (chars "22-55") = Ret [] /\
  exists hands, from_string_ascii Debug (chars "55-22") = Ret hands /\ length hands = 24%nat.
Proof. split; [vm_compute; reflexivity|]. eexists. split; vm_compute; reflexivity. Qed.

Theorem C31_unpaired : forall lower p r1 r2 r3 r4 q again w text text', lowers_ascii lower -> r1 <> r2 ->
  well_formed {| t_shape := Dash r1 r2 r3 r4 q again; t_weight := w |} ->
  reads_as text (term_text {| t_shape := Dash r1 r2 r3 r4 q again; t_weight := w |}) ->
  reads_as text' (term_text {| t_shape := Dash r3 r4 r1 r2 q again; t_weight := w |}) ->
  from_string lower p text = from_string lower p text'.
Proof. intros lower p r1 r2 r3 r4 q again w text text' HL Hne Hw H1 H2. exact (dash_sym lower p r1 r2 r3 r4 q again w text text' HL Hne Hw H1 H2). Qed.
Example C31_example : from_string_ascii Debug (chars "A5s-9As@30") = from_string_ascii Debug (chars "9As-A5s@30") /\
  exists hands, from_string_ascii Debug (chars "A5s-9As@30") = Ret hands /\ length hands = 20%nat.
Proof. split; [vm_compute; reflexivity|]. eexists. split; vm_compute; reflexivity. Qed.

Print Assumptions C21_refuted.
Print Assumptions C21_unchecked_total.
Print Assumptions C21_checked_overflow_only.
Print Assumptions C21_short_numbers.
Print Assumptions C21_builds_agree.
Print Assumptions C22_well_formed.
Print Assumptions C23_denotation.
Print Assumptions C24_first_weight.
Print Assumptions C25_random.
Print Assumptions C26_refuted.
Print Assumptions C26_other_texts.
Print Assumptions C27_malformed_tail.
Print Assumptions C28_refuted.
Print Assumptions C28_below_2_32.
Print Assumptions C29_remove_conflicting.
Print Assumptions C30_order.
Print Assumptions C30_equality.
Print Assumptions C30_meaning.
Print Assumptions C31_refuted.
Print Assumptions C31_unpaired.
