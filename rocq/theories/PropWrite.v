(* C130 - C132: writing ranges out and reading them back; texts with the same meaning. *)
From Verif Require Import Base BaseProofs Hand Range SpecPoker SpecNames SpecText SpecRange SpecWrite ParserProofs WriteProofs.
From Coq Require Import Sorted Permutation.
Local Open Scope N_scope.

(* C130: hands written out are read back *)
Theorem C130_read_back : forall lower p hands, lowers_ascii lower -> Forall written_hand hands -> NoDup (map fst hands) ->
  exists hands', from_string lower p (written hands) = Ret hands' /\ Permutation hands hands' /\
    (StronglySorted (fun x y => hand_before (fst x) (fst y)) hands -> hands' = hands).
Proof. exact read_back. Qed.
Theorem C130_parsed : forall lower p p' text hands, lowers_ascii lower -> from_string lower p text = Ret hands ->
  exists hands', from_string lower p' (written hands) = Ret hands' /\ Permutation hands hands' /\ (text <> chars "random" -> hands' = hands).
Proof. exact parse_write_parse. Qed.
Theorem C130_display : forall a b w, is_card a -> is_card b -> exists name, combo_display (a, b, w) = Ret name /\ hand_text (a, b, w) = name ++ chars "@" ++ map digit_char (digits w).
Proof. exact display_text. Qed.
Example C130_example : from_string_ascii Debug (chars "AA@7,AsKd,tt@100 oops") = Ret
    [(33, 32, 100); (34, 32, 100); (34, 33, 100); (35, 32, 100); (35, 33, 100); (35, 34, 100); (48, 47, 100);
     (49, 48, 7); (50, 48, 7); (50, 49, 7); (51, 48, 7); (51, 49, 7); (51, 50, 7)] /\
  written [(33, 32, 100); (48, 47, 35); (49, 48, 7)] = chars "ThTs@100,AsKd@35,AhAs@7" /\
  from_string_ascii Debug (chars "ThTs@100,AsKd@35,AhAs@7") = Ret [(33, 32, 100); (48, 47, 35); (49, 48, 7)].
Proof. split; [|split]; vm_compute; reflexivity. Qed.

(* C131: two texts give the same range exactly when their terms give every hand the same weight *)
Theorem C131_same_meaning : forall lower p ts ts' text text', lowers_ascii lower -> Forall well_formed ts -> Forall well_formed ts' ->
  reads_as text (range_text ts) -> reads_as text' (range_text ts') -> (from_string lower p text = from_string lower p text' <-> same_meaning ts ts').
Proof. intros lower p ts ts' text text' HL Hw Hw' Hr Hr'. split; [apply same_read_meaning|apply same_meaning_read]; assumption. Qed.
(* so the order of the terms does not matter unless they disagree, and terms that add no hand can be left out *)
Theorem C131_order : forall lower p ts ts' text text', lowers_ascii lower -> Forall well_formed ts -> Permutation ts ts' -> (forall t u, In t ts -> In u ts -> agree t u) ->
  reads_as text (range_text ts) -> reads_as text' (range_text ts') -> from_string lower p text = from_string lower p text'.
Proof.
  intros lower p ts ts' text text' HL Hw HP HA Hr Hr'. apply (same_meaning_read lower p ts ts'); auto; [eapply Permutation_Forall; eassumption|]. now apply permuted_terms.
Qed.
Theorem C131_redundant : forall lower p ts t us text text', lowers_ascii lower -> Forall well_formed (ts ++ t :: us) ->
  (forall a b, b < a -> is_card a -> denotes (t_shape t) a b -> exists u, In u ts /\ denotes (t_shape u) a b) ->
  reads_as text (range_text (ts ++ t :: us)) -> reads_as text' (range_text (ts ++ us)) -> from_string lower p text = from_string lower p text'.
Proof.
  intros lower p ts t us text text' HL Hw HD Hr Hr'. pose proof Hw as Hw'. apply Forall_app in Hw' as [H1 H2]. inversion H2 as [|? ? _ H3]; subst.
  apply (same_meaning_read lower p (ts ++ t :: us) (ts ++ us)); auto; [apply Forall_app; auto|]. now apply redundant_term.
Qed.
Example C131_example : from_string_ascii Debug (chars "QQ@5,AKs,T9o") = from_string_ascii Debug (chars "T9o,QQ@5,AKs") /\
  from_string_ascii Debug (chars "QQ+@5,KK,AKs") = from_string_ascii Debug (chars "QQ+@5,AKs") /\
  from_string_ascii Debug (chars "QQ+@5,KK") <> from_string_ascii Debug (chars "KK,QQ+@5").
Proof. split; [|split]; [vm_compute; reflexivity|vm_compute; reflexivity|vm_compute; discriminate]. Qed.

(* C132: a term means the same as the terms it abbreviates, with its weight, wherever it stands *)
Theorem C132_abbreviations : forall lower p before s w ss after text text', lowers_ascii lower -> Forall well_formed (before ++ {| t_shape := s; t_weight := w |} :: after) ->
  abbreviates s ss -> reads_as text (range_text (before ++ {| t_shape := s; t_weight := w |} :: after)) ->
  reads_as text' (range_text (before ++ weighted w ss ++ after)) -> from_string lower p text = from_string lower p text'.
Proof.
  intros lower p before s w ss after text text' HL Hw HA Hr Hr'. pose proof Hw as Hw'. apply Forall_app in Hw' as [H1 H2]. inversion H2 as [|? ? [Hs Hwt] H3]; subst. cbn [t_shape t_weight] in Hs, Hwt.
  destruct (abbreviated s ss HA Hs) as [Hss HD].
  apply (same_meaning_read lower p (before ++ {| t_shape := s; t_weight := w |} :: after) (before ++ weighted w ss ++ after)); auto.
  - apply Forall_app. split; [exact H1|]. apply Forall_app. split; [|exact H3]. apply Forall_map. eapply Forall_impl; [|exact Hss]. intros u Hu. split; assumption.
  - apply same_before. apply replaced_term; assumption.
Qed.
Example C132_example : abbreviates (Dash 12 7 12 5 SuitedOnly true) [Plain 12 7 SuitedOnly; Plain 12 6 SuitedOnly; Plain 12 5 SuitedOnly] /\
  from_string_ascii Debug (chars "A9s-A7s@5,QQ+,KTo+") = from_string_ascii Debug (chars "A9s@5,A8s@5,A7s@5,AA,KK,QQ,KQo,KJo,KTo") /\
  from_string_ascii Debug (chars "AK") = from_string_ascii Debug (chars "KAs,AKo") /\
  (hands <- from_string_ascii Debug (chars "A9s-A7s@5,QQ+,KTo+") ;; Ret (length hands)) = Ret 66%nat.
Proof. split; [apply (kickers_between 12 7 5); unfold one_side; lia|]. split; [|split]; vm_compute; reflexivity. Qed.

Print Assumptions C130_read_back.
Print Assumptions C130_parsed.
Print Assumptions C130_display.
Print Assumptions C131_same_meaning.
Print Assumptions C131_order.
Print Assumptions C131_redundant.
Print Assumptions C132_abbreviations.
