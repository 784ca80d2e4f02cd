(* Property C80: how any ASCII text is parsed as a range. *)
From Verif Require Import Base BaseProofs Hand Range SpecPoker SpecNames SpecText SpecRange SpecGrammar
  TextProofs NotationProofs RangeTextProofs GrammarProofs.
Local Open Scope N_scope.

Theorem C80_any_text : forall lower p text ts, lowers_ascii lower -> ascii_text text -> text <> chars "random" -> ~ long_number text ->
  reading text ts ->
  exists hands, from_string lower p text = Ret hands /\
    forall a b w, In (a, b, w) hands <-> b < a /\ is_card a /\
      exists before t after, ts = before ++ t :: after /\ denotes (t_shape t) a b /\
        (forall u, In u before -> ~ denotes (t_shape u) a b) /\ w = weight_of t.
Proof. exact any_text. Qed.

(* every such text has a reading *)
Theorem C80_reading_exists : forall text, ~ long_number text -> exists ts, reading text ts.
Proof. exact reading_exists. Qed.

(* AA@150,KK: the weight is ignored, and the digits end the list *)
Example C80_example_weight : reading (chars "aA@150,KK") [ {| t_shape := Plain 12 12 AnySuits; t_weight := None |} ].
Proof.
  apply reading_last with (rest := map digit_char [1; 5; 0] ++ chars ",KK").
  - split; [cbn; unfold is_rank; lia|]. exists (chars "aA"), (chars "@150,KK"). split; [reflexivity|]. split; [|split].
    + repeat (constructor; [unfold same_char; vm_compute; intuition discriminate|]). constructor.
    + intros (c & rest & x & E & Hin & Hx). injection E as <- _. cbn in Hin.
      destruct Hin as [<-|[<-|[<-|[<-|[]]]]]; unfold same_char in Hx; vm_compute in Hx; intuition discriminate.
    + apply (weight_above_100 [1; 5; 0] (chars ",KK")); [repeat constructor|intros c r E; injection E as <- _; unfold is_digit; vm_compute; intuition discriminate|reflexivity].
  - intros (c & rest & x & E & [<-|[]] & Hx). injection E as <- _. unfold same_char in Hx. vm_compute in Hx. intuition discriminate.
Qed.
Example C80_example_weight_parsed : exists hs, from_string_ascii Debug (chars "aA@150,KK") = Ret ((49, 48, 100) :: hs) /\ length hs = 5%nat.
Proof. eexists. split; vm_compute; reflexivity. Qed.

(* A5s-A2o is no term: the dash must keep the suitedness *)
Example C80_example_none : reading (chars "A5s-A2o,KK") [].
Proof.
  apply reading_none. apply no_term with (i' := 0%nat); [vm_compute; reflexivity|].
  intros (i & H). pose proof (H 0%nat ltac:(lia)) as H0. pose proof (H 1%nat ltac:(lia)) as H1.
  assert (Hi : forall i, is_digit (nth (i + 0) (chars "A5s-A2o,KK") 0) -> is_digit (nth (i + 1) (chars "A5s-A2o,KK") 0) -> False).
  { clear. intros i. unfold is_digit. do 12 (destruct i as [|i]; [vm_compute; intuition congruence|]). cbn. destruct i; lia. }
  exact (Hi i H0 H1).
Qed.
Example C80_example_none_parsed : from_string_ascii Debug (chars "A5s-A2o,KK") = Ret [].
Proof. vm_compute. reflexivity. Qed.

Print Assumptions C80_any_text.
Print Assumptions C80_reading_exists.
