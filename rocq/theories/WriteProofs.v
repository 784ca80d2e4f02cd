(* Proofs about ranges written out and about term lists with the same meaning (C130 - C132). *)
From Verif Require Import Base BaseProofs Hand Range SpecPoker SpecNames SpecText SpecRange SpecWrite
  IndexProofs TextProofs RangeProofs ParserProofs NotationProofs RangeTextProofs.
From Coq Require Import Sorted Permutation.
Local Open Scope N_scope.

(* ------------------------------------------------------------------------- *)
(** * Sorted ranges are determined by their hands *)

Lemma clt_irrefl x : ~ clt x x.
Proof. unfold clt. intros H. assert (E : combo_cmp x x = Eq) by (apply combo_cmp_same; split; reflexivity). congruence. Qed.
Lemma clt_asym x y : clt x y -> ~ clt y x.
Proof. unfold clt. intros H H'. destruct (order_total x y x) as (_ & E & _). rewrite H in E. cbn in E. congruence. Qed.
Lemma sorted_unique l l' : StronglySorted clt l -> StronglySorted clt l' -> (forall x, In x l <-> In x l') -> l = l'.
Proof.
  intros H. revert l'. induction H as [|x l HS IH Hx]; intros l' H' E.
  - destruct l' as [|y l']; [reflexivity|]. destruct (proj2 (E y) (or_introl eq_refl)).
  - destruct H' as [|y l' HS' Hy]; [destruct (proj1 (E x) (or_introl eq_refl))|].
    rewrite Forall_forall in Hx, Hy. assert (x = y).
    { destruct (proj1 (E x) (or_introl eq_refl)) as [->|Hin]; [reflexivity|]. destruct (proj2 (E y) (or_introl eq_refl)) as [->|Hin']; [reflexivity|].
      exfalso. apply (clt_asym x y); auto. }
    subst y. f_equal. apply IH; [exact HS'|]. intros z. split; intros Hz.
    + destruct (proj1 (E z) (or_intror Hz)) as [<-|H]; [|exact H]. exfalso. apply (clt_irrefl x). auto.
    + destruct (proj2 (E z) (or_intror Hz)) as [<-|H]; [|exact H]. exfalso. apply (clt_irrefl x). auto.
Qed.

(* ------------------------------------------------------------------------- *)
(** * The meaning of term lists *)

Lemma gives_first ts a b w : gives ts a b w <->
  exists before t after, ts = before ++ t :: after /\ denotes (t_shape t) a b /\ (forall u, In u before -> ~ denotes (t_shape u) a b) /\ w = weight_of t.
Proof.
  induction ts as [|t ts IH]; cbn [gives].
  - split; [intros []|]. intros (l & t & r & E & _). destruct l; discriminate E.
  - split.
    + intros [[D W]|[D H]]; [exists [], t, ts; repeat split; auto; intros u []|].
      apply IH in H as (l & u & r & -> & D' & Hl & W). exists (t :: l), u, r. repeat split; auto. intros v [<-|Hv]; auto.
    + intros (l & u & r & E & D & Hl & W). destruct l as [|v l]; cbn [app] in E; injection E as -> ->; [left; auto|]. right. split; [apply Hl; left; reflexivity|].
      apply IH. exists l, u, r. repeat split; auto. intros v' Hv. apply Hl. right. exact Hv.
Qed.

Lemma reads_self text : reads_as text text.
Proof. unfold reads_as. induction text as [|c text IH]; constructor; [left; reflexivity|exact IH]. Qed.

Lemma terms_read lower p ts text : lowers_ascii lower -> Forall well_formed ts -> reads_as text (range_text ts) ->
  exists hands, from_string lower p text = Ret hands /\ StronglySorted clt hands /\
    forall a b w, In (a, b, w) hands <-> b < a /\ is_card a /\ gives ts a b w.
Proof.
  intros HL Hw Hr. pose proof (from_string_reads lower p ts text HL Hw Hr) as E. eexists. split; [exact E|]. split.
  - exact (proj1 (remove_duplicates_spec _ (range_combos_wf ts Hw))).
  - destruct (first_weight lower p ts text HL Hw Hr) as (hands & E' & H). rewrite E in E'. injection E' as <-. intros a b w. rewrite gives_first. apply H.
Qed.

Lemma same_meaning_read lower p ts ts' text text' : lowers_ascii lower -> Forall well_formed ts -> Forall well_formed ts' ->
  reads_as text (range_text ts) -> reads_as text' (range_text ts') -> same_meaning ts ts' -> from_string lower p text = from_string lower p text'.
Proof.
  intros HL Hw Hw' Hr Hr' HM. destruct (terms_read lower p ts text HL Hw Hr) as (h & -> & S & H). destruct (terms_read lower p ts' text' HL Hw' Hr') as (h' & -> & S' & H').
  f_equal. apply sorted_unique; [exact S|exact S'|]. intros [[a b] w]. rewrite H, H'. specialize (HM a b w). tauto.
Qed.
Lemma same_read_meaning lower p ts ts' text text' : lowers_ascii lower -> Forall well_formed ts -> Forall well_formed ts' ->
  reads_as text (range_text ts) -> reads_as text' (range_text ts') -> from_string lower p text = from_string lower p text' -> same_meaning ts ts'.
Proof.
  intros HL Hw Hw' Hr Hr' E. destruct (terms_read lower p ts text HL Hw Hr) as (h & Eh & S & H). destruct (terms_read lower p ts' text' HL Hw' Hr') as (h' & Eh' & S' & H').
  rewrite Eh, Eh' in E. injection E as <-. intros a b w Hb Ha. specialize (H a b w). specialize (H' a b w). tauto.
Qed.

Lemma same_refl ts : same_meaning ts ts. Proof. intros a b w _ _. tauto. Qed.
Lemma same_trans ts us vs : same_meaning ts us -> same_meaning us vs -> same_meaning ts vs.
Proof. intros H H' a b w Hb Ha. rewrite (H a b w Hb Ha). apply H'; assumption. Qed.
Lemma same_cons t ts ts' : same_meaning ts ts' -> same_meaning (t :: ts) (t :: ts').
Proof. intros H a b w Hb Ha. cbn [gives]. rewrite (H a b w Hb Ha). tauto. Qed.
Lemma same_before ts us us' : same_meaning us us' -> same_meaning (ts ++ us) (ts ++ us').
Proof. intros H. induction ts as [|t ts IH]; [exact H|]. cbn [app]. apply same_cons, IH. Qed.

(* [denotes] can be decided by the hands a term is parsed to *)
Lemma denotes_dec t a b : well_formed t -> b < a -> is_card a -> denotes (t_shape t) a b \/ ~ denotes (t_shape t) a b.
Proof.
  intros Hw Hb Ha. destruct (lookup a b (range_combos [t])) as [w|] eqn:E.
  - apply lookup_range in E; [|exact Hb|constructor; [exact Hw|constructor]]. destruct E as (_ & l & u & r & E & D & _).
    destruct l as [|? [|]]; [injection E as <- _; left; exact D|discriminate E|discriminate E].
  - right. intros D. assert (X : lookup a b (range_combos [t]) = Some (weight_of t)).
    { apply lookup_range; [exact Hb|constructor; [exact Hw|constructor]|]. split; [exact Ha|]. exists [], t, []. auto. }
    congruence.
Qed.

(* a hand is given a weight when some term denotes it and all such terms have that weight *)
Lemma gives_app ts us a b w : gives (ts ++ us) a b w <-> gives ts a b w \/ (forall t, In t ts -> ~ denotes (t_shape t) a b) /\ gives us a b w.
Proof.
  induction ts as [|t ts IH]; cbn [app gives In].
  - split; [intros H; right; split; [intros t []|exact H]|tauto].
  - rewrite IH. split.
    + intros [H|(D & [H|(N & H)])]; [left; left; exact H|left; right; auto|right; split; [|exact H]]. intros u [<-|Hu]; auto.
    + intros [[H|(D & H)]|(N & H)]; [left; exact H|right; split; [exact D|left; exact H]|right]. split; [apply N; left; reflexivity|right]. split; [intros u Hu; apply N; right; exact Hu|exact H].
Qed.

(* terms that agree may be exchanged *)
Lemma swap_terms t u ts : well_formed t -> well_formed u -> agree t u -> same_meaning (t :: u :: ts) (u :: t :: ts).
Proof.
  intros Ht Hu HA a b w Hb Ha. cbn [gives]. destruct (denotes_dec t a b Ht Hb Ha) as [Dt|Dt]; destruct (denotes_dec u a b Hu Hb Ha) as [Du|Du]; try tauto.
  destruct HA as [E|HN]; [rewrite E; tauto|]. exfalso. exact (HN a b Hb Ha (conj Dt Du)).
Qed.
Lemma agree_sym t u : agree t u -> agree u t.
Proof. intros [E|H]; [left; auto|right]. intros a b Hb Ha [D D']. exact (H a b Hb Ha (conj D' D)). Qed.
Lemma permuted_terms ts ts' : Permutation ts ts' -> Forall well_formed ts -> (forall t u, In t ts -> In u ts -> agree t u) -> same_meaning ts ts'.
Proof.
  induction 1 as [|t ts ts' HP IH|t u ts|ts us vs HP IH HP' IH']; intros Hw HA.
  - apply same_refl.
  - inversion Hw as [|? ? Ht Hts]; subst. apply same_cons, IH; [exact Hts|]. intros v x Hv Hx. apply HA; right; assumption.
  - inversion Hw as [|? ? Hu Hw']; subst. inversion Hw' as [|? ? Ht _]; subst. apply swap_terms; auto. apply HA; [left|right; left]; reflexivity.
  - apply same_trans with us; [apply IH; assumption|]. apply IH'; [eapply Permutation_Forall; eassumption|].
    intros t u Ht Hu. apply HA; (eapply Permutation_in; [apply Permutation_sym; exact HP|assumption]).
Qed.

(* a term all of whose hands were denoted before may be left out *)
Lemma redundant_term ts t us : Forall well_formed ts -> (forall a b, b < a -> is_card a -> denotes (t_shape t) a b -> exists u, In u ts /\ denotes (t_shape u) a b) ->
  same_meaning (ts ++ t :: us) (ts ++ us).
Proof.
  intros Hw H a b w Hb Ha. rewrite !gives_app. cbn [gives]. split.
  - intros [G|(N & [[D _]|[_ G]])]; [left; exact G| |right; auto]. destruct (H a b Hb Ha D) as (u & Hu & Du). destruct (N u Hu Du).
  - intros [G|(N & G)]; [left; exact G|right]. split; [exact N|]. right. split; [|exact G]. intros D. destruct (H a b Hb Ha D) as (u & Hu & Du). exact (N u Hu Du).
Qed.

(* a term may be replaced by terms with its weight which together denote its hands *)
Lemma weighted_gives w ss a b x : gives (weighted w ss) a b x -> (exists s, In s ss /\ denotes s a b) /\ x = weight_of {| t_shape := Exact 0 0; t_weight := w |}.
Proof.
  induction ss as [|s ss IH]; cbn [weighted map gives]; [intros []|]. intros [[D ->]|[D G]].
  - split; [exists s; split; [left; reflexivity|exact D]|reflexivity].
  - destruct (IH G) as [(s' & Hs & D') E]. split; [exists s'; split; [right; exact Hs|exact D']|exact E].
Qed.
Lemma gives_weighted w ss a b : (forall s, In s ss -> denotes s a b \/ ~ denotes s a b) -> (exists s, In s ss /\ denotes s a b) ->
  gives (weighted w ss) a b (weight_of {| t_shape := Exact 0 0; t_weight := w |}).
Proof.
  induction ss as [|s ss IH]; intros HD (s' & Hs & D); [destruct Hs|]. cbn [weighted map gives]. destruct (HD s (or_introl eq_refl)) as [Ds|Ds].
  - left. split; [exact Ds|reflexivity].
  - right. split; [exact Ds|]. apply IH; [intros u Hu; apply HD; right; exact Hu|]. destruct Hs as [<-|Hs]; [contradiction|eauto].
Qed.
Lemma replaced_term s w ss us : well_formed_shape s -> well_formed_weight w -> Forall well_formed_shape ss ->
  (forall a b, b < a -> is_card a -> (denotes s a b <-> exists u, In u ss /\ denotes u a b)) ->
  same_meaning ({| t_shape := s; t_weight := w |} :: us) (weighted w ss ++ us).
Proof.
  intros Hs Hw Hss H a b x Hb Ha. specialize (H a b Hb Ha). rewrite gives_app. cbn [gives t_shape].
  assert (HD : forall u, In u ss -> denotes u a b \/ ~ denotes u a b).
  { intros u Hu. rewrite Forall_forall in Hss. apply (denotes_dec {| t_shape := u; t_weight := w |}); auto. split; [apply Hss; exact Hu|exact Hw]. }
  assert (HN : (forall t, In t (weighted w ss) -> ~ denotes (t_shape t) a b) <-> ~ denotes s a b).
  { split; intros N.
    - intros D. apply H in D as (u & Hu & D). apply (N {| t_shape := u; t_weight := w |}); [|exact D]. unfold weighted. apply in_map_iff. eauto.
    - intros t Ht D. apply in_map_iff in Ht as (u & <- & Hu). apply N, H. eauto. }
  rewrite HN. split.
  - intros [[D ->]|G]; [left|right; exact G]. apply (gives_weighted w ss a b HD). apply H. exact D.
  - intros [G|G]; [left|right; exact G]. apply weighted_gives in G as [D ->]. split; [apply H; exact D|reflexivity].
Qed.

Lemma all_ranks_In r : In r all_ranks <-> is_rank r.
Proof.
  unfold is_rank. split.
  - intros H. assert (HF : Forall (fun r => r < 13) all_ranks) by (vm_compute; repeat constructor). rewrite Forall_forall in HF. auto.
  - intros H. assert (E : forallb (fun r => existsb (N.eqb r) all_ranks) (nseq 0 13) = true) by (vm_compute; reflexivity).
    assert (X : existsb (N.eqb r) all_ranks = true) by (apply (forallb_In _ _ E), nseq_In; lia). apply existsb_exists in X as (y & Hy & Ey). apply N.eqb_eq in Ey. now subst y.
Qed.
Lemma rank_card c : is_card c -> is_rank (rank_of c).
Proof. unfold is_card, is_rank, rank_of. intros H. apply N.div_lt_upper_bound; lia. Qed.

Lemma abbreviated s ss : abbreviates s ss -> well_formed_shape s ->
  Forall well_formed_shape ss /\ forall a b, b < a -> is_card a -> (denotes s a b <-> exists u, In u ss /\ denotes u a b).
Proof.
  intros HA Hs. destruct HA as [r1 r2|r1 r2 q|r q|r1 r2 q Hlt|r s q again Hle|x y z q again H1]; cbn [well_formed_shape] in Hs.
  - split; [repeat constructor; tauto|]. intros a b Hb Ha. cbn [denotes suits_allowed]. split.
    + intros [R _]. destruct (N.eq_dec (suit_of a) (suit_of b)) as [E|E].
      * exists (Plain r1 r2 SuitedOnly). split; [left; reflexivity|]. split; assumption.
      * exists (Plain r1 r2 OffsuitOnly). split; [right; left; reflexivity|]. split; assumption.
    + intros (u & [<-|[<-|[]]] & R & _); split; auto.
  - split; [repeat constructor; tauto|]. intros a b Hb Ha. cbn [denotes]. unfold ranks_are, two_are. split.
    + intros [R Q]. exists (Plain r2 r1 q). split; [left; reflexivity|]. cbn [denotes]. unfold ranks_are, two_are. tauto.
    + intros (u & [<-|[]] & D). cbn [denotes] in D. unfold ranks_are, two_are in D. tauto.
  - split.
    + apply Forall_forall. intros u Hu. apply in_map_iff in Hu as (k & <- & Hk). apply filter_In in Hk as [Hk _]. apply all_ranks_In in Hk. cbn. auto.
    + intros a b Hb Ha. cbn [denotes]. split.
      * intros (Q & [(_ & k & Hk & R)|(N & _)]); [|now contradiction N]. exists (Plain k k q). split; [|cbn; auto]. apply in_map_iff. exists k. split; [reflexivity|].
        apply filter_In. split; [|apply N.leb_le; exact Hk]. apply all_ranks_In. destruct R as [[<- _]|[<- _]]; apply rank_card; exact Ha.
      * intros (u & Hu & D). apply in_map_iff in Hu as (k & <- & Hk). apply filter_In in Hk as [_ Hk]. apply N.leb_le in Hk. cbn [denotes] in D. split; [tauto|]. left. split; [reflexivity|]. exists k. tauto.
  - split.
    + apply Forall_forall. intros u Hu. apply in_map_iff in Hu as (k & <- & Hk). apply filter_In in Hk as [Hk _]. apply all_ranks_In in Hk. cbn. tauto.
    + intros a b Hb Ha. assert (Hcb : is_card b) by (unfold is_card in *; lia). cbn [denotes]. split.
      * intros (Q & [(E & _)|(_ & k & H1 & H2 & R)]); [lia|]. exists (Plain r1 k q). split; [|cbn; auto]. apply in_map_iff. exists k. split; [reflexivity|].
        apply filter_In. split; [|apply andb_true_intro; split; [apply N.leb_le|apply N.ltb_lt]; assumption]. apply all_ranks_In. destruct R as [[_ <-]|[<- _]]; apply rank_card; assumption.
      * intros (u & Hu & D). apply in_map_iff in Hu as (k & <- & Hk). apply filter_In in Hk as [_ Hk]. apply andb_prop in Hk as [K1 K2]. apply N.leb_le in K1. apply N.ltb_lt in K2.
        cbn [denotes] in D. split; [tauto|]. right. split; [lia|]. exists k. tauto.
  - split.
    + apply Forall_forall. intros u Hu. apply in_map_iff in Hu as (k & <- & Hk). apply filter_In in Hk as [Hk _]. apply all_ranks_In in Hk. cbn. auto.
    + intros a b Hb Ha. cbn [denotes]. split.
      * intros (Q & [(_ & k & K1 & K2 & R)|(N & _)]); [|now contradiction N]. exists (Plain k k q). split; [|cbn; auto]. apply in_map_iff. exists k. split; [reflexivity|].
        apply filter_In. split; [|apply andb_true_intro; split; apply N.leb_le; assumption]. apply all_ranks_In. destruct R as [[<- _]|[<- _]]; apply rank_card; exact Ha.
      * intros (u & Hu & D). apply in_map_iff in Hu as (k & <- & Hk). apply filter_In in Hk as [_ Hk]. apply andb_prop in Hk as [K1 K2]. apply N.leb_le in K1, K2.
        cbn [denotes] in D. split; [tauto|]. left. split; [reflexivity|]. exists k. tauto.
  - assert (Hx : is_rank x) by tauto. split.
    + apply Forall_forall. intros u Hu. apply in_map_iff in Hu as (k & <- & Hk). apply filter_In in Hk as [Hk _]. apply all_ranks_In in Hk. cbn. auto.
    + intros a b Hb Ha. assert (Hcb : is_card b) by (unfold is_card in *; lia). cbn [denotes]. unfold one_side in H1. split.
      * intros (Q & [(E & _)|(_ & x' & y' & z' & k & T1 & T2 & K & R)]); [lia|].
        assert (E : x' = x /\ y' = y /\ z' = z \/ x' = y /\ z = y /\ k = x) by (unfold two_are in T1, T2; lia).
        destruct E as [(-> & -> & ->)|(-> & -> & ->)].
        -- exists (Plain x k q). split; [|cbn; auto]. apply in_map_iff. exists k. split; [reflexivity|]. apply filter_In. split.
           ++ apply all_ranks_In. destruct R as [[_ <-]|[<- _]]; apply rank_card; assumption.
           ++ apply andb_true_intro. split; apply N.leb_le; lia.
        -- exists (Plain x y q). split.
           ++ apply in_map_iff. exists y. split; [reflexivity|]. apply filter_In. split; [apply all_ranks_In; tauto|]. apply andb_true_intro. split; apply N.leb_le; lia.
           ++ cbn [denotes]. unfold ranks_are, two_are in R |- *. split; [lia|exact Q].
      * intros (u & Hu & D). apply in_map_iff in Hu as (k & <- & Hk). apply filter_In in Hk as [_ Hk]. apply andb_prop in Hk as [K1 K2]. apply N.leb_le in K1, K2.
        cbn [denotes] in D. split; [tauto|]. right. split; [lia|]. exists x, y, z, k. split; [left; auto|]. split; [left; auto|]. split; [lia|tauto].
Qed.

(* ------------------------------------------------------------------------- *)
(** * Hands written out *)

Definition term_of (h : N * N * N) : term := {| t_shape := Exact (fst (fst h)) (snd (fst h)); t_weight := Some (digits (snd h)) |}.
Lemma written_terms hands : written hands = range_text (map term_of hands).
Proof.
  assert (E : forall h, hand_text h = term_text (term_of h)).
  { intros h. unfold hand_text, term_text, term_of. cbn [t_shape t_weight shape_text weight_text]. now rewrite <- app_assoc. }
  induction hands as [|h hands IH]; [reflexivity|]. destruct hands as [|h' hands]; [exact (E h)|].
  change (written (h :: h' :: hands)) with (hand_text h ++ chars "," ++ written (h' :: hands)). rewrite IH, E. reflexivity.
Qed.
Lemma digits_ok w : w <= 100 -> digits w <> [] /\ Forall (fun d => d < 10) (digits w) /\ decimal (digits w) = w.
Proof.
  intros H. assert (E : forallb (fun w => negb (match digits w with [] => true | _ => false end) && forallb (fun d => d <? 10) (digits w) && (decimal (digits w) =? w)) (nseq 0 101) = true)
    by (vm_compute; reflexivity).
  assert (X := forallb_In _ _ E w ltac:(apply nseq_In; lia)). cbv beta in X. apply andb_prop in X as [X X3]. apply andb_prop in X as [X1 X2].
  split; [intros N; rewrite N in X1; discriminate X1|]. split; [|apply N.eqb_eq; exact X3].
  apply Forall_forall. intros d Hd. rewrite forallb_forall in X2. apply N.ltb_lt, X2, Hd.
Qed.
Lemma term_of_ok h : written_hand h -> well_formed (term_of h).
Proof.
  intros (Ha & Hb & Hw). destruct (digits_ok (snd h) Hw) as (D1 & D2 & D3). split.
  - cbn. unfold hole, is_card in *. lia.
  - cbn. rewrite D3. auto.
Qed.

Lemma written_gives hands a b w : Forall written_hand hands -> NoDup (map fst hands) -> b < a -> (gives (map term_of hands) a b w <-> In (a, b, w) hands).
Proof.
  intros Hh. induction Hh as [|h hands Hh Hhs IH]; intros HN Hab; [cbn; tauto|]. cbn [map] in HN |- *. inversion HN as [|? ? Hnin HN']; subst. cbn [gives In].
  specialize (IH HN' Hab). destruct h as [[c d] v]. destruct Hh as (Hc & Hd & Hv). cbn [fst snd] in *. cbn [term_of t_shape denotes fst snd].
  assert (W : weight_of (term_of (c, d, v)) = v) by (unfold weight_of, term_of; cbn [t_weight snd]; now apply digits_ok). rewrite W.
  split.
  - intros [(T & ->)|(_ & G)]; [left|right; apply IH; exact G]. unfold two_are in T. assert (E : a = c /\ b = d) by lia. destruct E as [-> ->]. reflexivity.
  - intros [E|Hin]; [injection E as -> -> ->; left; split; [left; auto|reflexivity]|]. right. split; [|apply IH; exact Hin].
    intros T. unfold two_are in T. assert (E : a = c /\ b = d) by lia. destruct E as [-> ->]. apply Hnin. apply in_map_iff. exists (c, d, w). auto.
Qed.

Lemma read_back lower p hands : lowers_ascii lower -> Forall written_hand hands -> NoDup (map fst hands) ->
  exists hands', from_string lower p (written hands) = Ret hands' /\ Permutation hands hands' /\
    (StronglySorted (fun x y => hand_before (fst x) (fst y)) hands -> hands' = hands).
Proof.
  intros HL Hh HN. rewrite written_terms.
  assert (Hw : Forall well_formed (map term_of hands)) by (apply Forall_map; eapply Forall_impl; [|exact Hh]; exact term_of_ok).
  destruct (terms_read lower p _ _ HL Hw (reads_self _)) as (hands' & E & S & H).
  assert (HI : forall x, In x hands <-> In x hands').
  { intros [[a b] w]. rewrite H. split.
    - intros Hin. rewrite Forall_forall in Hh. destruct (Hh _ Hin) as (Ha & Hb & _). cbn [fst snd] in Ha, Hb. split; [exact Hb|]. split; [exact Ha|]. apply written_gives; auto. now apply Forall_forall.
    - intros (Hb & Ha & G). apply (written_gives hands a b w Hh HN Hb). exact G. }
  exists hands'. split; [exact E|]. split.
  - apply NoDup_Permutation; [exact (NoDup_map_inv _ _ HN)|exact (NoDup_map_inv _ _ (clt_NoDup _ S))|exact HI].
  - intros S'. apply sorted_unique; [exact S| |intros x; symmetry; apply HI].
    eapply StronglySorted_impl; [|exact S']. intros x y B. unfold clt. rewrite combo_cmp_lex. exact B.
Qed.
Lemma parse_write_parse lower p p' text hands : lowers_ascii lower -> from_string lower p text = Ret hands ->
  exists hands', from_string lower p' (written hands) = Ret hands' /\ Permutation hands hands' /\ (text <> chars "random" -> hands' = hands).
Proof.
  intros HL E. destruct (from_string_runs lower p text) as [(hs & E' & H1 & H2 & H3)|[_ E']]; [|congruence]. rewrite E in E'. injection E' as <-.
  destruct (read_back lower p' hands HL) as (hands' & Er & HP & HS).
  - eapply Forall_impl; [|exact H1]. intros [[a b] w] W. unfold wfc, c_1, c_2, c_w in W. cbn [fst snd] in W. unfold written_hand, is_card. cbn [fst snd]. lia.
  - exact H2.
  - exists hands'. split; [exact Er|]. split; [exact HP|]. intros N. apply HS. eapply StronglySorted_impl; [|exact (H3 N)].
    intros x y B. unfold clt in B. rewrite combo_cmp_lex in B. exact B.
Qed.
Lemma display_text a b w : is_card a -> is_card b -> exists name, combo_display (a, b, w) = Ret name /\ hand_text (a, b, w) = name ++ chars "@" ++ map digit_char (digits w).
Proof.
  intros Ha Hb. exists (hand_name a b). split; [exact (combo_display_spec (a, b, w) Ha Hb)|]. unfold hand_text, hand_name. cbn [fst snd]. now rewrite <- app_assoc.
Qed.
