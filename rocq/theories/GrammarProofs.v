(* Proofs that the parser reads every ASCII text as SpecGrammar says. *)
From Verif Require Import Base BaseProofs Hand Range SpecPoker SpecNames SpecText SpecRange SpecGrammar PokerFacts IndexProofs
  TextProofs RangeProofs ParserProofs NotationProofs RangeTextProofs.
From Coq Require Import Sorted.
Local Open Scope N_scope.

(* ------------------------------------------------------------------------- *)
(** * The lowered text with its final blank *)

Definition ends (l : list char) : Prop := exists k, l = k ++ [32].

Lemma ends_cons l : ends l -> exists c k, l = c :: k.
Proof. intros (k & ->). destruct k; cbn [app]; eauto. Qed.
Lemma ends_tail c l : ends (c :: l) -> c <> 32 -> ends l.
Proof. intros (k & E) Hc. destruct k as [|x k]; cbn [app] in E; injection E as -> ->; [contradiction|]. now exists k. Qed.
Lemma ends_app a l : ends (a ++ l) -> Forall (fun c => c <> 32) a -> ends l.
Proof. intros H Ha. revert H. induction Ha as [|c a Hc _ IH]; intros H; [exact H|]. apply IH. now apply (ends_tail c). Qed.

Lemma blank_not_rank r : r < 13 -> lr r <> 32.
Proof. intros H E. pose proof (char_to_rank_name r H) as E2. unfold lr in E. rewrite E in E2. vm_compute in E2. lia. Qed.
Lemma blank_not_suit s : s < 4 -> suit_char s <> 32.
Proof. intros H E. pose proof (proj1 (char_to_suit_name s H)) as E2. rewrite E in E2. vm_compute in E2. lia. Qed.
Lemma digits_not_blank ds : Forall (fun d => d < 10) ds -> Forall (fun c => c <> 32) (map digit_char ds).
Proof. induction 1 as [|d ds Hd _ IH]; [constructor|]. cbn [map]. constructor; [unfold digit_char; lia|exact IH]. Qed.

(* one character *)
Lemma parse_rank_split cs i l : skipn i cs = l -> ends l ->
  (exists r k, r < 13 /\ l = lr r :: k /\ parse_rank cs i = Ret (true, r, S i) /\ skipn (S i) cs = k /\ ends k) \/
  parse_rank cs i = Ret (false, U8MAX, i).
Proof.
  intros Hs He. destruct (ends_cons l He) as (c & k & ->). destruct (char_to_rank_cases c) as [(r & Hr & _ & ->)|(E & _)].
  - left. exists r, k. fold (lr r) in *. destruct (parse_rank_yes cs i r k Hs Hr) as [E1 E2]. repeat split; auto.
    apply (ends_tail _ _ He). now apply blank_not_rank.
  - right. apply skipn_get in Hs as [Hg _]. unfold parse_rank. rewrite Hg. cbn [bind]. cbv zeta. rewrite E, N.eqb_refl. reflexivity.
Qed.
Lemma parse_suit_split cs i l : skipn i cs = l -> ends l ->
  (exists s k, s < 4 /\ l = suit_char s :: k /\ parse_suit cs i = Ret (true, s, S i) /\ skipn (S i) cs = k /\ ends k) \/
  parse_suit cs i = Ret (false, U8MAX, i).
Proof.
  intros Hs He. destruct (ends_cons l He) as (c & k & ->). destruct (char_to_suit_cases c) as [(r & Hr & _ & ->)|(E & _)].
  - left. exists r, k. destruct (parse_suit_yes cs i r k Hs Hr) as [E1 E2]. repeat split; auto.
    apply (ends_tail _ _ He). now apply blank_not_suit.
  - right. apply skipn_get in Hs as [Hg _]. unfold parse_suit. rewrite Hg. cbn [bind]. cbv zeta. rewrite E, N.eqb_refl. reflexivity.
Qed.
Lemma parse_char_split cs i l a : char_of_ascii a <> 32 -> skipn i cs = l -> ends l ->
  (exists k, l = char_of_ascii a :: k /\ parse_char cs i a = Ret (true, S i) /\ skipn (S i) cs = k /\ ends k) \/
  (parse_char cs i a = Ret (false, i) /\ forall k, l <> char_of_ascii a :: k).
Proof.
  intros Ha Hs He. destruct (ends_cons l He) as (c & k & ->). destruct (N.eq_dec c (char_of_ascii a)) as [->|Hc].
  - left. exists k. destruct (parse_char_yes cs i a k Hs) as [E1 E2]. repeat split; auto. now apply (ends_tail _ _ He).
  - right. split; [now apply (parse_char_no cs i c k)|]. intros k' E. apply Hc. now injection E.
Qed.
Lemma parse_char_other cs i l a : skipn i cs = l -> ends l -> (forall k, l <> char_of_ascii a :: k) -> parse_char cs i a = Ret (false, i).
Proof.
  intros Hs He Hn. destruct (ends_cons l He) as (c & k & ->). apply (parse_char_no cs i c k _ Hs). intros ->. now apply (Hn k).
Qed.

(* ------------------------------------------------------------------------- *)
(** * Numbers *)

Lemma decimal_bound ds : Forall (fun d => d < 10) ds -> decimal ds < 10 ^ N.of_nat (length ds).
Proof.
  intros H. unfold decimal.
  assert (G : forall n, fold_left (fun n d => 10 * n + d) ds n < (n + 1) * 10 ^ N.of_nat (length ds)).
  { induction H as [|d ds Hd H IH]; intros n; [cbn; lia|]. cbn [fold_left length]. rewrite Nat2N.inj_succ, N.pow_succ_r'.
    eapply N.lt_le_trans; [apply IH|]. rewrite N.mul_assoc. apply N.mul_le_mono_r. lia. }
  specialize (G 0). lia.
Qed.
Lemma nth_skipn {A} (l : list A) i j d : nth (i + j) l d = nth j (skipn i l) d.
Proof. revert i. induction l as [|x l IH]; intros i; [destruct i, j; reflexivity|]. destruct i; [reflexivity|]. cbn. apply IH. Qed.

Lemma short_decimal cs i ds r : ~ long_number cs -> skipn i cs = map digit_char ds ++ r -> Forall (fun d => d < 10) ds -> decimal ds < 2 ^ 32.
Proof.
  intros HL Hs Hd. pose proof (decimal_bound ds Hd) as HB.
  assert (L : (length ds <= 9)%nat).
  { destruct (Nat.le_gt_cases (length ds) 9) as [L|L]; [exact L|]. exfalso. apply HL. exists i. intros j Hj.
    rewrite nth_skipn, Hs, app_nth1 by (rewrite map_length; lia).
    rewrite (nth_indep _ 0 (digit_char 0)) by (rewrite map_length; lia). rewrite map_nth.
    assert (nth j ds 0 < 10); [|unfold is_digit, digit_char; lia]. rewrite Forall_forall in Hd. apply Hd. apply nth_In. lia. }
  assert (10 ^ N.of_nat (length ds) <= 10 ^ 9) by (apply N.pow_le_mono_r; lia).
  change (10 ^ 9) with 1000000000 in *. change (2 ^ 32) with 4294967296. lia.
Qed.

(* the digits at the front *)
Lemma digits_front l : ends l -> exists ds r, l = map digit_char ds ++ r /\ Forall (fun d => d < 10) ds /\ ends r /\
  forall c k, r = c :: k -> to_digit c = None.
Proof.
  intros He. induction l as [|c l IH]; [destruct He as (k & E); destruct k; discriminate E|].
  destruct (to_digit c) as [d|] eqn:Hc.
  - destruct IH as (ds & r & -> & Hd & Hr & Hn).
    { apply (ends_tail _ _ He). intros ->. discriminate Hc. }
    pose proof (to_digit_some c d Hc) as [[Hc1 Hc2] Hd10].
    exists (d :: ds), r. split; [|split; [constructor; assumption|split; assumption]].
    cbn [map app]. f_equal. unfold to_digit in Hc. change (char_of_ascii "0"%char) with 48 in Hc. change (char_of_ascii "9"%char) with 57 in Hc.
    destruct ((48 <=? c) && (c <=? 57)); [|discriminate Hc]. injection Hc as <-. unfold digit_char. lia.
  - exists [], (c :: l). split; [reflexivity|]. split; [constructor|]. split; [exact He|]. intros c' k E. now injection E as <- _.
Qed.

(* the weight, on the lowered text *)
Inductive lweight : list char -> option (list N) -> list char -> Prop :=
| lw_absent l : (forall k, l <> 64 :: k) -> lweight l None l
| lw_given ds r : Forall (fun d => d < 10) ds -> (forall c k, r = c :: k -> to_digit c = None) -> decimal ds <= 100 ->
    lweight (64 :: map digit_char ds ++ r) (Some ds) r
| lw_above ds r : Forall (fun d => d < 10) ds -> (forall c k, r = c :: k -> to_digit c = None) -> 100 < decimal ds ->
    lweight (64 :: map digit_char ds ++ r) None (map digit_char ds ++ r).
Definition weight_val (w : option (list N)) : N := match w with None => 100 | Some ds => decimal ds end.

Lemma weight_reads p cs i l w r : ~ long_number cs -> skipn i cs = l -> ends l -> lweight l w r ->
  exists i', parse_opt_weight p cs i = Ret (weight_val w, i') /\ skipn i' cs = r /\ ends r.
Proof.
  intros HL Hs He HW. unfold parse_opt_weight. destruct HW as [l Hn|ds r Hd Hr H100|ds r Hd Hr H100].
  - rewrite (parse_char_other cs i l "@"%char Hs He Hn). cbn [bind]. eauto.
  - destruct (parse_char_yes cs i "@"%char _ Hs) as [-> Hs']. cbn [bind].
    assert (Er : ends r). { apply (ends_app (64 :: map digit_char ds)); [exact He|]. constructor; [discriminate|now apply digits_not_blank]. }
    destruct (ends_cons r Er) as (c & k & ->). pose proof (Hr c k eq_refl) as Hc.
    pose proof (short_decimal cs (S i) ds _ HL Hs' Hd) as HB. unfold parse_weight.
    destruct (parse_weight_digits p cs (S i) 100 c k Hc ds (S (length cs)) (S i) 0 Hd Hs') as [E1 E2].
    + pose proof (f_equal (@length char) Hs') as L. rewrite skipn_length, app_length, map_length in L. cbn [length] in L. lia.
    + exact HB.
    + fold (decimal ds) in E1. rewrite E1. cbv zeta. replace (100 <? decimal ds) with false by (symmetry; apply N.ltb_ge; exact H100). eauto.
  - destruct (parse_char_yes cs i "@"%char _ Hs) as [-> Hs']. cbn [bind].
    assert (Er : ends (map digit_char ds ++ r)) by (apply (ends_tail _ _ He); discriminate).
    assert (Er' : ends r). { apply (ends_app (map digit_char ds)); [exact Er|now apply digits_not_blank]. }
    destruct (ends_cons r Er') as (c & k & ->). pose proof (Hr c k eq_refl) as Hc.
    pose proof (short_decimal cs (S i) ds _ HL Hs' Hd) as HB. unfold parse_weight.
    destruct (parse_weight_digits p cs (S i) 100 c k Hc ds (S (length cs)) (S i) 0 Hd Hs') as [E1 E2].
    + pose proof (f_equal (@length char) Hs') as L. rewrite skipn_length, app_length, map_length in L. cbn [length] in L. lia.
    + exact HB.
    + fold (decimal ds) in E1. rewrite E1. cbv zeta. replace (100 <? decimal ds) with true by (symmetry; apply N.ltb_lt; exact H100). eauto.
Qed.

Lemma weight_exists l : ends l -> exists w r, lweight l w r.
Proof.
  intros He. destruct (ends_cons l He) as (c & k & ->). destruct (N.eq_dec c 64) as [->|Hc].
  - assert (Ek : ends k) by (apply (ends_tail _ _ He); discriminate). destruct (digits_front k Ek) as (ds & r & -> & Hd & _ & Hn).
    destruct (N.le_gt_cases (decimal ds) 100) as [L|L]; do 2 eexists; [eapply lw_given|eapply lw_above]; eauto.
  - do 2 eexists. apply lw_absent. intros k' E. injection E as E _. contradiction.
Qed.
Lemma weight_val_le l w r : lweight l w r -> weight_val w <= 100.
Proof. intros [l' _|ds r' _ _ H|ds r' _ _ _]; cbn; [lia|exact H|lia]. Qed.

(* ------------------------------------------------------------------------- *)
(** * The two ranks after a dash *)

Definition shares (r1 r2 r3 r4 : N) : Prop :=
  r1 = r2 /\ r3 = r4 \/ exists x y z, two_are r1 r2 x y /\ two_are r3 r4 x z /\ x <> y /\ x <> z.

Lemma dash_check r1 r2 r3 r4 (i : nat) :
  let m := (if (r1 =? r2) && negb (r3 =? r4) then Ret (false, r3, r4, i) else
   if negb (r1 =? r2) && (r3 =? r4) then Ret (false, r3, r4, i) else
   if (r1 =? r2) && (r3 =? r4) then Ret (true, r3, r4, i) else
   if negb (r1 =? r3) && negb (r1 =? r4) && negb (r2 =? r3) && negb (r2 =? r4)
   then Ret (false, r3, r4, i) else Ret (true, r3, r4, i)) in
  shares r1 r2 r3 r4 /\ m = Ret (true, r3, r4, i) \/ ~ shares r1 r2 r3 r4 /\ m = Ret (false, r3, r4, i).
Proof.
  cbv zeta. unfold shares, two_are. destruct (N.eqb_spec r1 r2) as [E12|E12], (N.eqb_spec r3 r4) as [E34|E34]; cbn [andb negb].
  - left. auto.
  - right. split; [|reflexivity]. intros [[_ H]|(x & y & z & H1 & H2 & H3)]; [contradiction|]. clear - E12 E34 H1 H2 H3. lia.
  - right. split; [|reflexivity]. intros [[H _]|(x & y & z & H1 & H2 & H3)]; [contradiction|]. clear - E12 E34 H1 H2 H3. lia.
  - destruct (N.eqb_spec r1 r3) as [E|E]; cbn [andb negb].
    { left. split; [|reflexivity]. right. exists r1, r2, r4. clear - E E12 E34. intuition congruence. }
    destruct (N.eqb_spec r1 r4) as [E'|E']; cbn [andb negb].
    { left. split; [|reflexivity]. right. exists r1, r2, r3. clear - E E' E12 E34. intuition congruence. }
    destruct (N.eqb_spec r2 r3) as [E2|E2]; cbn [andb negb].
    { left. split; [|reflexivity]. right. exists r2, r1, r4. clear - E E' E2 E12 E34. intuition congruence. }
    destruct (N.eqb_spec r2 r4) as [E2'|E2']; cbn [andb negb].
    { left. split; [|reflexivity]. right. exists r2, r1, r3. clear - E E' E2 E2' E12 E34. intuition congruence. }
    right. split; [|reflexivity]. intros [[H _]|(x & y & z & H1 & H2 & H3)]; [contradiction|]. clear - E E' E2 E2' H1 H2. intuition congruence.
Qed.

(* characters that continue a shape, on the lowered text *)
Definition ends_here (s : shape) (l : list char) : Prop := forall c k, l = c :: k -> ~ In c (goes_on s).

Lemma dash_reads_all cs i r1 r2 r3 r4 q again l : r3 < 13 -> r4 < 13 -> shares r1 r2 r3 r4 -> (again = true -> q <> AnySuits) ->
  skipn i cs = lr r3 :: lr r4 :: (if again then qual_text q else []) ++ l -> ends l -> ends_here (Dash r1 r2 r3 r4 q again) l ->
  exists i', parse_combos_dash cs r1 r2 (su_of q) (off_of q) i = Ret (true, r3, r4, i') /\ skipn i' cs = l.
Proof.
  intros H3 H4 HS Hq Hs He Hn. unfold parse_combos_dash.
  destruct (parse_rank_yes cs i r3 _ Hs H3) as [-> Hs1]. cbn [bind negb].
  destruct (parse_rank_yes cs _ r4 _ Hs1 H4) as [-> Hs2]. cbn [bind negb].
  destruct (ends_cons l He) as (c & k & ->). pose proof (Hn c k eq_refl) as Hc. clear Hn. cbn [goes_on] in Hc.
  assert (Fin : forall j : nat, (if (r1 =? r2) && negb (r3 =? r4) then Ret (false, r3, r4, j) else
   if negb (r1 =? r2) && (r3 =? r4) then Ret (false, r3, r4, j) else
   if (r1 =? r2) && (r3 =? r4) then Ret (true, r3, r4, j) else
   if negb (r1 =? r3) && negb (r1 =? r4) && negb (r2 =? r3) && negb (r2 =? r4)
   then Ret (false, r3, r4, j) else Ret (true, r3, r4, j)) = Ret (true, r3, r4, j)).
  { intros j. destruct (dash_check r1 r2 r3 r4 j) as [[_ E]|[Hno _]]; [exact E|contradiction]. }
  destruct again.
  - destruct q; [exfalso; now apply Hq| |]; cbn [qual_text app chars su_of off_of] in *.
    + rewrite (parse_char_no cs _ _ _ "o"%char Hs2) by discriminate. cbn [bind andb].
      destruct (parse_char_yes cs _ "s"%char _ Hs2) as [-> Hs3]. cbn [bind andb negb]. rewrite Fin. eauto.
    + destruct (parse_char_yes cs _ "o"%char _ Hs2) as [-> Hs3]. cbn [bind andb negb].
      rewrite (parse_char_no cs _ c k "s"%char Hs3) by (intros ->; apply Hc; left; reflexivity). cbn [bind andb].
      rewrite Fin. eauto.
  - cbn [app] in Hs2. assert (Hc' : ~ In c (chars "so")) by (destruct q; exact Hc).
    rewrite (parse_char_no cs _ c k "o"%char Hs2) by (intros ->; apply Hc'; right; left; reflexivity). cbn [bind andb].
    rewrite (parse_char_no cs _ c k "s"%char Hs2) by (intros ->; apply Hc'; left; reflexivity). cbn [bind andb].
    rewrite Fin. eauto.
Qed.

(* every run of it *)
Lemma dash_runs cs i r1 r2 q l : skipn i cs = l -> ends l ->
  (exists r3 r4 again k i', r3 < 13 /\ r4 < 13 /\ shares r1 r2 r3 r4 /\ (again = true -> q <> AnySuits) /\
     l = lr r3 :: lr r4 :: (if again then qual_text q else []) ++ k /\ ends k /\ ends_here (Dash r1 r2 r3 r4 q again) k /\
     parse_combos_dash cs r1 r2 (su_of q) (off_of q) i = Ret (true, r3, r4, i') /\ skipn i' cs = k) \/
  exists r3 r4 i', parse_combos_dash cs r1 r2 (su_of q) (off_of q) i = Ret (false, r3, r4, i').
Proof.
  intros Hs He. unfold parse_combos_dash.
  destruct (parse_rank_split cs i l Hs He) as [(r3 & l1 & H3 & -> & -> & Hs1 & He1)| ->]; [|right; do 3 eexists; reflexivity]. cbn [bind negb].
  destruct (parse_rank_split cs (S i) l1 Hs1 He1) as [(r4 & l2 & H4 & -> & -> & Hs2 & He2)| ->]; [|right; do 3 eexists; reflexivity]. cbn [bind negb].
  destruct (parse_char_split cs _ l2 "o"%char ltac:(discriminate) Hs2 He2) as [(l3 & -> & -> & Hs3 & He3)|[-> No]]; cbn [bind].
  - destruct q; cbn [su_of off_of negb andb]; try (right; do 3 eexists; reflexivity).
    destruct (parse_char_split cs _ l3 "s"%char ltac:(discriminate) Hs3 He3) as [(l4 & -> & -> & Hs4 & He4)|[-> Ns]]; cbn [bind andb];
      [right; do 3 eexists; reflexivity|].
    destruct (dash_check r1 r2 r3 r4 (S (S (S i)))) as [[HS E]|[_ E]]; [|right; do 3 eexists; exact E].
    left. exists r3, r4, true, l3, (S (S (S i))). split; [exact H3|]. split; [exact H4|]. split; [exact HS|]. split; [discriminate|].
    split; [reflexivity|]. split; [exact He3|]. split; [|split; [exact E|exact Hs3]].
    intros c k -> [<-|[]]. now apply (Ns k).
  - cbn [andb].
    destruct (parse_char_split cs _ l2 "s"%char ltac:(discriminate) Hs2 He2) as [(l3 & -> & -> & Hs3 & He3)|[-> Ns]]; cbn [bind].
    + destruct q; cbn [su_of off_of negb andb]; try (right; do 3 eexists; reflexivity).
      destruct (dash_check r1 r2 r3 r4 (S (S (S i)))) as [[HS E]|[_ E]]; [|right; do 3 eexists; exact E].
      left. exists r3, r4, true, l3, (S (S (S i))). split; [exact H3|]. split; [exact H4|]. split; [exact HS|]. split; [discriminate|].
      split; [reflexivity|]. split; [exact He3|]. split; [|split; [exact E|exact Hs3]]. intros c k _ [].
    + cbn [andb].
      destruct (dash_check r1 r2 r3 r4 (S (S i))) as [[HS E]|[_ E]]; [|right; do 3 eexists; exact E].
      left. exists r3, r4, false, l2, (S (S i)). split; [exact H3|]. split; [exact H4|]. split; [exact HS|]. split; [discriminate|].
      split; [reflexivity|]. split; [exact He2|]. split; [|split; [exact E|exact Hs2]].
      intros c k -> Hin. assert (Hin' : In c (chars "so")) by (destruct q; exact Hin).
      destruct Hin' as [<-|[<-|[]]]; [now apply (Ns k)|now apply (No k)].
Qed.

(* ------------------------------------------------------------------------- *)
(** * One term *)

Definition lterm (l : list char) (t : term) (r : list char) : Prop :=
  complete_shape (t_shape t) /\
  exists k, l = low_shape (t_shape t) ++ k /\ ends_here (t_shape t) k /\ lweight k (t_weight t) r.

Lemma qual_reads cs i q l : skipn i cs = qual_text q ++ l -> ends l ->
  (q = AnySuits -> forall c k, l = c :: k -> ~ In c (chars "so")) ->
  exists i', ('(o, i) <- parse_char cs i "o" ;;
              '(s, i) <- (if o then Ret (false, i) else parse_char cs i "s") ;;
              Ret (o, s, i)) = Ret (negb (su_of q), negb (off_of q), i') /\ skipn i' cs = l.
Proof.
  intros Hs He Hn. destruct q; cbn [qual_text app chars] in Hs.
  - destruct (ends_cons l He) as (c & k & ->). pose proof (Hn eq_refl c k eq_refl) as Hc.
    rewrite (parse_char_no cs i c k "o"%char Hs) by (intros ->; apply Hc; right; left; reflexivity). cbn [bind].
    rewrite (parse_char_no cs i c k "s"%char Hs) by (intros ->; apply Hc; left; reflexivity). cbn [bind]. eauto.
  - rewrite (parse_char_no cs i _ _ "o"%char Hs) by discriminate. cbn [bind].
    destruct (parse_char_yes cs i "s"%char _ Hs) as [-> Hs']. cbn [bind]. eauto.
  - destruct (parse_char_yes cs i "o"%char _ Hs) as [-> Hs']. cbn [bind]. eauto.
Qed.
Lemma qual_runs cs i l : skipn i cs = l -> ends l -> exists q k i', l = qual_text q ++ k /\ ends k /\
  (q = AnySuits -> forall c k', k = c :: k' -> ~ In c (chars "so")) /\
  ('(o, i) <- parse_char cs i "o" ;;
   '(s, i) <- (if o then Ret (false, i) else parse_char cs i "s") ;;
   Ret (o, s, i)) = Ret (negb (su_of q), negb (off_of q), i') /\ skipn i' cs = k.
Proof.
  intros Hs He.
  destruct (parse_char_split cs _ l "o"%char ltac:(discriminate) Hs He) as [(l3 & -> & -> & Hs3 & He3)|[-> No]]; cbn [bind].
  - exists OffsuitOnly, l3, (S i). repeat split; auto; discriminate.
  - destruct (parse_char_split cs _ l "s"%char ltac:(discriminate) Hs He) as [(l3 & -> & -> & Hs3 & He3)|[-> Ns]]; cbn [bind].
    + exists SuitedOnly, l3, (S i). repeat split; auto; discriminate.
    + exists AnySuits, l, i. split; [reflexivity|]. split; [exact He|]. split; [|split; [reflexivity|exact Hs]].
      intros _ c k' -> [<-|[<-|[]]]; [now apply (Ns k')|now apply (No k')].
Qed.

Lemma low_shape_not_blank s : complete_shape s -> Forall (fun c => c <> 32) (low_shape s).
Proof.
  assert (Q : forall q, Forall (fun c => c <> 32) (qual_text q)) by (intros []; cbn; repeat constructor; discriminate).
  destruct s as [c1 c2|r1 r2 q|r1 r2 q|r1 r2 r3 r4 q again]; cbn [complete_shape low_shape]; unfold is_rank.
  - intros (H1 & H2 & _). destruct (split_card c1 H1) as (R1 & S1 & _). destruct (split_card c2 H2) as (R2 & S2 & _).
    repeat constructor; auto using blank_not_rank, blank_not_suit.
  - intros (H1 & H2). do 2 (constructor; [now apply blank_not_rank|]). apply Q.
  - intros (H1 & H2). do 2 (constructor; [now apply blank_not_rank|]). apply Forall_app. split; [apply Q|]. repeat constructor; discriminate.
  - intros (H1 & H2 & H3 & H4 & _). do 2 (constructor; [now apply blank_not_rank|]). apply Forall_app. split; [apply Q|].
    constructor; [discriminate|]. do 2 (constructor; [now apply blank_not_rank|]). destruct again; [apply Q|constructor].
Qed.

Lemma hand_reads p cs hands i l t r : ~ long_number cs -> skipn i cs = l -> ends l -> lterm l t r ->
  exists i', parse_hand p cs hands i = Ret (true, hands ++ shape_combos (t_shape t) (weight_of t), i') /\ skipn i' cs = r /\ ends r.
Proof.
  intros HL Hs He (HS & k & El & Hend & HW). change (weight_of t) with (weight_val (t_weight t)). rewrite El in Hs, He. clear El.
  assert (Ek : ends k) by (apply (ends_app _ _ He), low_shape_not_blank, HS).
  destruct t as [s w]. cbn [t_shape t_weight] in *.
  assert (W : forall j, skipn j cs = k -> exists i', parse_opt_weight p cs j = Ret (weight_val w, i') /\ skipn i' cs = r /\ ends r).
  { intros j Hj. exact (weight_reads p cs j k w r HL Hj Ek HW). }
  destruct s as [c1 c2|r1 r2 q|r1 r2 q|r1 r2 r3 r4 q again]; cbn [low_shape app] in Hs.
  - destruct HS as (Hc1 & Hc2 & Hd). destruct (split_card c1 Hc1) as (R1 & S1 & E1). destruct (split_card c2 Hc2) as (R2 & S2 & E2).
    unfold parse_hand. cbv zeta.
    destruct (parse_rank_yes cs i _ _ Hs R1) as [-> Hs1]. cbn [bind negb].
    destruct (parse_suit_yes cs _ _ _ Hs1 S1) as [-> Hs2]. cbn [bind negb].
    destruct (parse_rank_yes cs _ _ _ Hs2 R2) as [-> Hs3]. cbn [bind negb].
    destruct (parse_suit_yes cs _ _ _ Hs3 S2) as [-> Hs4]. cbn [bind negb].
    rewrite <- E1, <- E2, (eqb_false c1 c2) by exact Hd.
    destruct (W _ Hs4) as (i' & -> & HE). cbn [bind].
    exists i'. split; [|exact HE]. rewrite add_combo_ok by (repeat split; assumption). reflexivity.
  - destruct HS as (R1 & R2). destruct (parse_hand_unsuited p cs hands i r1 r2 _ R1 R2 Hs) as [-> Hs2].
    assert (N1 : forall k', k <> 43 :: k'). { intros k' ->. apply (Hend 43 k' eq_refl). destruct q; cbn; tauto. }
    assert (N2 : forall k', k <> 45 :: k'). { intros k' ->. apply (Hend 45 k' eq_refl). destruct q; cbn; tauto. }
    destruct (qual_reads cs _ q k Hs2 Ek) as (i' & -> & Hs3).
    { intros -> c k' -> Hin. apply (Hend c k' eq_refl). cbn in Hin |- *. tauto. }
    cbn [bind unsuited_tail]. rewrite !negb_involutive.
    rewrite (parse_char_other cs i' k "+"%char Hs3 Ek N1). cbn [bind].
    rewrite (parse_char_other cs i' k "-"%char Hs3 Ek N2). cbn [bind].
    destruct (W _ Hs3) as (i2 & -> & HE). cbn [bind].
    exists i2. split; [|exact HE]. rewrite add_combos_eq by assumption. reflexivity.
  - destruct HS as (R1 & R2). rewrite <- app_assoc in Hs. destruct (parse_hand_unsuited p cs hands i r1 r2 _ R1 R2 Hs) as [-> Hs2].
    cbn [chars app] in Hs2. destruct (parse_qual cs _ q _ _ Hs2) as (i' & -> & Hs3); [split; discriminate|].
    cbn [bind unsuited_tail]. rewrite !negb_involutive.
    destruct (parse_char_yes cs i' "+"%char _ Hs3) as [-> Hs4]. cbn [bind].
    destruct (W _ Hs4) as (i2 & -> & HE). cbn [bind].
    exists i2. split; [|exact HE]. rewrite add_combos_plus_base by assumption. reflexivity.
  - destruct HS as (R1 & R2 & R3 & R4 & HSh & HQ). rewrite <- !app_assoc in Hs.
    destruct (parse_hand_unsuited p cs hands i r1 r2 _ R1 R2 Hs) as [-> Hs2].
    cbn [chars app] in Hs2. destruct (parse_qual cs _ q _ _ Hs2) as (i' & -> & Hs3); [split; discriminate|].
    cbn [bind unsuited_tail]. rewrite !negb_involutive.
    rewrite (parse_char_no cs i' _ _ "+"%char Hs3) by discriminate. cbn [bind].
    destruct (parse_char_yes cs i' "-"%char _ Hs3) as [-> Hs4]. cbn [bind].
    destruct (dash_reads_all cs (S i') r1 r2 r3 r4 q again k R3 R4 HSh HQ Hs4 Ek Hend) as (i2 & -> & Hs5). cbn [bind negb].
    destruct (W _ Hs5) as (i3 & -> & HE). cbn [bind].
    exists i3. split; [|exact HE]. rewrite add_combos_dash_base by assumption. reflexivity.
Qed.

Lemma hand_runs p cs hands i l : ~ long_number cs -> skipn i cs = l -> ends l ->
  (exists t r, lterm l t r) \/ exists i', parse_hand p cs hands i = Ret (false, hands, i').
Proof.
  intros HL Hs He.
  assert (W : forall s k, l = low_shape s ++ k -> complete_shape s -> ends_here s k -> ends k -> exists t r, lterm l t r).
  { intros s k E HS Hk Ek. destruct (weight_exists k Ek) as (w & r & HW). exists {| t_shape := s; t_weight := w |}, r.
    split; [exact HS|]. exists k. auto. }
  destruct (parse_rank_split cs i l Hs He) as [(r1 & l1 & R1 & -> & E1 & Hs1 & He1)|E1].
  2:{ right. exists i. unfold parse_hand. cbv zeta. rewrite E1. reflexivity. }
  destruct (parse_suit_split cs _ l1 Hs1 He1) as [(s1 & l2 & S1 & -> & E2 & Hs2 & He2)|E2].
  - destruct (parse_rank_split cs _ l2 Hs2 He2) as [(r2 & l3 & R2 & -> & E3 & Hs3 & He3)|E3].
    2:{ right. eexists. unfold parse_hand. cbv zeta. rewrite E1. cbn [bind negb]. rewrite E2. cbn [bind]. rewrite E3. reflexivity. }
    destruct (parse_suit_split cs _ l3 Hs3 He3) as [(s2 & l4 & S2 & -> & E4 & Hs4 & He4)|E4].
    2:{ right. eexists. unfold parse_hand. cbv zeta. rewrite E1. cbn [bind negb]. rewrite E2. cbn [bind]. rewrite E3. cbn [bind negb].
        rewrite E4. reflexivity. }
    destruct (N.eqb_spec (4 * r1 + s1) (4 * r2 + s2)) as [Eq|Ne].
    { right. eexists. unfold parse_hand. cbv zeta. rewrite E1. cbn [bind negb]. rewrite E2. cbn [bind]. rewrite E3. cbn [bind negb].
        rewrite E4. cbn [bind negb]. rewrite Eq, N.eqb_refl. reflexivity. }
    left. destruct (make_card r1 s1 R1 S1) as (C1 & Cr1 & Cs1). destruct (make_card r2 s2 R2 S2) as (C2 & Cr2 & Cs2).
    apply (W (Exact (4 * r1 + s1) (4 * r2 + s2)) l4); [|repeat split; assumption|intros c k _ []|exact He4].
    cbn [low_shape app]. rewrite Cr1, Cs1, Cr2, Cs2. reflexivity.
  - destruct (parse_rank_split cs _ l1 Hs1 He1) as [(r2 & l2 & R2 & -> & E3 & Hs2 & He2)|E3].
    2:{ right. eexists. unfold parse_hand. cbv zeta. rewrite E1. cbn [bind negb]. rewrite E2. cbn [bind]. rewrite E3. reflexivity. }
    destruct (parse_hand_unsuited p cs hands i r1 r2 l2 R1 R2 Hs) as [EP _]. rewrite EP. clear EP.
    destruct (qual_runs cs _ l2 Hs2 He2) as (q & l3 & i3 & -> & He3 & Hq & -> & Hs3). cbn [bind unsuited_tail]. rewrite !negb_involutive.
    destruct (parse_char_split cs _ l3 "+"%char ltac:(discriminate) Hs3 He3) as [(l4 & -> & -> & Hs4 & He4)|[-> Np]]; cbn [bind].
    { left. apply (W (Plus r1 r2 q) l4); [|split; assumption|intros c k _ []|exact He4].
      cbn [low_shape app]. rewrite <- app_assoc. reflexivity. }
    destruct (parse_char_split cs _ l3 "-"%char ltac:(discriminate) Hs3 He3) as [(l4 & -> & -> & Hs4 & He4)|[-> Nd]]; cbn [bind].
    + destruct (dash_runs cs _ r1 r2 q l4 Hs4 He4) as [(r3 & r4 & again & l5 & i5 & R3 & R4 & HSh & HQ & -> & He5 & Hk & -> & Hs5)|(r3 & r4 & i5 & ->)];
        cbn [bind negb]; [|right; eauto].
      left. apply (W (Dash r1 r2 r3 r4 q again) l5); [|repeat split; assumption|exact Hk|exact He5].
      cbn [low_shape app]. rewrite <- !app_assoc. cbn [chars app]. reflexivity.
    + left. apply (W (Plain r1 r2 q) l3); [reflexivity|split; assumption| |exact He3].
      intros c k -> Hin. assert (Hc : c = 43 \/ c = 45 \/ q = AnySuits /\ In c (chars "so")).
      { destruct q; cbn in Hin |- *; intuition. }
      destruct Hc as [->|[->|[-> Hso]]]; [now apply (Np k)|now apply (Nd k)|now apply (Hq eq_refl c k)].
Qed.

(* ------------------------------------------------------------------------- *)
(** * From the text to the lowered text *)

Lemma low_complete s : complete_shape s -> low (shape_text s) = low_shape s.
Proof.
  intros H. destruct s as [c1 c2|r1 r2 q|r1 r2 q|r1 r2 r3 r4 q again]; cbn [shape_text low_shape complete_shape] in *.
  - destruct H as (H1 & H2 & _). unfold low. rewrite map_app. fold (low (card_name c1)) (low (card_name c2)). rewrite !low_card by assumption. reflexivity.
  - unfold low, ranks_text. cbn [map app]. fold (low (qual_text q)). rewrite low_qual. reflexivity.
  - unfold low, ranks_text. cbn [map app]. rewrite map_app. fold (low (qual_text q)). rewrite low_qual. reflexivity.
  - unfold low, ranks_text. cbn [map app]. rewrite !map_app. fold (low (qual_text q)). rewrite low_qual.
    cbn [map app chars]. destruct again; [fold (low (qual_text q)); rewrite low_qual|]; reflexivity.
Qed.
Lemma low_digits ds : Forall (fun d => d < 10) ds -> low (map digit_char ds) = map digit_char ds.
Proof.
  induction 1 as [|d ds Hd _ IH]; [reflexivity|]. unfold low in *. cbn [map]. rewrite IH. f_equal.
  unfold ascii_lower, digit_char. replace (65 <=? 48 + d) with false by (symmetry; apply N.leb_gt; lia). reflexivity.
Qed.

(* a blank-free start of the lowered text is a start of the text *)
Lemma low_split a : forall text k, Forall (fun c => c <> 32) a -> low text ++ [32] = a ++ k ->
  exists body after, text = body ++ after /\ low body = a /\ k = low after ++ [32].
Proof.
  induction a as [|x a IH]; intros text k Ha E.
  - exists [], text. cbn [app] in *. auto.
  - inversion Ha as [|? ? Hx Ha']. subst. destruct text as [|c text]; cbn [low map app] in E.
    + injection E as E _. congruence.
    + injection E as E1 E2. destruct (IH text k Ha' E2) as (body & after & -> & Eb & ->). exists (c :: body), after.
      split; [reflexivity|]. split; [|reflexivity]. unfold low in *. cbn [map]. now rewrite E1, Eb.
Qed.

Lemma next_low text l : Forall (fun x => ascii_lower x = x /\ x <> 32) l ->
  next_in text l <-> exists c k, low text ++ [32] = c :: k /\ In c l.
Proof.
  intros Hl. rewrite Forall_forall in Hl. split.
  - intros (c & rest & x & -> & Hin & Hc). apply same_char_lower in Hc. exists x, (low rest ++ [32]). split; [|exact Hin].
    cbn [low map app]. rewrite Hc. now rewrite (proj1 (Hl x Hin)).
  - intros (c & k & E & Hin). destruct text as [|c' text]; cbn [low map app] in E.
    + injection E as <- _. now apply Hl in Hin as [_ Hin].
    + injection E as E1 E2. exists c', text, c. split; [reflexivity|]. split; [exact Hin|]. apply same_char_lower.
      rewrite E1. symmetry. now apply Hl.
Qed.
Lemma goes_on_low s : Forall (fun x => ascii_lower x = x /\ x <> 32) (goes_on s).
Proof.
  assert (H : Forall (fun x => ascii_lower x = x /\ x <> 32) (chars "so+-")) by (repeat constructor; discriminate).
  assert (H1 : Forall (fun x => ascii_lower x = x /\ x <> 32) (chars "+-")) by (repeat constructor; discriminate).
  assert (H2 : Forall (fun x => ascii_lower x = x /\ x <> 32) (chars "so")) by (repeat constructor; discriminate).
  assert (H3 : Forall (fun x => ascii_lower x = x /\ x <> 32) (chars "s")) by (repeat constructor; discriminate).
  destruct s as [| ? ? q| |? ? ? ? q again]; cbn [goes_on]; [constructor|destruct q; assumption|constructor|].
  destruct q, again; try assumption; constructor.
Qed.

Lemma ends_here_low s text : ~ next_in text (goes_on s) <-> ends_here s (low text ++ [32]).
Proof.
  rewrite (next_low text _ (goes_on_low s)). unfold ends_here. split.
  - intros H c k E Hin. apply H. eauto.
  - intros H (c & k & E & Hin). exact (H c k E Hin).
Qed.

Lemma no_digit_low rest : (forall c r, rest = c :: r -> ~ is_digit c) <-> (forall c k, low rest ++ [32] = c :: k -> to_digit c = None).
Proof.
  split.
  - intros H c k E. destruct (to_digit c) as [d|] eqn:Hd; [|reflexivity]. exfalso. apply to_digit_some in Hd as [Hd _].
    destruct rest as [|x rest]; cbn [low map app] in E; injection E as <- _.
    + unfold is_digit in Hd. lia.
    + apply (proj1 (lower_digit x)) in Hd. exact (H x rest eq_refl Hd).
  - intros H c r -> Hd. specialize (H (ascii_lower c) (low r ++ [32]) eq_refl). apply (proj2 (lower_digit c)) in Hd.
    unfold to_digit in H. change (char_of_ascii "0"%char) with 48 in H. change (char_of_ascii "9"%char) with 57 in H.
    destruct Hd as [Hd1 Hd2]. apply N.leb_le in Hd1, Hd2. rewrite Hd1, Hd2 in H. discriminate H.
Qed.

Lemma weight_low text w rest : weight_at text w rest -> lweight (low text ++ [32]) w (low rest ++ [32]).
Proof.
  assert (Hat : Forall (fun x => ascii_lower x = x /\ x <> 32) (chars "@")) by (repeat constructor; discriminate).
  intros [t Hn|ds r Hd Hr H100|ds r Hd Hr H100].
  - apply lw_absent. intros k E. apply Hn. apply (next_low t _ Hat). exists 64, k. split; [exact E|left; reflexivity].
  - unfold low. rewrite !map_app. fold (low (map digit_char ds)) (low r). rewrite low_digits by exact Hd. rewrite <- !app_assoc.
    apply lw_given; auto. now apply no_digit_low.
  - unfold low. rewrite !map_app. fold (low (map digit_char ds)) (low r). rewrite low_digits by exact Hd. rewrite <- !app_assoc.
    apply lw_above; auto. now apply no_digit_low.
Qed.
Lemma digits_low body ds : Forall (fun d => d < 10) ds -> low body = map digit_char ds -> body = map digit_char ds.
Proof.
  intros Hd. revert body. induction Hd as [|d ds Hd _ IH]; intros [|c body] E; cbn [low map] in E; try discriminate E; [reflexivity|].
  injection E as E1 E2. cbn [map]. f_equal; [|now apply IH]. revert E1. unfold ascii_lower, digit_char.
  destruct (N.leb_spec 65 c), (N.leb_spec c 90); cbn [andb]; lia.
Qed.
Lemma low_weight_at text w r : lweight (low text ++ [32]) w r -> exists rest, weight_at text w rest /\ r = low rest ++ [32].
Proof.
  assert (Hat : Forall (fun x => ascii_lower x = x /\ x <> 32) (chars "@")) by (repeat constructor; discriminate).
  intros HW. remember (low text ++ [32]) as l eqn:El. destruct HW as [l Hn|ds r Hd Hr H100|ds r Hd Hr H100].
  - exists text. split; [|exact El]. apply weight_absent. intros H. apply (next_low text _ Hat) in H as (c & k & E & [<-|[]]).
    apply (Hn k). rewrite El. exact E.
  - symmetry in El. destruct text as [|c text]; cbn [low map app] in El; [discriminate El|]. injection El as E1 E2.
    destruct (low_split (map digit_char ds) text r (digits_not_blank ds Hd) E2) as (body & after & -> & Eb & ->).
    exists after. split; [|reflexivity]. apply digits_low in Eb; [|exact Hd]. subst body.
    replace (c :: map digit_char ds ++ after) with (chars "@" ++ map digit_char ds ++ after).
    + apply weight_given; auto. now apply no_digit_low.
    + cbn [chars app]. f_equal. revert E1. unfold ascii_lower. change (char_of_ascii "@"%char) with 64.
      destruct (N.leb_spec 65 c), (N.leb_spec c 90); cbn [andb]; lia.
  - symmetry in El. destruct text as [|c text]; cbn [low map app] in El; [discriminate El|]. injection El as E1 E2.
    destruct (low_split (map digit_char ds) text r (digits_not_blank ds Hd) E2) as (body & after & -> & Eb & ->).
    apply digits_low in Eb; [|exact Hd]. subst body.
    exists (map digit_char ds ++ after). split.
    + replace (c :: map digit_char ds ++ after) with (chars "@" ++ map digit_char ds ++ after).
      * apply weight_above_100; auto. now apply no_digit_low.
      * cbn [chars app]. f_equal. revert E1. unfold ascii_lower. change (char_of_ascii "@"%char) with 64.
        destruct (N.leb_spec 65 c), (N.leb_spec c 90); cbn [andb]; lia.
    + unfold low. rewrite map_app. fold (low (map digit_char ds)) (low after). rewrite low_digits by exact Hd. now rewrite <- app_assoc.
Qed.

Lemma term_low text t rest : term_at text t rest -> lterm (low text ++ [32]) t (low rest ++ [32]).
Proof.
  intros (HS & body & after & -> & Hb & Hn & HW). split; [exact HS|]. exists (low after ++ [32]).
  split; [|split; [now apply ends_here_low|now apply weight_low]].
  unfold low at 1. rewrite map_app. fold (low body) (low after). rewrite <- app_assoc. f_equal.
  rewrite <- (low_complete _ HS). now apply reads_low.
Qed.
Lemma low_term_at text t r : lterm (low text ++ [32]) t r -> exists rest, term_at text t rest /\ r = low rest ++ [32].
Proof.
  intros (HS & k & E & Hk & HW). destruct (low_split _ text k (low_shape_not_blank _ HS) E) as (body & after & -> & Eb & ->).
  destruct (low_weight_at after (t_weight t) r HW) as (rest & HW' & ->). exists rest. split; [|reflexivity]. split; [exact HS|].
  exists body, after. split; [reflexivity|]. split; [|split; [now apply ends_here_low|exact HW']].
  apply Forall2_same_map. rewrite <- (low_complete _ HS) in Eb. exact Eb.
Qed.

(* ------------------------------------------------------------------------- *)
(** * The list of terms *)

Lemma low_ends text : ends (low text ++ [32]).
Proof. now exists (low text). Qed.

Lemma weight_at_length text w rest : weight_at text w rest -> (length rest <= length text)%nat.
Proof. intros [t _|ds r _ _ _|ds r _ _ _]; rewrite ?app_length; cbn [length chars]; lia. Qed.
Lemma term_at_length text t rest : term_at text t rest -> (length rest < length text)%nat.
Proof.
  intros (HS & body & after & -> & Hb & _ & HW). apply weight_at_length in HW. rewrite app_length.
  assert (length body > 0)%nat; [|lia]. apply reads_low in Hb. rewrite (low_complete _ HS) in Hb.
  destruct (low_shape_nonempty (t_shape t)) as (r & k & Ek). rewrite Ek in Hb. destruct body; [discriminate Hb|cbn; lia].
Qed.

Lemma loop_reads p cs : ~ long_number cs -> forall text ts, reading text ts -> forall fuel hands i, skipn i cs = low text ++ [32] ->
  (length text < fuel)%nat -> parse_loop p fuel cs hands i = Ret (hands ++ range_combos ts).
Proof.
  assert (Hcomma : Forall (fun x => ascii_lower x = x /\ x <> 32) (chars ",")) by (repeat constructor; discriminate).
  intros HL text ts HR. induction HR as [text Hno|text t rest Ht Hc|text t rest ts Ht HR IH]; intros fuel hands i Hs Hf;
    (destruct fuel as [|fuel]; [lia|]); cbn [parse_loop].
  - destruct (hand_runs p cs hands i _ HL Hs (low_ends text)) as [(t & r & Ht)|(i' & ->)].
    + exfalso. apply low_term_at in Ht as (rest & Ht & _). exact (Hno t rest Ht).
    + cbn [bind negb]. unfold range_combos. cbn [flat_map]. now rewrite app_nil_r.
  - destruct (hand_reads p cs hands i _ t _ HL Hs (low_ends text) (term_low _ _ _ Ht)) as (i' & -> & Hs' & He). cbn [bind negb].
    rewrite (parse_char_other cs i' _ ","%char Hs' He).
    + cbn [bind]. unfold range_combos. cbn [flat_map]. now rewrite app_nil_r.
    + intros k E. apply Hc. apply (next_low rest _ Hcomma). exists 44, k. split; [exact E|left; reflexivity].
  - destruct (hand_reads p cs hands i _ t _ HL Hs (low_ends text) (term_low _ _ _ Ht)) as (i' & -> & Hs' & He). cbn [bind negb].
    destruct (parse_char_yes cs i' ","%char (low rest ++ [32]) Hs') as [-> Hs2]. cbn [bind].
    rewrite (IH fuel _ (S i') Hs2).
    + unfold range_combos. cbn [flat_map]. now rewrite <- app_assoc.
    + apply term_at_length in Ht. cbn [chars app length] in Ht. lia.
Qed.

Lemma reading_exists_from cs : ~ long_number cs -> forall n text i, (length text < n)%nat -> skipn i cs = low text ++ [32] -> exists ts, reading text ts.
Proof.
  intros HL. induction n as [|n IH]; intros text i Hn Hs; [lia|].
  destruct (hand_runs Debug cs [] i _ HL Hs (low_ends text)) as [(t & r & Ht)|(i' & E)].
  - destruct (hand_reads Debug cs [] i _ t _ HL Hs (low_ends text) Ht) as (i' & _ & Hs' & _).
    apply low_term_at in Ht as (rest & Ht & ->). destruct rest as [|c rest].
    + exists [t]. apply (reading_last text t []); [exact Ht|]. intros (c & k & x & E & _). discriminate E.
    + destruct (N.eq_dec c 44) as [->|Hc].
      * destruct (IH rest (S i')) as (ts & Hts).
        { apply term_at_length in Ht. cbn [length] in Ht. lia. }
        { cbn [low map app] in Hs'. apply skipn_get in Hs' as [_ Hs']. exact Hs'. }
        exists (t :: ts). now apply (reading_more text t rest ts).
      * exists [t]. apply (reading_last text t (c :: rest)); [exact Ht|]. intros (c' & k & x & E & [<-|[]] & Hx). injection E as <- _.
        unfold same_char in Hx. change (char_of_ascii ","%char) with 44 in Hx. lia.
  - exists []. apply reading_none. intros t rest Ht. apply term_low in Ht.
    destruct (hand_reads Debug cs [] i _ t _ HL Hs (low_ends text) Ht) as (i2 & E2 & _). rewrite E in E2. discriminate E2.
Qed.
Lemma reading_exists text : ~ long_number text -> exists ts, reading text ts.
Proof.
  intros HL. apply (reading_exists_from (low text ++ [32])) with (n := S (length text)) (i := 0%nat); [|lia|reflexivity].
  intros H. apply HL. now apply long_number_low.
Qed.

(* ------------------------------------------------------------------------- *)
(** * Meaning *)

Definition complete (t : term) : Prop := complete_shape (t_shape t) /\ weight_of t <= 100.

Lemma reading_complete text ts : reading text ts -> Forall complete ts.
Proof.
  assert (G : forall text t rest, term_at text t rest -> complete t).
  { intros tx t rest Ht. apply term_low in Ht as (HS & k & _ & _ & HW). split; [exact HS|]. exact (weight_val_le _ _ _ HW). }
  induction 1; [constructor| |]; (constructor; [eapply G; eassumption|auto]).
Qed.

Lemma complete_In s w a b w' : complete_shape s -> b < a -> In (a, b, w') (shape_combos s w) <-> w' = w /\ a < 52 /\ denotes s a b.
Proof.
  intros H Hab. destruct s as [c1 c2|r1 r2 q|r1 r2 q|r1 r2 r3 r4 q again]; cbn [shape_combos].
  - exact (shape_combos_In (Exact c1 c2) w a b w' H Hab).
  - exact (shape_combos_In (Plain r1 r2 q) w a b w' H Hab).
  - destruct H as (H1 & H2). now apply plus_In.
  - destruct H as (H1 & H2 & H3 & H4 & HS & _). apply dash_In_gen; auto. destruct HS as [[HE _]|HS]; auto.
Qed.
Lemma complete_wf s w : complete_shape s -> w <= 100 -> Forall wfc (shape_combos s w).
Proof.
  intros H Hw. destruct s as [c1 c2|r1 r2 q|r1 r2 q|r1 r2 r3 r4 q again].
  - exact (shape_combos_wf (Exact c1 c2) w H Hw).
  - exact (shape_combos_wf (Plain r1 r2 q) w H Hw).
  - cbn [shape_combos]. now apply add_combos_plus_wf.
  - cbn [shape_combos]. now apply add_combos_dash_wf.
Qed.
Lemma complete_range_wf ts : Forall complete ts -> Forall wfc (range_combos ts).
Proof.
  intros H. apply Forall_forall. intros c Hc. apply in_flat_map in Hc as (t & Ht & Hc). rewrite Forall_forall in H.
  destruct (H t Ht) as [HS HW]. pose proof (complete_wf _ _ HS HW) as HF. rewrite Forall_forall in HF. auto.
Qed.

Lemma lookup_complete a b w ts : b < a -> Forall complete ts ->
  lookup a b (range_combos ts) = Some w <->
  a < 52 /\ exists before t after, ts = before ++ t :: after /\ denotes (t_shape t) a b /\
    (forall u, In u before -> ~ denotes (t_shape u) a b) /\ w = weight_of t.
Proof.
  intros Hab Hw. induction Hw as [|t ts Ht Hts IH].
  - cbn. split; [discriminate|]. intros (_ & before & t & after & E & _). destruct before; discriminate E.
  - unfold range_combos. cbn [flat_map]. fold (range_combos ts). rewrite lookup_app.
    destruct (lookup a b (shape_combos (t_shape t) (weight_of t))) as [v|] eqn:E.
    + apply lookup_In in E. apply complete_In in E; [|apply Ht|exact Hab]. destruct E as (-> & Ha & HD). split.
      * intros H. injection H as <-. split; [exact Ha|]. exists [], t, ts. repeat split; auto.
      * intros (_ & before & t' & after & E & HD' & Hn & ->). destruct before as [|u before]; cbn [app] in E; injection E as <- ->; [reflexivity|].
        exfalso. apply (Hn t); [left; reflexivity|exact HD].
    + rewrite IH. rewrite lookup_None in E. split.
      * intros (Ha & before & t' & after & -> & HD' & Hn & ->). split; [exact Ha|]. exists (t :: before), t', after.
        split; [reflexivity|]. split; [exact HD'|]. split; [|reflexivity]. intros u [<-|Hu]; [|auto].
        intros HD. apply (E (weight_of t)). apply complete_In; [apply Ht|exact Hab|auto].
      * intros (Ha & before & t' & after & E' & HD' & Hn & ->). split; [exact Ha|].
        destruct before as [|u before]; cbn [app] in E'; injection E' as <- ->.
        -- exfalso. apply (E (weight_of t)). apply complete_In; [apply Ht|exact Hab|auto].
        -- exists before, t', after. repeat split; auto. intros v Hv. apply Hn. right. exact Hv.
Qed.

Lemma any_text lower p text ts : lowers_ascii lower -> ascii_text text -> text <> chars "random" -> ~ long_number text -> reading text ts ->
  exists hands, from_string lower p text = Ret hands /\
    forall a b w, In (a, b, w) hands <-> b < a /\ is_card a /\
      exists before t after, ts = before ++ t :: after /\ denotes (t_shape t) a b /\
        (forall u, In u before -> ~ denotes (t_shape u) a b) /\ w = weight_of t.
Proof.
  intros HL HA HR HN Hts. exists (remove_duplicates (range_combos ts)). split.
  - unfold from_string. rewrite not_random_eqb by exact HR. rewrite (HL text HA). fold (low text). unfold parse_lowered. cbv zeta.
    change (char_of_ascii " "%char) with 32. rewrite (loop_reads p _) with (text := text) (ts := ts); [reflexivity| |exact Hts|reflexivity|].
    + intros H. apply HN. now apply long_number_low.
    + unfold low. rewrite app_length, map_length. cbn [length]. lia.
  - intros a b w. pose proof (reading_complete text ts Hts) as Hw.
    destruct (remove_duplicates_spec _ (complete_range_wf ts Hw)) as (HS & HF & HK). split.
    + intros Hin. assert (Hab : b < a). { rewrite Forall_forall in HF. apply HF in Hin. unfold wfc, c_1, c_2 in Hin. apply Hin. }
      apply (sorted_lookup _ _ _ _ HS) in Hin. rewrite HK in Hin. apply lookup_complete in Hin; [|exact Hab|exact Hw]. unfold is_card. tauto.
    + intros (Hab & Ha & H). apply lookup_In. rewrite HK. apply lookup_complete; [exact Hab|exact Hw|]. auto.
Qed.

(* used by the examples *)
Lemma no_term text i' : parse_hand Debug (low text ++ [32]) [] 0 = Ret (false, [], i') -> ~ long_number text -> forall t rest, ~ term_at text t rest.
Proof.
  intros E HL t rest Ht. apply term_low in Ht.
  assert (HN : ~ long_number (low text ++ [32])) by (intros H; apply HL; now apply long_number_low).
  destruct (hand_reads Debug (low text ++ [32]) [] 0 _ t _ HN eq_refl (low_ends text) Ht) as (i2 & E2 & _).
  rewrite E in E2. discriminate E2.
Qed.
