(* Specification: ranges written out hand by hand, and term lists with the same meaning. *)
From Verif Require Import Base SpecPoker SpecNames SpecText SpecRange.
Local Open Scope N_scope.

(* a weight in decimal *)
Definition digits (w : N) : list N := if w <? 10 then [w] else if w <? 100 then [w / 10; w mod 10] else [w / 100; w / 10 mod 10; w mod 10].
(* AsKd@50 *)
Definition hand_text (h : N * N * N) : list char :=
  card_name (fst (fst h)) ++ card_name (snd (fst h)) ++ chars "@" ++ map digit_char (digits (snd h)).
(* hands separated by commas *)
Fixpoint written (hands : list (N * N * N)) : list char :=
  match hands with
  | [] => []
  | [h] => hand_text h
  | h :: hands' => hand_text h ++ chars "," ++ written hands'
  end.
(* a range as from_string returns it: the higher card first *)
Definition written_hand (h : N * N * N) : Prop := is_card (fst (fst h)) /\ snd (fst h) < fst (fst h) /\ snd h <= 100.

(* the weight the terms give to a hand: that of the first term which denotes it *)
Fixpoint gives (ts : list term) (a b w : N) : Prop :=
  match ts with
  | [] => False
  | t :: ts' => denotes (t_shape t) a b /\ w = weight_of t \/ ~ denotes (t_shape t) a b /\ gives ts' a b w
  end.
Definition same_meaning (ts ts' : list term) : Prop := forall a b w, b < a -> is_card a -> (gives ts a b w <-> gives ts' a b w).

(* two terms agree when no hand gets different weights from them *)
Definition agree (t u : term) : Prop := weight_of t = weight_of u \/ forall a b, b < a -> is_card a -> ~ (denotes (t_shape t) a b /\ denotes (t_shape u) a b).

(* a term and the simpler terms it abbreviates *)
Definition weighted (w : option (list N)) (ss : list shape) : list term := map (fun s => {| t_shape := s; t_weight := w |}) ss.
Inductive abbreviates : shape -> list shape -> Prop :=
| both_suits r1 r2 : abbreviates (Plain r1 r2 AnySuits) [Plain r1 r2 SuitedOnly; Plain r1 r2 OffsuitOnly]            (* AK = AKs,AKo *)
| other_order r1 r2 q : abbreviates (Plain r1 r2 q) [Plain r2 r1 q]                                                   (* KAs = AKs *)
| pairs_up r q : abbreviates (Plus r r q) (map (fun k => Plain k k q) (filter (fun k => r <=? k) all_ranks))            (* QQ+ = AA,KK,QQ *)
| kickers_up r1 r2 q : r2 < r1 ->                                                                                     (* KTs+ = KQs,KJs,KTs *)
    abbreviates (Plus r1 r2 q) (map (fun k => Plain r1 k q) (filter (fun k => (r2 <=? k) && (k <? r1)) all_ranks))
| pairs_between r s q again : s <= r ->                                                                               (* QQ-TT = QQ,JJ,TT *)
    abbreviates (Dash r r s s q again) (map (fun k => Plain k k q) (filter (fun k => (s <=? k) && (k <=? r)) all_ranks))
| kickers_between x y z q again : one_side x y z ->                                                                   (* A9s-A7s = A9s,A8s,A7s *)
    abbreviates (Dash x y x z q again) (map (fun k => Plain x k q) (filter (fun k => (N.min y z <=? k) && (k <=? N.max y z)) all_ranks)).
