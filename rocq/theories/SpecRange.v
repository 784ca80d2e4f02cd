(* Specification: range notation.  Terms, the text they are written as, and the hands they
   denote.  Independent of the model's parser. *)
From Verif Require Import Base SpecPoker SpecNames SpecText.
Local Open Scope N_scope.

Inductive qual := AnySuits | SuitedOnly | OffsuitOnly.

Inductive shape :=
| Exact (c1 c2 : N)                                  (* AsKd *)
| Plain (r1 r2 : N) (q : qual)                       (* QQ, AK, AKs, AKo *)
| Plus (r1 r2 : N) (q : qual)                        (* QQ+, A9s+ *)
| Dash (r1 r2 r3 r4 : N) (q : qual) (again : bool).  (* QQ-99, A9s-A5s, A9s-A5 *)

(* a term with an optional weight, written with the given decimal digits *)
Record term := { t_shape : shape; t_weight : option (list N) }.

(* ------------------------------------------------------------------------- *)
(** * Text *)

Definition qual_text (q : qual) : list char :=
  match q with AnySuits => [] | SuitedOnly => chars "s" | OffsuitOnly => chars "o" end.
Definition ranks_text (r1 r2 : N) : list char := [rank_char r1; rank_char r2].

Definition shape_text (s : shape) : list char :=
  match s with
  | Exact c1 c2 => card_name c1 ++ card_name c2
  | Plain r1 r2 q => ranks_text r1 r2 ++ qual_text q
  | Plus r1 r2 q => ranks_text r1 r2 ++ qual_text q ++ chars "+"
  | Dash r1 r2 r3 r4 q again =>
      ranks_text r1 r2 ++ qual_text q ++ chars "-" ++ ranks_text r3 r4 ++ (if again then qual_text q else [])
  end.
Definition digit_char (d : N) : char := 48 + d.
Definition weight_text (w : option (list N)) : list char :=
  match w with None => [] | Some ds => chars "@" ++ map digit_char ds end.
Definition term_text (t : term) : list char := shape_text (t_shape t) ++ weight_text (t_weight t).

(* terms separated by commas *)
Fixpoint range_text (ts : list term) : list char :=
  match ts with
  | [] => []
  | [t] => term_text t
  | t :: ts' => term_text t ++ chars "," ++ range_text ts'
  end.

(* the text is this one up to the case of letters *)
Definition reads_as (text canonical : list char) : Prop := Forall2 same_char text canonical.

(* ------------------------------------------------------------------------- *)
(** * Meaning *)

Definition decimal (ds : list N) : N := fold_left (fun n d => 10 * n + d) ds 0.
Definition weight_of (t : term) : N := match t_weight t with None => 100 | Some ds => decimal ds end.

Definition suits_allowed (q : qual) (a b : N) : Prop :=
  match q with
  | AnySuits => True
  | SuitedOnly => suit_of a = suit_of b
  | OffsuitOnly => suit_of a <> suit_of b
  end.
Definition two_are (a b x y : N) : Prop := a = x /\ b = y \/ a = y /\ b = x.
Definition ranks_are (a b x y : N) : Prop := two_are (rank_of a) (rank_of b) x y.

(* y and z on the same side of x *)
Definition one_side (x y z : N) : Prop := y < x /\ z < x \/ x < y /\ x < z.

Definition denotes (s : shape) (a b : N) : Prop :=
  match s with
  | Exact c1 c2 => two_are a b c1 c2
  | Plain r1 r2 q => ranks_are a b r1 r2 /\ suits_allowed q a b
  | Plus r1 r2 q =>
      suits_allowed q a b /\
      (r1 = r2 /\ (exists r, r1 <= r /\ ranks_are a b r r) \/
       r1 <> r2 /\ (exists k, r2 <= k /\ k < r1 /\ ranks_are a b r1 k))
  | Dash r1 r2 r3 r4 q _ =>
      suits_allowed q a b /\
      (r1 = r2 /\ (exists r, r3 <= r /\ r <= r1 /\ ranks_are a b r r) \/
       r1 <> r2 /\ (exists x y z k, two_are r1 r2 x y /\ two_are r3 r4 x z /\
                      (y <= k /\ k <= z \/ z <= k /\ k <= y) /\ ranks_are a b x k))
  end.

(* ------------------------------------------------------------------------- *)
(** * Well-formed terms *)

Definition is_rank (r : N) : Prop := r < 13.

Definition well_formed_shape (s : shape) : Prop :=
  match s with
  | Exact c1 c2 => hole c1 c2
  | Plain r1 r2 _ => is_rank r1 /\ is_rank r2
  | Plus r1 r2 _ => is_rank r1 /\ is_rank r2 /\ r2 <= r1
  | Dash r1 r2 r3 r4 _ _ =>
      is_rank r1 /\ is_rank r2 /\ is_rank r3 /\ is_rank r4 /\
      (r1 = r2 /\ r3 = r4 /\ r3 <= r1 \/
       exists x y z, two_are r1 r2 x y /\ two_are r3 r4 x z /\ one_side x y z)
  end.
Definition well_formed_weight (w : option (list N)) : Prop :=
  match w with None => True | Some ds => ds <> [] /\ Forall (fun d => d < 10) ds /\ decimal ds <= 100 end.
Definition well_formed (t : term) : Prop := well_formed_shape (t_shape t) /\ well_formed_weight (t_weight t).

(* ------------------------------------------------------------------------- *)
(** * Order, long numbers, conflicts *)

(* higher card's rank, then lower card's rank, then their suits *)
Definition hand_before (x y : N * N) : Prop :=
  lex [rank_of (fst x); rank_of (snd x); suit_of (fst x); suit_of (snd x)]
      [rank_of (fst y); rank_of (snd y); suit_of (fst y); suit_of (snd y)] = Lt.

(* ten decimal digits in a row *)
Definition is_digit (c : char) : Prop := 48 <= c /\ c <= 57.
Definition long_number (text : list char) : Prop :=
  exists i, forall j, (j < 10)%nat -> is_digit (nth (i + j) text 0).

(* a hand that uses no card of the mask *)
Definition avoids (mask a b : N) : bool := negb (N.testbit mask a) && negb (N.testbit mask b).
