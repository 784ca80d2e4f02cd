(* Specification: how any ASCII text is read as a list of terms, well formed or not. *)
From Verif Require Import Base SpecPoker SpecNames SpecText SpecRange.
Local Open Scope N_scope.

(* The shapes a text can be read as.  Wider than [well_formed_shape]: 2A+ and 55-99 are read,
   although they denote no hand. *)
Definition complete_shape (s : shape) : Prop :=
  match s with
  | Exact c1 c2 => hole c1 c2
  | Plain r1 r2 _ => is_rank r1 /\ is_rank r2
  | Plus r1 r2 _ => is_rank r1 /\ is_rank r2
  | Dash r1 r2 r3 r4 q again =>
      is_rank r1 /\ is_rank r2 /\ is_rank r3 /\ is_rank r4 /\
      (r1 = r2 /\ r3 = r4 \/ exists x y z, two_are r1 r2 x y /\ two_are r3 r4 x z /\ x <> y /\ x <> z) /\
      (again = true -> q <> AnySuits)
  end.

(* the text goes on with one of these characters, in either case *)
Definition next_in (text : list char) (l : list char) : Prop :=
  exists c rest x, text = c :: rest /\ In x l /\ same_char c x.

(* characters after which the shape is not finished, or not this one *)
Definition goes_on (s : shape) : list char :=
  match s with
  | Exact _ _ | Plus _ _ _ => []
  | Plain _ _ AnySuits => chars "so+-"
  | Plain _ _ _ => chars "+-"
  | Dash _ _ _ _ _ false => chars "so"
  | Dash _ _ _ _ OffsuitOnly true => chars "s"
  | Dash _ _ _ _ _ true => []
  end.

(* what the text after a shape says about its weight, and the text that is left *)
Inductive weight_at : list char -> option (list N) -> list char -> Prop :=
| weight_absent text : ~ next_in text (chars "@") -> weight_at text None text
| weight_given ds rest : Forall (fun d => d < 10) ds -> (forall c r, rest = c :: r -> ~ is_digit c) -> decimal ds <= 100 ->
    weight_at (chars "@" ++ map digit_char ds ++ rest) (Some ds) rest
| weight_above_100 ds rest : Forall (fun d => d < 10) ds -> (forall c r, rest = c :: r -> ~ is_digit c) -> 100 < decimal ds ->
    weight_at (chars "@" ++ map digit_char ds ++ rest) None (map digit_char ds ++ rest).

(* the text starts with this term and goes on with [rest] *)
Definition term_at (text : list char) (t : term) (rest : list char) : Prop :=
  complete_shape (t_shape t) /\
  exists body after, text = body ++ after /\ reads_as body (shape_text (t_shape t)) /\
    ~ next_in after (goes_on (t_shape t)) /\ weight_at after (t_weight t) rest.

(* terms are read as long as a comma follows; the rest is dropped *)
Inductive reading : list char -> list term -> Prop :=
| reading_none text : (forall t rest, ~ term_at text t rest) -> reading text []
| reading_last text t rest : term_at text t rest -> ~ next_in rest (chars ",") -> reading text [t]
| reading_more text t rest ts : term_at text t (chars "," ++ rest) -> reading rest ts -> reading text (t :: ts).
