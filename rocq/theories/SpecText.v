(* Specification: card names as text.  Independent of the model's parsers. *)
From Verif Require Import Base SpecPoker SpecNames.
Local Open Scope N_scope.

(* the same character up to the case of an ASCII letter *)
Definition same_char (x y : char) : Prop :=
  x = y \/ 65 <= x <= 90 /\ y = x + 32 \/ 65 <= y <= 90 /\ x = y + 32.

(* the text is the names of the cards l one after the other, in any case *)
Definition spells (text : list char) (l : list N) : Prop :=
  Forall2 same_char text (flat_map card_name l).

Definition ascii_text (text : list char) : Prop := Forall (fun c => c < 128) text.

(* what the standard library's to_lowercase does to ASCII text *)
Definition ascii_lower (c : char) : char := if (65 <=? c) && (c <=? 90) then c + 32 else c.
Definition lowers_ascii (lower : list char -> list char) : Prop :=
  forall text, ascii_text text -> lower text = map ascii_lower text.

(* a card name with the rank in either case and the suit in lower case *)
Definition short_name (text : list char) (c : N) : Prop :=
  is_card c /\ exists r, text = [r; suit_char (suit_of c)] /\ same_char r (rank_char (rank_of c)).

(* white space: no rank character is white space *)
Definition not_ranks (is_ws : char -> bool) : Prop :=
  forall c r, r < 13 -> same_char c (rank_char r) -> is_ws c = false.
