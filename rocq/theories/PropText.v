(* C16-C20: cards and masks as text. *)
From Verif Require Import Base Range SpecPoker SpecNames SpecText TextProofs.
From Coq Require Import Permutation.
Local Open Scope N_scope.

(* The standard library's to_lowercase and is_whitespace are parameters: the theorems ask
   only that the first lowers ASCII text letter by letter and that the second holds of no
   rank character.  On ASCII text the following functions are those of the library. *)
Definition ascii_ws (c : char) : bool := (c =? 32) || (9 <=? c) && (c <=? 13).
Example lowers_ascii_met : lowers_ascii (map ascii_lower).
Proof. intros text _. reflexivity. Qed.
Example not_ranks_met : not_ranks ascii_ws.
Proof.
  intros c r Hr Hs. assert (48 <= rank_char r <= 90).
  { assert (E : forallb (fun r => (48 <=? rank_char r) && (rank_char r <=? 90)) (nseq 0 13) = true) by (vm_compute; reflexivity).
    apply forallb_forall with (x := r) in E; [|apply BaseProofs.nseq_In; lia].
    apply andb_true_iff in E. rewrite !N.leb_le in E. exact E. }
  unfold ascii_ws, same_char in *. apply orb_false_iff. rewrite N.eqb_neq, andb_false_iff, !N.leb_gt. lia.
Qed.

(* C16: printing a mask and parsing it back gives its card bits *)
Theorem C16_mask_roundtrip : forall lower m, lowers_ascii lower ->
  exists s, mask_to_string m = Ret s /\ get_card_mask lower s = m mod 2 ^ 52.
Proof. exact mask_roundtrip. Qed.
Theorem C16_high_bits_ignored : forall m, exists s, mask_to_string m = Ret s /\ mask_to_string (m mod 2 ^ 52) = Ret s.
Proof. exact mask_to_string_high. Qed.
Example C16_example : mask_to_string (2 ^ 60 + 2 ^ 51 + 2 ^ 5) = Ret (chars "3hAd") /\
  get_card_mask (map ascii_lower) (chars "3hAd") = 2 ^ 51 + 2 ^ 5.
Proof. vm_compute. auto. Qed.

(* C17: a concatenation of card names, in any case, gives exactly these cards; any other
   text gives the empty mask *)
Theorem C17_card_mask : forall lower text, lowers_ascii lower -> ascii_text text ->
  (forall l, Forall is_card l -> spells text l -> forall c, N.testbit (get_card_mask lower text) c = true <-> In c l) /\
  ((forall l, Forall is_card l -> ~ spells text l) -> get_card_mask lower text = 0).
Proof. exact card_mask_spec. Qed.
(* the same for text that is not ASCII, in terms of its lowered form *)
Theorem C17_any_text : forall lower text,
  (exists l, Forall is_card l /\ lower text = map ascii_lower (flat_map card_name l) /\
     forall c, N.testbit (get_card_mask lower text) c = true <-> In c l) \/
  (get_card_mask lower text = 0 /\ forall l, Forall is_card l -> lower text <> map ascii_lower (flat_map card_name l)).
Proof. exact get_card_mask_gen. Qed.
Example C17_example : spells (chars "aSTd") [48; 35] /\ get_card_mask_ascii (chars "aSTd") = 2 ^ 48 + 2 ^ 35 /\
  get_card_mask_ascii (chars "As,Td") = 0 /\ get_card_mask_ascii (chars "AsT") = 0.
Proof.
  split; [|vm_compute; auto]. apply Forall2_same_map. vm_compute. reflexivity.
Qed.

(* C18 is false: text that names no card gives a card number, in both profiles ("2S": 255)
   and even that of another card in a build without overflow checks ("AS": king of
   diamonds). *)
Theorem C18_refuted :
  (forall p, card_from_str p (chars "2S") = Ret (ROk 255)) /\
  card_from_str Release (chars "AS") = Ret (ROk 47) /\ card_to_string 47 = Ret (chars "Kd") /\
  card_from_str Debug (chars "AS") = Fail Overflow /\ card_from_str Release (chars "??") = Ret (ROk 251).
Proof. split; [intros []|]; vm_compute; auto. Qed.
(* What holds: card names are read correctly, and in a checked build a number below 52 is
   returned for card names only. *)
Theorem C18_names_read : forall p text c, short_name text c -> card_from_str p text = Ret (ROk c).
Proof. exact short_name_str. Qed.
Theorem C18_printed_names : forall c, is_card c -> card_to_string c = Ret (card_name c) /\ short_name (card_name c) c.
Proof. intros c H. exact (conj (card_to_string_spec c H) (card_name_short c H)). Qed.
Theorem C18_checked : forall text c, card_from_str Debug text = Ret (ROk c) -> is_card c -> short_name text c.
Proof. exact checked_card. Qed.
Example C18_example : short_name (chars "td") 35 /\ card_from_str Debug (chars "td") = Ret (ROk 35).
Proof. split; [|vm_compute; reflexivity]. split; [reflexivity|]. exists 116. split; [reflexivity|].
  right. right. vm_compute. intuition discriminate. Qed.

(* C19: three card names, white space between them *)
Theorem C19_flop : forall p is_ws a b c n1 n2 n3 w1 w2 tail,
  not_ranks is_ws -> short_name n1 a -> short_name n2 b -> short_name n3 c ->
  forallb is_ws w1 = true -> forallb is_ws w2 = true ->
  exists r, flop_from_str is_ws p (n1 ++ w1 ++ n2 ++ w2 ++ n3 ++ tail) = Ret r /\
    (tail <> [] -> exists e, r = RErr e) /\
    (tail = [] -> NoDup [a; b; c] -> exists x y z, r = ROk [x; y; z] /\ x < y /\ y < z /\ Permutation [a; b; c] [x; y; z]) /\
    (tail = [] -> ~ NoDup [a; b; c] -> exists e, r = RErr e).
Proof. exact flop_spec. Qed.
Example C19_example :
  flop_from_str ascii_ws Debug (chars "Ad  2s" ++ [10] ++ chars "kh") = Ret (ROk [0; 45; 51]) /\
  flop_from_str ascii_ws Debug (chars "Ad2sAd") = Ret (RErr CardsNotUnique) /\
  flop_from_str ascii_ws Debug (chars "Ad2skh ") = Ret (RErr ExpectedThreeCards).
Proof. vm_compute. auto. Qed.

(* C20: two hole cards print as the lower then the higher card, whatever their order *)
Theorem C20_hole_text : forall lower p a b, lowers_ascii lower -> is_card a -> is_card b -> a < b ->
  exists s, hole_to_string p (a, b) = Ret s /\ hole_to_string p (b, a) = Ret s /\
    s = card_name a ++ card_name b /\ get_card_mask lower s = 2 ^ a + 2 ^ b.
Proof. exact hole_text. Qed.
Example C20_example : hole_to_string Debug (51, 0) = Ret (chars "2sAd").
Proof. vm_compute. reflexivity. Qed.

Print Assumptions C16_mask_roundtrip.
Print Assumptions C16_high_bits_ignored.
Print Assumptions C17_card_mask.
Print Assumptions C17_any_text.
Print Assumptions C18_refuted.
Print Assumptions C18_names_read.
Print Assumptions C18_printed_names.
Print Assumptions C18_checked.
Print Assumptions C19_flop.
Print Assumptions C20_hole_text.
