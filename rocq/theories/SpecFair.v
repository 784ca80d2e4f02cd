(* Specification: which choices of an approximate run lead to which deal and board. *)
From Verif Require Import Base Float64 Hand Range FastDivide Combined Sim Approx SpecPoker SpecNames SpecHand SpecEquity SpecResults SpecRun SpecApprox.
From Coq Require Import Permutation.
Local Open Scope N_scope.

(* A choice names one combo of every combined range by its position. *)
Definition choices (m : simulator) : list (list nat) :=
  picks (map (fun cr => seq 0 (length (cr_combos cr))) (m_combined m)).
(* the hands a choice gives to the players of one combined range *)
Definition given (cr : crange) (j : nat) : list (nat * whand) :=
  match nth_error (cr_combos cr) j with
  | Some c => combine (firstn (cr_player_count cr) (cr_players cr)) (firstn (cr_player_count cr) (cc_hole c))
  | None => []
  end.
Definition all_given (m : simulator) (v : list nat) : list (nat * whand) :=
  flat_map (fun x => given (fst x) (snd x)) (combine (m_combined m) v).
Definition hand_at (l : list (nat * whand)) (i : nat) : whand :=
  match find (fun x => (fst x =? i)%nat) l with Some x => snd x | None => (0, 0, 0) end.
(* the deal, player by player *)
Definition choice_deal (m : simulator) (v : list nat) : list whand :=
  map (hand_at (all_given m v)) (seq 0 (m_n_players m)).
Definition legal_choice (m : simulator) (board dead : N) (v : list nat) : bool := possible board dead (choice_deal m v).
Definition legal_choices (m : simulator) (board dead : N) : list (list nat) := filter (legal_choice m board dead) (choices m).

(* the cards and the weights a thread evaluates are those of the deal d *)
Definition walk_holds (p : profile) (w : walk) (d : list whand) : Prop :=
  forall i h, nth_error d i = Some h ->
    (exists x, from_hole_cards p (first_card h) (second_card h) = Ret x /\ nth_error (w_hands w) i = Some x) /\
    (exists k, get_card_index p (first_card h) (second_card h) = Ret k /\ nth_error (w_lookup w) i = Some (1326 * i + N.to_nat k)%nat) /\
    nth_error (w_weights w) i = Some (weight h).
(* the thread has made the choice v *)
Definition walk_at (p : profile) (m : simulator) (board dead : N) (w : walk) (v : list nat) : Prop :=
  In v (legal_choices m board dead) /\ firstn (length (m_combined m)) (w_indexes w) = v /\ walk_holds p w (choice_deal m v).

(* the choice made by the next samples of a stream, one sample per combined range *)
Fixpoint sampled_choice (crs : list crange) (r : rng) : list nat :=
  match crs with
  | [] => []
  | cr :: crs' => N.to_nat (draws r (drawn r) mod cr_size cr) :: sampled_choice crs' {| draws := draws r; drawn := drawn r + 1 |}
  end.
Definition later (r : rng) (k : nat) : rng := {| draws := draws r; drawn := drawn r + N.of_nat k |}.
(* Up to so many attempts are made; the first whose sampled choice is legal takes this
   choice, each other one is given up after at least one sample. *)
Inductive attempts (m : simulator) (board dead : N) : nat -> rng -> option (list nat) -> rng -> Prop :=
| no_attempt r : attempts m board dead 0 r None r
| attempt_taken tries r : legal_choice m board dead (sampled_choice (m_combined m) r) = true ->
    attempts m board dead (S tries) r (Some (sampled_choice (m_combined m) r)) (later r (length (m_combined m)))
| attempt_given_up tries r k o r' : legal_choice m board dead (sampled_choice (m_combined m) r) = false -> (1 <= k <= length (m_combined m))%nat ->
    attempts m board dead tries (later r k) o r' -> attempts m board dead (S tries) r o r'.

(* A step in the i-th combined range: the combos below the chosen one are tried one after
   the other, from the first back to the last, until the choice is legal. *)
Definition step_choice (m : simulator) (board dead : N) (v : list nat) (i : nat) : list nat :=
  match nth_error (m_combined m) i, nth_error v i with
  | Some cr, Some j =>
      let size := length (cr_combos cr) in
      match find (legal_choice m board dead) (map (fun k => set_nth v i ((j + size - k) mod size)%nat) (seq 1 size)) with
      | Some v' => v'
      | None => v
      end
  | _, _ => v
  end.
(* the choice after steps in the combined ranges is, one after the other *)
Definition walk_choice (m : simulator) (board dead : N) (v : list nat) (is : list nat) : list nat :=
  fold_left (step_choice m board dead) is v.
Definition choice_eqb (a b : list nat) : bool := if list_eq_dec Nat.eq_dec a b then true else false.
(* all sequences of t combined ranges *)
Definition paths (m : simulator) (t : nat) : list (list nat) := picks (repeat (seq 0 (length (m_combined m))) t).

(* The first k different cards of a list of samples which are not seen already; None if
   there are not enough. *)
Fixpoint first_new (k : nat) (seen : N -> bool) (xs : list N) : option (list N) :=
  match k, xs with
  | O, _ => Some []
  | S _, [] => None
  | S k', x :: xs' =>
      if seen x then first_new k seen xs'
      else match first_new k' (fun c => (c =? x) || seen c) xs' with Some l => Some (x :: l) | None => None end
  end.
Definition cards_eqb (a : option (list N)) (b : list N) : bool :=
  match a with Some l => if list_eq_dec N.eq_dec l b then true else false | None => false end.
(* all sequences of t samples of cards *)
Definition card_samples (t : nat) : list (list N) := picks (repeat (nseq 0 52) t).
(* how many sequences of t samples complete the board with the cards l, in this order *)
Definition ways (t : nat) (seen : N -> bool) (l : list N) : nat :=
  length (filter (fun xs => cards_eqb (first_new (length l) seen xs) l) (card_samples t)).
(* the cards which are not unseen *)
Definition taken_cards (board dead : N) (d : list whand) (c : N) : bool := on_table board dead c || existsb (N.eqb c) (dealt d).
Definition stream (r : rng) (t : nat) : list N := map (fun i => draws r (drawn r + N.of_nat i) mod 52) (seq 0 t).

(* the given board and the cards l added to it one by one *)
Definition board_with (board : N) (l : list N) : hexpr := fold_left (fun e c => EAdd e (ECard c)) l (EMask board).
(* the hands of the thread are compared on the board b and counted with their weight *)
Definition evaluated (p : profile) (m : simulator) (w : walk) (b : hand) (st : stats) : outcome stats :=
  weight <- foldM (fun acc c => mul_ 64 p acc c) (w_weights w) 1 ;;
  evaluate_hands p (m_n_players m) (w_hands w) (w_lookup w) weight b true st.

(* the sequences of k cards of l without repetition *)
Fixpoint arrangements (k : nat) (l : list N) : list (list N) :=
  match k with
  | O => [[]]
  | S k' => flat_map (fun x => map (cons x) (arrangements k' (remove N.eq_dec x l))) l
  end.
(* all choices and board sequences, each taken once *)
Definition all_samples (m : simulator) (board dead : N) : list sample_of :=
  flat_map (fun v => map (fun l => (choice_deal m v, mask_cards board ++ l))
    (arrangements (5 - length (mask_cards board)) (unseen board dead (choice_deal m v)))) (legal_choices m board dead).
