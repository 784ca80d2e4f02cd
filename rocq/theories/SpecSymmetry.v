(* Specification: changes of the arguments whose effect on exact results is known. *)
From Verif Require Import Base Float64 Hand Range FastDivide Combined Sim SpecPoker SpecNames SpecHand SpecEquity SpecResults SpecRun.
Local Open Scope N_scope.

(* the same cards with renamed suits *)
Definition rename_hand (f : N -> N) (h : whand) : whand := (rename_suits f (first_card h), rename_suits f (second_card h), weight h).
Definition renamed_mask (f : N -> N) (m m' : N) : Prop := forall c, c < 52 -> N.testbit m' (rename_suits f c) = N.testbit m c.

(* the weights of the hands of each player multiplied by a number *)
Definition times (k : N) (h : whand) : whand := (first_card h, second_card h, k * weight h).
Fixpoint scaled (ks : list N) (ranges : list (list whand)) : list (list whand) :=
  match ks, ranges with
  | k :: ks', r :: ranges' => map (times k) r :: scaled ks' ranges'
  | _, _ => []
  end.

(* the range of player i replaced *)
Definition replaced (ranges : list (list whand)) (i : nat) (r : list whand) : list (list whand) :=
  firstn i ranges ++ r :: skipn (S i) ranges.

(* the hand can be dealt at all *)
Definition usable_hand (board dead : N) (h : whand) : bool := negb (on_table board dead (first_card h)) && negb (on_table board dead (second_card h)).

(* a run of exact_equity to the end *)
Definition completes (p : profile) (ranges : list (list whand)) (board dead : N) (o : observed) : Prop :=
  exists threads sched, (0 < threads)%nat /\ ~ In Cancel sched /\ exact_equity p ranges board dead threads false sched = Ret (ROk o).

(* the integer counters of the results: of a set of winners, of a single winner, and of the
   wins, ties and total of a hand of a player *)
Inductive figure := Winners (m : N) | Winner (i : nat) | Wins (i : nat) (a b : N) | Ties (i : nat) (a b : N) | Total (i : nat) (a b : N).
Definition has_figure (n : nat) (c : figure) : Prop :=
  match c with
  | Winners m => m < 2 ^ N.of_nat n
  | Winner i => (i < n)%nat
  | Wins i a b | Ties i a b | Total i a b => (i < n)%nat /\ hole a b
  end.
Definition of_hand (p : profile) (r : results) (i : nat) (a b : N) : option unit_results :=
  match get_card_index p a b with Ret k => nth_error (r_hand_results r) (1326 * i + N.to_nat k) | Fail _ => None end.
Definition figure_of (p : profile) (o : observed) (c : figure) : option N :=
  let r := o_results o in
  match c with
  | Winners m => nth_error (r_wins_by_mask r) (N.to_nat m)
  | Winner i => nth_error (r_wins r) i
  | Wins i a b => option_map u_wins (of_hand p r i a b)
  | Ties i a b => option_map u_ties (of_hand p r i a b)
  | Total i a b => option_map u_total (of_hand p r i a b)
  end.
Definition rename_figure (f : N -> N) (c : figure) : figure :=
  match c with
  | Wins i a b => Wins i (rename_suits f a) (rename_suits f b)
  | Ties i a b => Ties i (rename_suits f a) (rename_suits f b)
  | Total i a b => Total i (rename_suits f a) (rename_suits f b)
  | _ => c
  end.
