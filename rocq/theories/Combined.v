(* Model of src/equity_calculator/combined_range.rs. *)
From Verif Require Import Base Hand Range.
Local Open Scope N_scope.

Definition MAX_PLAYERS : nat := 9.        (* combined_range.rs:7, simulator.rs:26 *)
Definition MAX_SIZE : N := 10000.         (* combined_range.rs:10 *)

(* combined_range.rs:14-21 *)
Record ccombo := mkCC {
  cc_mask : N;
  cc_hands : list hand;          (* [Hand; MAX_PLAYERS] *)
  cc_hole : list combo           (* [(u8, u8, u8); MAX_PLAYERS] *)
}.

(* combined_range.rs:24-30 *)
Definition cc_new : ccombo :=
  {| cc_mask := 0; cc_hands := repeat hand_default MAX_PLAYERS;
     cc_hole := repeat (52, 52, 0) MAX_PLAYERS |}.

(* combined_range.rs:35-41 *)
Record crange := mkCR {
  cr_player_count : nat;
  cr_players : list nat;         (* [usize; MAX_PLAYERS] *)
  cr_combos : list ccombo;
  cr_size : N
}.

(* combined_range.rs:43-52 *)
Definition cr_default : crange :=
  {| cr_player_count := 0; cr_players := repeat 0%nat MAX_PLAYERS; cr_combos := []; cr_size := 0 |}.

Definition lenN {A} (l : list A) : N := N.of_nat (length l).

(* combined_range.rs:62-68, the body of the loop *)
Definition ccombo_of (p : profile) (r : combo) : outcome ccombo :=
  a <- shl_ 64 p 1 (c_1 r) ;;
  b <- shl_ 64 p 1 (c_2 r) ;;
  h <- from_hole_cards p (c_1 r) (c_2 r) ;;
  hands <- upd (cc_hands cc_new) 0 h ;;
  hole <- upd (cc_hole cc_new) 0 r ;;
  Ret {| cc_mask := N.lor a b; cc_hands := hands; cc_hole := hole |}.

(* combined_range.rs:58-71 *)
Definition from_range (p : profile) (range : list combo) (player_idx : nat) : outcome crange :=
  players <- upd (cr_players cr_default) 0 player_idx ;;
  combos <- mapM (ccombo_of p) range ;;
  Ret {| cr_player_count := 1; cr_players := players; cr_combos := combos; cr_size := lenN combos |}.

(* dst[off + i] = src[i] for i in 0..n  (combined_range.rs:108-113 and 122-127) *)
Definition copy_into {A} (src : list A) (off n : nat) (dst : list A) : outcome (list A) :=
  foldM (fun d i => x <- get src i ;; upd d (off + i) x) (seq 0 n) dst.

(* combined_range.rs:115-134, one pair of combos; None when they share a card *)
Definition join_combo (p : profile) (n1 n2 : nat) (c1 c2 : ccombo) : outcome (option ccombo) :=
  if negb (N.land (cc_mask c1) (cc_mask c2) =? 0) then Ret None
  else
    hole <- copy_into (cc_hole c1) 0 n1 (cc_hole cc_new) ;;
    hole <- copy_into (cc_hole c2) n1 n2 hole ;;
    hands <- foldM (fun hs i =>
                      x <- get hole i ;;
                      h <- from_hole_cards p (c_1 x) (c_2 x) ;;
                      upd hs i h) (seq 0 (n1 + n2)) (cc_hands cc_new) ;;
    Ret (Some {| cc_mask := N.lor (cc_mask c1) (cc_mask c2); cc_hands := hands; cc_hole := hole |}).

(* combined_range.rs:105-137 *)
Definition join (p : profile) (self other : crange) : outcome crange :=
  let n1 := cr_player_count self in
  let n2 := cr_player_count other in
  players <- copy_into (cr_players self) 0 n1 (cr_players cr_default) ;;
  players <- copy_into (cr_players other) n1 n2 players ;;
  combos <- foldM (fun acc c1 =>
              foldM (fun acc c2 =>
                o <- join_combo p n1 n2 c1 c2 ;;
                Ret (match o with Some c => acc ++ [c] | None => acc end))
                (cr_combos other) acc)
              (cr_combos self) [] ;;
  Ret {| cr_player_count := n1 + n2; cr_players := players; cr_combos := combos;
         cr_size := lenN combos |}.

(* combined_range.rs:138-148; a u64 counter of at most 2^64 pairs (simplification: the
   counter cannot overflow before memory is exhausted, so no wrap is modelled) *)
Definition estimate_join_size (self other : crange) : N :=
  fold_left (fun size c1 =>
    fold_left (fun size c2 => if N.land (cc_mask c1) (cc_mask c2) =? 0 then size + 1 else size)
              (cr_combos other) size)
    (cr_combos self) 0.

(* combined_range.rs:81-93: the pair (i, j), j < i, with the smallest join size (first one
   on ties); (u64::MAX, 0, 0) if there is no pair *)
Definition best_pair (l : list crange) : outcome (N * nat * nat) :=
  foldM (fun best i =>
    foldM (fun '(best_size, best_i, best_j) j =>
      ci <- get l i ;;
      cj <- get l j ;;
      let s := estimate_join_size ci cj in
      Ret (if s <? best_size then (s, i, j) else (best_size, best_i, best_j)))
      (seq 0 i) best)
    (seq 0 (length l)) (U64MAX, 0%nat, 0%nat).

(* Vec::remove *)
Fixpoint remove_nth {A} (l : list A) (i : nat) : list A :=
  match l, i with
  | [], _ => []
  | _ :: l', O => l'
  | x :: l', S i' => x :: remove_nth l' i'
  end.

(* combined_range.rs:80-101; each round removes one element, so S (length) rounds suffice *)
Fixpoint join_loop (p : profile) (fuel : nat) (l : list crange) : outcome (list crange) :=
  match fuel with
  | O => Fail OutOfFuel
  | S fuel' =>
      '(best_size, best_i, best_j) <- best_pair l ;;
      if best_size <? MAX_SIZE then
        cj <- get l best_j ;;
        ci <- get l best_i ;;
        j <- join p cj ci ;;
        l' <- upd l best_j j ;;
        join_loop p fuel' (remove_nth l' best_i)
      else Ret l
  end.

(* combined_range.rs:73-103 *)
Definition from_ranges (p : profile) (ranges : list (list combo)) : outcome (list crange) :=
  cs <- mapM (fun '(i, r) => from_range p r i) (combine (seq 0 (length ranges)) ranges) ;;
  join_loop p (S (length cs)) cs.
