(* Finite computations about the lookup tables, run by the kernel's virtual machine.
   No theorem about cards here: EvalProofs.v lifts these checks to all hands. *)
From Verif Require Import Base Hand SpecPoker.
From Coq Require Import FMapPositive.
Local Open Scope N_scope.

(* all descending lists of at most n ranks, each rank at most four times *)
Fixpoint multis (rs : list N) (n : nat) : list (list N) :=
  match rs with
  | [] => [[]]
  | r :: rs' => flat_map (fun k => map (app (repeat r k)) (multis rs' (n - k)))
                         (seq 0 (S (Nat.min 4 n)))
  end.

Definition rank_sum (l : list N) : N := fold_right (fun r s => nth (N.to_nat r) RANKS 0 + s) 0 l.
Definition rank_bits (l : list N) : N := fold_right (fun r s => N.lor (N.shiftl 1 r) s) 0 l.

(* the value the code reads for a rank key, and for a flush key *)
Definition nf_value (s : N) : outcome N :=
  offset <- unchecked PERF_HASH_OFFSETS_T (N.shiftr s PERF_HASH_ROW_SHIFT) ;;
  unchecked LOOKUP_T (wrapping_add 32 s offset).
Definition fl_value (s : N) : outcome N := unchecked LOOKUP_FLUSH_T s.

(* a strength as a number: at most six digits below 14 *)
Fixpoint code (n : nat) (l : list N) : N :=
  match n, l with
  | S n', x :: l' => (x + 1) * 14 ^ N.of_nat n' + code n' l'
  | _, _ => 0
  end.

Definition lkey (l : list N) : N := fold_right (fun r s => 16 * s + (r + 1)) 0 l.

Definition memo_of (flush : bool) (ls : list (list N)) : PositiveMap.t N :=
  fold_left (fun m l => PositiveMap.add (N.succ_pos (lkey l)) (code 6 (strength_ranks flush l)) m)
            ls (PositiveMap.empty N).

Notation small_lists := (multis all_ranks 5).
Notation all_lists := (multis all_ranks 7).
Notation flush_fives := (choose 5 all_ranks).
Notation flush_lists := (choose 5 all_ranks ++ choose 6 all_ranks ++ choose 7 all_ranks).

Definition memo_nf : PositiveMap.t N := memo_of false small_lists.
Definition memo_fl : PositiveMap.t N := memo_of true flush_fives.

Definition memo_ok (flush : bool) (m : PositiveMap.t N) (ls : list (list N)) : bool :=
  forallb (fun l => match PositiveMap.find (N.succ_pos (lkey l)) m with
                    | Some c => let s := strength_ranks flush l in
                                (c =? code 6 s) && (length s <=? 6)%nat && forallb (fun x => x <? 13) s
                    | None => false
                    end) ls.

Definition look (m : PositiveMap.t N) (l : list N) : N :=
  match PositiveMap.find (N.succ_pos (lkey l)) m with Some c => c | None => 0 end.

Definition best_code (m : PositiveMap.t N) (l : list N) : N :=
  fold_right N.max 0 (map (look m) (choose (Nat.min 5 (length l)) l)).

(* value -> strength code *)
Definition enter (m : PositiveMap.t N) (v : outcome N) (c : N) : PositiveMap.t N :=
  match v with Ret v => PositiveMap.add (N.succ_pos v) c m | Fail _ => m end.
Definition entered (m : PositiveMap.t N) (v : outcome N) (c : N) : bool :=
  match v with
  | Ret v =>
      (v <? 40000) && (v / 4096 =? c / 14 ^ 5) &&
      match PositiveMap.find (N.succ_pos v) m with Some c' => c' =? c | None => false end
  | Fail _ => false
  end.

Definition values : PositiveMap.t N :=
  let m := fold_left (fun m l => if (2 <=? length l)%nat
                                 then enter m (nf_value (rank_sum l)) (best_code memo_nf l) else m)
                     all_lists (PositiveMap.empty N) in
  fold_left (fun m l => enter m (fl_value (rank_bits l)) (best_code memo_fl l)) flush_lists m.

Definition nf_ok (m : PositiveMap.t N) (ls : list (list N)) : bool :=
  forallb (fun l => if (2 <=? length l)%nat
                    then entered m (nf_value (rank_sum l)) (best_code memo_nf l)
                    else match nf_value (rank_sum l) with Ret _ => true | Fail _ => false end)
          ls.
Definition fl_ok (m : PositiveMap.t N) (ls : list (list N)) : bool :=
  forallb (fun l => entered m (fl_value (rank_bits l)) (best_code memo_fl l)) ls.

Fixpoint increasing (m : PositiveMap.t N) (prev : N) (vs : list N) : bool :=
  match vs with
  | [] => true
  | v :: vs' =>
      match PositiveMap.find (N.succ_pos v) m with
      | Some c => (prev <? c) && increasing m c vs'
      | None => increasing m prev vs'
      end
  end.

Notation all_values := (nseq 0 (N.to_nat 40000)).

(* one computation, so that the tables and memos are built once *)
Definition tables_ok (m : PositiveMap.t N) (nf fl : list (list N)) (vs : list N) : bool :=
  nf_ok m nf && fl_ok m fl && increasing m 0 vs.

Lemma eval_check_true :
  memo_ok false memo_nf small_lists && memo_ok true memo_fl flush_fives &&
  tables_ok values all_lists flush_lists all_values = true.
Proof. vm_cast_no_check (eq_refl true). Qed.
