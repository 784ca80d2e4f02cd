(* C33-C36, C38, C39: combining ranges, rejected arguments, positions, boards of a deal. *)
From Verif Require Import Base Float64 Hand Range FastDivide Combined Sim Approx SpecPoker SpecNames SpecHand SpecEquity SpecResults SpecRun
  CombineRunProofs DealProofs.
From Coq Require Import Permutation.
Local Open Scope N_scope.

(* ranges used in the examples: cards are 4 * rank + suit *)
Definition ace_king : list whand := [(51, 50, 100); (47, 46, 50)].
Definition mixed : list whand := [(51, 49, 10); (46, 45, 1); (3, 2, 7)].

Definition hole_range (r : list whand) : Prop := Forall (fun h => hole (first_card h) (second_card h)) r.

(* C33: the combined ranges partition the players, and the combos of each are exactly the
   card-disjoint choices of its players *)
Theorem C33_combined_ranges : forall p ranges, Forall hole_range ranges -> (length ranges <= 9)%nat ->
  exists pss crs, from_ranges p ranges = Ret crs /\ Permutation (concat pss) (seq 0 (length ranges)) /\ Forall2 (describes p ranges) pss crs.
Proof.
  intros p ranges H H9. destruct (combined p ranges H H9) as (pss & crs & H1 & H2 & H3 & _). exists pss, crs. auto.
Qed.
Example C33_example :
  joint [ace_king; mixed] [0; 1]%nat = [[(51, 50, 100); (46, 45, 1)]; [(51, 50, 100); (3, 2, 7)]; [(47, 46, 50); (51, 49, 10)]; [(47, 46, 50); (3, 2, 7)]] /\
  (crs <- from_ranges Debug [ace_king; mixed] ;; Ret (map (fun cr => (cr_player_count cr, firstn 2 (cr_players cr), map (fun c => (cc_mask c, firstn 2 (cc_hole c))) (cr_combos cr))) crs)) =
  Ret [(2%nat, [0; 1]%nat, [(2 ^ 51 + 2 ^ 50 + 2 ^ 46 + 2 ^ 45, [(51, 50, 100); (46, 45, 1)]); (2 ^ 51 + 2 ^ 50 + 12, [(51, 50, 100); (3, 2, 7)]);
                            (2 ^ 47 + 2 ^ 46 + 2 ^ 51 + 2 ^ 49, [(47, 46, 50); (51, 49, 10)]); (2 ^ 47 + 2 ^ 46 + 12, [(47, 46, 50); (3, 2, 7)])])].
Proof. vm_compute. auto. Qed.

(* C34: any two remaining combined ranges have at least 10000 compatible pairs of combos;
   joined ones have fewer than 10000 combos *)
Theorem C34_join_limit : forall p ranges, Forall hole_range ranges -> (length ranges <= 9)%nat ->
  exists pss crs, from_ranges p ranges = Ret crs /\ Permutation (concat pss) (seq 0 (length ranges)) /\ Forall2 (describes p ranges) pss crs /\
    (forall i j, (j < i < length pss)%nat -> 10000 <= pairs_without (joint ranges (nth i pss [])) (joint ranges (nth j pss []))) /\
    Forall2 (fun ps cr => ps <> [] /\ ((2 <= length ps)%nat -> cr_size cr < 10000)) pss crs.
Proof. exact combined. Qed.
Example C34_example : pairs_without (joint [ace_king; mixed] [0%nat]) (joint [ace_king; mixed] [1%nat]) = 4 /\
  (crs <- from_ranges Debug [ace_king; mixed; [(0, 1, 1)]] ;; Ret (map (fun cr => (firstn 3 (cr_players cr), cr_size cr)) crs)) = Ret [([0; 2; 1]%nat, 4)].
Proof. vm_compute. auto. Qed.

(* C35: ConflictingRanges means that no deal is possible, and a range without usable hand
   always gives it *)
Theorem C35_sound : forall p ranges board dead, Forall range_ok ranges ->
  (forall threads cancelled sched, exact_equity p ranges board dead threads cancelled sched = Ret (RErr ConflictingRanges) -> deals ranges board dead = []) /\
  (forall threads target cancelled shuf rngs fuel sched, approx_equity p ranges board dead threads target cancelled shuf rngs fuel sched = Ret (RErr ConflictingRanges) -> deals ranges board dead = []).
Proof. exact equity_conflict_sound. Qed.
Theorem C35_empty_range : forall p ranges board dead, Forall range_ok ranges -> board < 2 ^ 64 -> dead < 2 ^ 64 -> accepted (length ranges) board dead ->
  Exists (emptied board dead) ranges ->
  (forall threads cancelled sched, exact_equity p ranges board dead threads cancelled sched = Ret (RErr ConflictingRanges)) /\
  (forall threads target cancelled shuf rngs fuel sched, approx_equity p ranges board dead threads target cancelled shuf rngs fuel sched = Ret (RErr ConflictingRanges)).
Proof. exact equity_conflict_complete. Qed.
Example C35_example :
  exact_equity Debug [[(51, 50, 100)]; [(51, 49, 10); (50, 49, 1)]] 0 0 4 false [] = Ret (RErr ConflictingRanges) /\
  deals [[(51, 50, 100)]; [(51, 49, 10); (50, 49, 1)]] 0 0 = [] /\
  exact_equity Release [ace_king; mixed] (2 ^ 51 + 2 ^ 46) 0 4 false [] = Ret (RErr ConflictingRanges) /\
  emptied (2 ^ 51 + 2 ^ 46) 0 ace_king.
Proof.
  split; [vm_compute; reflexivity|]. split; [vm_compute; reflexivity|]. split; [vm_compute; reflexivity|].
  intros h [<-|[<-|[]]]; [left|right]; reflexivity.
Qed.

(* C36: the error of rejected arguments depends only on the number of players and of cards *)
Theorem C36_exact : forall p ranges board dead threads cancelled sched, board < 2 ^ 64 -> dead < 2 ^ 64 ->
  match rejection (length ranges) board dead with
  | Some e => exact_equity p ranges board dead threads cancelled sched = Ret (RErr e)
  | None => forall e, exact_equity p ranges board dead threads cancelled sched = Ret (RErr e) -> e = ConflictingRanges
  end.
Proof. exact exact_rejects. Qed.
Theorem C36_approx : forall p ranges board dead threads target cancelled shuf rngs fuel sched, board < 2 ^ 64 -> dead < 2 ^ 64 ->
  match rejection (length ranges) board dead with
  | Some e => approx_equity p ranges board dead threads target cancelled shuf rngs fuel sched = Ret (RErr e)
  | None => forall e, approx_equity p ranges board dead threads target cancelled shuf rngs fuel sched = Ret (RErr e) -> e = ConflictingRanges
  end.
Proof. exact approx_rejects. Qed.
Example C36_example : rejection 1 63 (2 ^ 64 - 1) = Some TooFewPlayers /\ rejection 10 63 0 = Some TooManyPlayers /\
  rejection 9 63 (2 ^ 64 - 1) = Some TooManyBoardCards /\ rejection 9 31 (2 ^ 29 - 1) = None /\ rejection 9 31 (2 ^ 30 - 1) = Some TooManyDeadCards /\
  exact_equity Debug [ace_king] 63 0 1 false [] = Ret (RErr TooFewPlayers).
Proof. vm_compute. auto 7. Qed.

(* C38: every possible deal is decoded from exactly one position, counted with multiplicity;
   all other positions are skipped *)
Theorem C38_positions : forall p ranges board dead fr crs, usable ranges -> (length ranges <= 9)%nat -> combine_ranges p ranges board dead = Ret (ROk (fr, crs)) ->
  exists dvs, mapM (fun cr => divide_by p (cr_size cr)) crs = Ret dvs /\
  exists deal : N -> option (list whand),
    (forall x, x < prod_of cr_size crs -> decoded p dvs crs (length ranges) board dead x (deal x)) /\
    Permutation (flat_map (fun x => match deal x with Some d => [d] | None => [] end) (nseq 0 (N.to_nat (prod_of cr_size crs)))) (deals ranges board dead).
Proof. exact decode_deals. Qed.
(* two combined ranges of one player each, as if they had not been joined *)
Example C38_example :
  (c1 <- from_range Debug ace_king 0 ;; c2 <- from_range Debug mixed 1 ;; dvs <- mapM (fun cr => divide_by Debug (cr_size cr)) [c1; c2] ;;
   mapM (fun x => o <- decode_position Debug (combine dvs [c1; c2]) x 0 (repeat hwi_default 9) ;;
                  Ret (match o with Some (_, phs) => map h_cards (firstn 2 phs) | None => [] end)) (nseq 0 6)) =
  Ret [[]; [(47, 46, 50); (51, 49, 10)]; [(51, 50, 100); (46, 45, 1)]; []; [(51, 50, 100); (3, 2, 7)]; [(47, 46, 50); (3, 2, 7)]].
Proof. vm_compute. reflexivity. Qed.

(* C39: the counters after the board enumeration of one deal are the sums over all completions
   of the board *)
Theorem C39_boards_of_a_deal : forall p board dead d w phs used, hole_range d -> possible board dead d = true -> (length d <= 9)%nat ->
  (length (mask_cards board) <= 5)%nat -> w < 2 ^ 64 ->
  (forall i, (i < length d)%nat -> exists h, nth_error phs i = Some h /\ h_cards h = holding d i) ->
  (forall c, c < 52 -> N.testbit used c = on_table board dead c || existsb (N.eqb c) (dealt d)) ->
  exists bd st0, from_bit_mask p board = Ret bd /\ stats_init (length d) = Ret st0 /\
    ((exists st, enumerate_board p (length d) phs w bd used st0 = Ret st /\ counted p board dead d w st) \/
     p = Debug /\ enumerate_board p (length d) phs w bd used st0 = Fail Overflow /\
     2 ^ 64 <= N.max 1 w * N.max 7776 (N.of_nat (length (boards board dead d)))).
Proof. exact one_deal. Qed.
(* Ad Ks against 7c 7h on Qd Jd 7s 2d, weight 3, when all cards but Td Ts 9d 9s 3s are dead:
   Ad Ks wins with three of them *)
Example C39_example :
  let d := [(51, 44, 1); (22, 21, 3)] in let board := 2 ^ 43 + 2 ^ 39 + 2 ^ 20 + 2 ^ 3 in let left := 2 ^ 35 + 2 ^ 32 + 2 ^ 31 + 2 ^ 28 + 2 ^ 4 in
  let dead := 2 ^ 52 - 1 - board - left - (2 ^ 51 + 2 ^ 44 + 2 ^ 22 + 2 ^ 21) in
  possible board dead d = true /\
  (bd <- from_bit_mask Debug board ;; st0 <- stats_init 2 ;;
   st <- enumerate_board Debug 2 (map (fun h => {| h_cards := h; h_player_idx := 0 |}) d) 3 bd (2 ^ 52 - 1 - left) st0 ;;
   Ret (firstn 4 (b_wins_by_mask (s_batch st)), b_eval_count (s_batch st))) = Ret ([0; 9; 6; 0], 5) /\
  boards_with board dead d (fun l => nats_eqb (winners d l) [0%nat]) = 3.
Proof. vm_compute. auto. Qed.

Print Assumptions C33_combined_ranges.
Print Assumptions C34_join_limit.
Print Assumptions C35_sound.
Print Assumptions C35_empty_range.
Print Assumptions C36_exact.
Print Assumptions C36_approx.
Print Assumptions C38_positions.
Print Assumptions C39_boards_of_a_deal.
