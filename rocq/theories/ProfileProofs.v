(* A build without overflow checks computes the same as a build with them, as long as the latter does not panic on an overflow. *)
From Verif Require Import Base BaseProofs Float64 Hand FastDivide Range Combined Sim Approx EnumProofs.
Local Open Scope N_scope.

#[local] Opaque NUM_HANDS.

Definition agrees {A} (d r : outcome A) : Prop := d = Fail Overflow \/ r = d.

Lemma agrees_refl {A} (x : outcome A) : agrees x x.
Proof. right. reflexivity. Qed.
Lemma agrees_bind {A B} (d r : outcome A) (f g : A -> outcome B) : agrees d r -> (forall a, agrees (f a) (g a)) -> agrees (bind d f) (bind r g).
Proof. intros [->| ->] H; [left; reflexivity|]. destruct d as [a|e]; cbn [bind]; [apply H|apply agrees_refl]. Qed.
Lemma agrees_foldM {S A} (f g : S -> A -> outcome S) l : (forall s a, agrees (f s a) (g s a)) -> forall s, agrees (foldM f l s) (foldM g l s).
Proof. intros H. induction l as [|a l IH]; intros s; cbn [foldM]; [apply agrees_refl|]. apply agrees_bind; [apply H|apply IH]. Qed.
Lemma agrees_mapM {A B} (f g : A -> outcome B) l : (forall a, agrees (f a) (g a)) -> agrees (mapM f l) (mapM g l).
Proof. intros H. induction l as [|a l IH]; cbn [mapM]; [apply agrees_refl|]. apply agrees_bind; [apply H|]. intros b. apply agrees_bind; [apply IH|]. intros. apply agrees_refl. Qed.
Lemma agrees_updf {A} (l : list A) i f g : (forall a, agrees (f a) (g a)) -> agrees (updf l i f) (updf l i g).
Proof. intros H. unfold updf. apply agrees_bind; [apply agrees_refl|]. intros x. apply agrees_bind; [apply H|]. intros. apply agrees_refl. Qed.
Lemma agrees_add w a b : agrees (add_ w Debug a b) (add_ w Release a b).
Proof. unfold add_, on_overflow. destruct (_ <? _); [right|left]; reflexivity. Qed.
Lemma agrees_sub w a b : agrees (sub_ w Debug a b) (sub_ w Release a b).
Proof. unfold sub_, on_overflow. destruct (_ <=? _); [right|left]; reflexivity. Qed.
Lemma agrees_mul w a b : agrees (mul_ w Debug a b) (mul_ w Release a b).
Proof. unfold mul_, on_overflow. destruct (_ <? _); [right|left]; reflexivity. Qed.
Lemma agrees_shl w a b : agrees (shl_ w Debug a b) (shl_ w Release a b).
Proof. unfold shl_, on_overflow. destruct (_ <? _); [right|left]; reflexivity. Qed.
Lemma agrees_shr w a b : agrees (shr_ w Debug a b) (shr_ w Release a b).
Proof. unfold shr_, on_overflow. destruct (_ <? _); [right|left]; reflexivity. Qed.

Create HintDb ag discriminated.
#[local] Hint Resolve agrees_add agrees_sub agrees_mul agrees_shl agrees_shr : ag.
#[local] Hint Constants Opaque : ag.
#[local] Hint Variables Opaque : ag.

Ltac ag_step :=
  match goal with
  | |- agrees ?x ?x => apply agrees_refl
  | |- agrees (bind _ _) (bind _ _) => apply agrees_bind; [|intros]
  | |- agrees (foldM _ _ _) (foldM _ _ _) => apply agrees_foldM; intros
  | |- agrees (mapM _ _) (mapM _ _) => apply agrees_mapM; intros
  | |- agrees (updf _ _ _) (updf _ _ _) => apply agrees_updf; intros
  | |- agrees (match ?x with _ => _ end) _ => destruct x
  | |- agrees (match ?x with _ => _ end _) _ => destruct x
  | H : forall _, _ |- _ => apply H
  | _ => solve [auto 1 with ag nocore]
  end.
Ltac ag := repeat (cbv beta zeta; ag_step).
Ltac ag_def f := unfold f; ag.

(* ------------------------------------------------------------------------- *)
(** * hand.rs, fastdivide *)

Lemma ag_hand_add a b : agrees (hand_add Debug a b) (hand_add Release a b).
Proof. ag_def hand_add. Qed.
#[local] Hint Resolve ag_hand_add : ag.
Lemma ag_from_hole_cards a b : agrees (from_hole_cards Debug a b) (from_hole_cards Release a b).
Proof. ag_def from_hole_cards. Qed.
Lemma ag_from_bit_mask m : agrees (from_bit_mask Debug m) (from_bit_mask Release m).
Proof. ag_def from_bit_mask. Qed.
Lemma ag_contains h c : agrees (contains Debug h c) (contains Release h c).
Proof. ag_def contains. Qed.
Lemma ag_get_suit_mask h s : agrees (get_suit_mask Debug h s) (get_suit_mask Release h s).
Proof. ag_def get_suit_mask. Qed.
Lemma ag_suit_count h s : agrees (suit_count Debug h s) (suit_count Release h s).
Proof. ag_def suit_count. Qed.
#[local] Hint Resolve ag_from_hole_cards ag_from_bit_mask ag_contains ag_get_suit_mask ag_suit_count : ag.
Lemma ag_hand_card_index h : agrees (hand_card_index Debug h) (hand_card_index Release h).
Proof. ag_def hand_card_index. Qed.
Lemma ag_get_card_index a b : agrees (get_card_index Debug a b) (get_card_index Release a b).
Proof. ag_def get_card_index. Qed.
Lemma ag_flush_draw_step hc b h g d i : agrees (flush_draw_step Debug hc b h g d i) (flush_draw_step Release hc b h g d i).
Proof. ag_def flush_draw_step. Qed.
Lemma ag_flush_suit h l : agrees (flush_suit Debug h l) (flush_suit Release h l).
Proof. induction l as [|i l IH]; cbn [flush_suit]; ag. Qed.
#[local] Hint Resolve ag_hand_card_index ag_get_card_index ag_flush_draw_step ag_flush_suit : ag.
Lemma ag_get_draw hc b r : agrees (get_draw Debug hc b r) (get_draw Release hc b r).
Proof. ag_def get_draw. Qed.
Lemma ag_fast_path d : agrees (fast_path Debug d) (fast_path Release d).
Proof. ag_def fast_path. Qed.
Lemma ag_general_path d : agrees (general_path Debug d) (general_path Release d).
Proof. ag_def general_path. Qed.
#[local] Hint Resolve ag_get_draw ag_fast_path ag_general_path : ag.
Lemma ag_divide_by d : agrees (divide_by Debug d) (divide_by Release d).
Proof. ag_def divide_by. Qed.
Lemma ag_divide d n : agrees (divide Debug d n) (divide Release d n).
Proof. ag_def divide. Qed.
#[local] Hint Resolve ag_divide_by ag_divide : ag.

(* ------------------------------------------------------------------------- *)
(** * hand_range.rs *)

Lemma ag_parse_weight_loop fuel cs bt : forall i num w, agrees (parse_weight_loop Debug fuel cs bt i num w) (parse_weight_loop Release fuel cs bt i num w).
Proof. induction fuel as [|fuel IH]; intros i num w; cbn [parse_weight_loop]; ag. Qed.
#[local] Hint Resolve ag_parse_weight_loop : ag.
Lemma ag_parse_opt_weight cs i : agrees (parse_opt_weight Debug cs i) (parse_opt_weight Release cs i).
Proof. unfold parse_opt_weight, parse_weight. ag. Qed.
#[local] Hint Resolve ag_parse_opt_weight : ag.
Lemma ag_parse_hand cs hs i : agrees (parse_hand Debug cs hs i) (parse_hand Release cs hs i).
Proof. ag_def parse_hand. Qed.
#[local] Hint Resolve ag_parse_hand : ag.
Lemma ag_parse_loop fuel cs : forall hs i, agrees (parse_loop Debug fuel cs hs i) (parse_loop Release fuel cs hs i).
Proof. induction fuel as [|fuel IH]; intros hs i; cbn [parse_loop]; ag. Qed.
#[local] Hint Resolve ag_parse_loop : ag.
Lemma ag_from_string lower text : agrees (from_string lower Debug text) (from_string lower Release text).
Proof. unfold from_string, parse_lowered. ag. Qed.
#[local] Hint Resolve ag_from_string : ag.
Lemma ag_from_strings lower texts : agrees (from_strings lower Debug texts) (from_strings lower Release texts).
Proof. ag_def from_strings. Qed.
Lemma ag_remove_conflicting hs b d : agrees (remove_conflicting_combos Debug hs b d) (remove_conflicting_combos Release hs b d).
Proof. ag_def remove_conflicting_combos. Qed.
#[local] Hint Resolve ag_remove_conflicting : ag.

(* ------------------------------------------------------------------------- *)
(** * combined_range.rs *)

Lemma ag_ccombo_of r : agrees (ccombo_of Debug r) (ccombo_of Release r).
Proof. ag_def ccombo_of. Qed.
#[local] Hint Resolve ag_ccombo_of : ag.
Lemma ag_from_range r i : agrees (from_range Debug r i) (from_range Release r i).
Proof. ag_def from_range. Qed.
Lemma ag_join_combo a b c d : agrees (join_combo Debug a b c d) (join_combo Release a b c d).
Proof. ag_def join_combo. Qed.
#[local] Hint Resolve ag_from_range ag_join_combo : ag.
Lemma ag_join a b : agrees (join Debug a b) (join Release a b).
Proof. ag_def join. Qed.
#[local] Hint Resolve ag_join : ag.
Lemma ag_join_loop fuel : forall l, agrees (join_loop Debug fuel l) (join_loop Release fuel l).
Proof. induction fuel as [|fuel IH]; intros l; cbn [join_loop]; ag. Qed.
#[local] Hint Resolve ag_join_loop : ag.
Lemma ag_from_ranges l : agrees (from_ranges Debug l) (from_ranges Release l).
Proof. ag_def from_ranges. Qed.
#[local] Hint Resolve ag_from_ranges : ag.

(* ------------------------------------------------------------------------- *)
(** * simulator.rs *)

Lemma ag_update_total w u : agrees (update_total Debug w u) (update_total Release w u).
Proof. ag_def update_total. Qed.
Lemma ag_update_wins w u : agrees (update_wins Debug w u) (update_wins Release w u).
Proof. ag_def update_wins. Qed.
Lemma ag_update_ties w c u : agrees (update_ties Debug w c u) (update_ties Release w c u).
Proof. ag_def update_ties. Qed.
Lemma ag_unit_add a b : agrees (unit_add_assign Debug a b) (unit_add_assign Release a b).
Proof. ag_def unit_add_assign. Qed.
Lemma ag_sim_new a b c d e f : agrees (sim_new Debug a b c d e f) (sim_new Release a b c d e f).
Proof. ag_def sim_new. Qed.
#[local] Hint Resolve ag_update_total ag_update_wins ag_update_ties ag_unit_add ag_sim_new : ag.
Lemma ag_scan_step a b c s i : agrees (scan_step Debug a b c s i) (scan_step Release a b c s i).
Proof. ag_def scan_step. Qed.
#[local] Hint Resolve ag_scan_step : ag.
Lemma ag_evaluate_hands n ph lk w b f st : agrees (evaluate_hands Debug n ph lk w b f st) (evaluate_hands Release n ph lk w b f st).
Proof. ag_def evaluate_hands. Qed.
#[local] Hint Resolve ag_evaluate_hands : ag.

Section Enum.
  Context {St : Type}.
  Variables emit emit' : N -> hand -> bool -> St -> outcome St.
  Hypothesis Hemit : forall w h f st, agrees (emit w h f st) (emit' w h f st).

  Lemma ag_last_card_noflush fuel dk b w : forall i st, agrees (last_card_noflush Debug emit fuel dk b w i st) (last_card_noflush Release emit' fuel dk b w i st).
  Proof. induction fuel as [|fuel IH]; intros i st; cbn [last_card_noflush]; ag. Qed.
  Lemma ag_last_card_flush_step dk sc b w s i : agrees (last_card_flush_step Debug emit dk sc b w s i) (last_card_flush_step Release emit' dk sc b w s i).
  Proof. ag_def @last_card_flush_step. Qed.
  Lemma ag_last_card dk sc b s w st : agrees (last_card Debug emit dk sc b s w st) (last_card Release emit' dk sc b s w st).
  Proof. unfold last_card. ag; [apply ag_last_card_noflush|apply ag_last_card_flush_step]. Qed.
  Lemma ag_enum fuel : forall b dk sc cr s w st, agrees (enumerate_board_rec Debug emit fuel b dk sc cr s w st) (enumerate_board_rec Release emit' fuel b dk sc cr s w st).
  Proof.
    induction fuel as [|fuel IH]; intros b dk sc cr s w st; [apply agrees_refl|]. rewrite !enumerate_unfold.
    destruct (cr =? 1)%nat; [apply agrees_bind; [apply ag_last_card|intros; apply agrees_refl]|].
    generalize (S (length dk)). intros lf. revert s dk st. induction lf as [|lf IHl]; intros i dk st; [apply agrees_refl|]. cbn [while_loop]. unfold repeats_step. ag.
  Qed.
End Enum.
#[local] Hint Resolve ag_enum : ag.

Lemma ag_add_board_suits b sc : agrees (add_board_suits Debug b sc) (add_board_suits Release b sc).
Proof. ag_def add_board_suits. Qed.
Lemma ag_setup_hands a b c : agrees (setup_hands Debug a b c) (setup_hands Release a b c).
Proof. ag_def setup_hands. Qed.
#[local] Hint Resolve ag_add_board_suits ag_setup_hands : ag.
Lemma ag_enumerate_board n ph w b u st : agrees (enumerate_board Debug n ph w b u st) (enumerate_board Release n ph w b u st).
Proof. unfold enumerate_board. ag. apply ag_enum. ag. Qed.
Lemma ag_preflop m : agrees (get_preflop_combo_count Debug m) (get_preflop_combo_count Release m).
Proof. ag_def get_preflop_combo_count. Qed.
Lemma ag_postflop m : agrees (get_postflop_combo_count Debug m) (get_postflop_combo_count Release m).
Proof. ag_def get_postflop_combo_count. Qed.
Lemma ag_decode_position dcs : forall e u ph, agrees (decode_position Debug dcs e u ph) (decode_position Release dcs e u ph).
Proof. induction dcs as [|[dv cr] dcs IH]; intros e u ph; cbn [decode_position]; ag. Qed.
#[local] Hint Resolve ag_enumerate_board ag_preflop ag_postflop ag_decode_position : ag.
Lemma ag_process_position m dvs e st : agrees (process_position Debug m dvs e st) (process_position Release m dvs e st).
Proof. ag_def process_position. Qed.
Lemma ag_merge_hands rs : forall bs, agrees (merge_hands Debug rs bs) (merge_hands Release rs bs).
Proof. induction rs as [|r rs IH]; intros [|b bs]; cbn [merge_hands]; ag. Qed.
Lemma ag_merge_player b wi i wc s j : agrees (merge_player Debug b wi i wc s j) (merge_player Release b wi i wc s j).
Proof. ag_def merge_player. Qed.
#[local] Hint Resolve ag_process_position ag_merge_hands ag_merge_player : ag.
Lemma ag_merge_mask n b g i : agrees (merge_mask Debug n b g i) (merge_mask Release n b g i).
Proof. ag_def merge_mask. Qed.
#[local] Hint Resolve ag_merge_mask : ag.
Lemma ag_update_results m e s r st f : agrees (update_results Debug m e s r st f) (update_results Release m e s r st f).
Proof. ag_def update_results. Qed.
Lemma ag_reserve_batch a b c : agrees (reserve_batch Debug a b c) (reserve_batch Release a b c).
Proof. ag_def reserve_batch. Qed.
#[local] Hint Resolve ag_update_results ag_reserve_batch : ag.
Lemma ag_xstep m dvs sh t : agrees (xstep Debug m dvs sh t) (xstep Release m dvs sh t).
Proof. ag_def xstep. Qed.
#[local] Hint Resolve ag_xstep : ag.
Lemma ag_xevent m dvs y e : agrees (xevent Debug m dvs y e) (xevent Release m dvs y e).
Proof. ag_def xevent. Qed.
Lemma ag_hand_slot i h : agrees (hand_slot Debug i h) (hand_slot Release i h).
Proof. ag_def hand_slot. Qed.
#[local] Hint Resolve ag_xevent ag_hand_slot : ag.
Lemma ag_save_player_weights i hs hr f : agrees (save_player_weights Debug i hs hr f) (save_player_weights Release i hs hr f).
Proof. ag_def save_player_weights. Qed.
#[local] Hint Resolve ag_save_player_weights : ag.
Lemma ag_save_hand_weights rs hr : agrees (save_hand_weights Debug rs hr) (save_hand_weights Release rs hr).
Proof. ag_def save_hand_weights. Qed.
Lemma ag_fix_hand_weights f rs hr : agrees (fix_hand_weights Debug f rs hr) (fix_hand_weights Release f rs hr).
Proof. ag_def fix_hand_weights. Qed.
Lemma ag_set_ranks b rs hr : agrees (set_ranks Debug b rs hr) (set_ranks Release b rs hr).
Proof. ag_def set_ranks. Qed.
Lemma ag_final_hand s i : agrees (final_hand Debug s i) (final_hand Release s i).
Proof. ag_def final_hand. Qed.
#[local] Hint Resolve ag_save_hand_weights ag_fix_hand_weights ag_set_ranks ag_final_hand : ag.
Lemma ag_final_player fuel i : forall j hr cs, agrees (final_player Debug fuel i j hr cs) (final_player Release fuel i j hr cs).
Proof. induction fuel as [|fuel IH]; intros j hr cs; cbn [final_player]; ag. Qed.
#[local] Hint Resolve ag_final_player : ag.
Lemma ag_generate_final_data n hr : agrees (generate_final_data Debug n hr) (generate_final_data Release n hr).
Proof. ag_def generate_final_data. Qed.
Lemma ag_big_add h b : agrees (big_add Debug h b) (big_add Release h b).
Proof. ag_def big_add. Qed.
#[local] Hint Resolve ag_generate_final_data ag_big_add : ag.
Lemma ag_board_hand hr i s j : agrees (board_hand Debug hr i s j) (board_hand Release hr i s j).
Proof. ag_def board_hand. Qed.
#[local] Hint Resolve ag_board_hand : ag.
Lemma ag_generate_board_data n hr br bd : agrees (generate_board_data Debug n hr br bd) (generate_board_data Release n hr br bd).
Proof. ag_def generate_board_data. Qed.
Lemma ag_prepare m : agrees (prepare Debug m) (prepare Release m).
Proof. ag_def prepare. Qed.
#[local] Hint Resolve ag_generate_board_data ag_prepare : ag.
Lemma ag_finish m f r : agrees (finish Debug m f r) (finish Release m f r).
Proof. ag_def finish. Qed.
Lemma ag_combine_ranges hrs b d : agrees (combine_ranges Debug hrs b d) (combine_ranges Release hrs b d).
Proof. ag_def combine_ranges. Qed.
#[local] Hint Resolve ag_finish ag_combine_ranges : ag.
Lemma ag_exact ranges board dead threads cancelled sched : agrees (exact_equity Debug ranges board dead threads cancelled sched) (exact_equity Release ranges board dead threads cancelled sched).
Proof. ag_def exact_equity. Qed.

(* ------------------------------------------------------------------------- *)
(** * The Monte Carlo mode *)

Lemma ag_place_combo cr c w : agrees (place_combo Debug cr c w) (place_combo Release cr c w).
Proof. ag_def place_combo. Qed.
#[local] Hint Resolve ag_place_combo : ag.
Lemma ag_deal_attempt crs : forall i r w, agrees (deal_attempt Debug crs i r w) (deal_attempt Release crs i r w).
Proof. induction crs as [|cr crs IH]; intros i r w; cbn [deal_attempt]; ag. Qed.
#[local] Hint Resolve ag_deal_attempt : ag.
Lemma ag_deal_attempts m tries : forall r w, agrees (deal_attempts Debug m tries r w) (deal_attempts Release m tries r w).
Proof. induction tries as [|tries IH]; intros r w; cbn [deal_attempts]; ag. Qed.
Lemma ag_randomize_hole_cards m r w : agrees (randomize_hole_cards Debug m r w) (randomize_hole_cards Release m r w).
Proof. apply ag_deal_attempts. Qed.
Lemma ag_randomize_board fuel k : forall u r b, agrees (randomize_board Debug fuel k u r b) (randomize_board Release fuel k u r b).
Proof. induction k as [|k IH]; intros u r b; cbn [randomize_board]; ag. Qed.
#[local] Hint Resolve ag_randomize_hole_cards ag_randomize_board : ag.
Lemma ag_walk_step m r w : agrees (walk_step Debug m r w) (walk_step Release m r w).
Proof. ag_def walk_step. Qed.
Lemma ag_walk_eval m fuel r w st : agrees (walk_eval Debug m fuel r w st) (walk_eval Release m fuel r w st).
Proof. ag_def walk_eval. Qed.
#[local] Hint Resolve ag_walk_step ag_walk_eval : ag.
Lemma ag_astep m fuel sh t : agrees (astep Debug m fuel sh t) (astep Release m fuel sh t).
Proof. ag_def astep. Qed.
#[local] Hint Resolve ag_astep : ag.
Lemma ag_aevent m fuel y e : agrees (aevent Debug m fuel y e) (aevent Release m fuel y e).
Proof. ag_def aevent. Qed.
#[local] Hint Resolve ag_aevent : ag.
Lemma ag_approx ranges board dead threads target cancelled shuf rngs fuel sched :
  agrees (approx_equity Debug ranges board dead threads target cancelled shuf rngs fuel sched) (approx_equity Release ranges board dead threads target cancelled shuf rngs fuel sched).
Proof. ag_def approx_equity. Qed.

(* ------------------------------------------------------------------------- *)
(** * Text *)

Lemma ag_card_from_chars cs : agrees (card_from_chars Debug cs) (card_from_chars Release cs).
Proof. ag_def card_from_chars. Qed.
#[local] Hint Resolve ag_card_from_chars : ag.
Lemma ag_card_from_str s : agrees (card_from_str Debug s) (card_from_str Release s).
Proof. ag_def card_from_str. Qed.
Lemma ag_flop_from_str ws s : agrees (flop_from_str ws Debug s) (flop_from_str ws Release s).
Proof. ag_def flop_from_str. Qed.
Lemma ag_hole_to_string h : agrees (hole_to_string Debug h) (hole_to_string Release h).
Proof. ag_def hole_to_string. Qed.
