# Generates MANIFEST.json (run from /verif).
import json, re, glob
claims = []
def claim(prop, status, theorems, note=""):
    claims.append({"property": prop, "status": status, "theorems": theorems.split(), "note": note})

claim("C01", "proved", "C01_evaluate_orders_hands", "Hands built by any expression of default/CARDS/from_hole_cards/from_bit_mask/+; both profiles.")
claim("C02", "proved", "C02_category")
claim("C03", "proved", "C03_no_out_of_bounds")
claim("C04", "proved", "C04_set_of_cards")
claim("C05", "proved", "C05_flush_free_path")
claim("C06", "proved", "C06_suits_interchangeable")
claim("C07", "proved", "C07_more_cards_never_hurt")
claim("C08", "proved", "C08_counters_exact")
claim("C09", "proved", "C09_from_bit_mask")
claim("C10", "partial", "C10_refuted", "Refuted: the property is false of the code; the theorem gives the witnesses (empty hand and a single card).")
claim("C11", "proved", "C11_index_bijection")
claim("C12", "proved", "C12_layout C12_block_exists")
claim("C13", "proved", "C13_same_index")
claim("C14", "proved", "C14_hand_by_name C14_no_other_hand_name C14_combo_by_name C14_no_other_combo_name")
claim("C15", "partial", "C15_refuted C15_pairs_rejected C15_unpaired_accepted", "Refuted: the Display text of a pocket pair is never accepted by the lookup; every unpaired hand's text is.")
claim("C16", "proved", "C16_mask_roundtrip C16_high_bits_ignored")
claim("C17", "proved", "C17_card_mask C17_any_text")
claim("C18", "partial", "C18_refuted C18_names_read C18_printed_names C18_checked", "Refuted: upper-case suits and other two-character texts yield Ok with a value that is no card, or panic in checked builds. Names themselves are read correctly, and in checked builds a card is only returned for a name of it.")
claim("C19", "proved", "C19_flop")
claim("C20", "proved", "C20_hole_text")
claim("C21", "partial", "C21_refuted C21_unchecked_total C21_checked_overflow_only C21_short_numbers C21_builds_agree", "Refuted: in checked builds a weight of ten or more digits overflows u32 and panics. What holds is C63.")
claim("C22", "proved", "C22_well_formed")
claim("C23", "proved", "C23_denotation")
claim("C24", "proved", "C24_first_weight")
claim("C25", "proved", "C25_random")
claim("C26", "partial", "C26_refuted C26_other_texts", "Refuted: RANDOM is not read as random. Every other text is case-insensitive (C64).")
claim("C27", "proved", "C27_malformed_tail")
claim("C28", "partial", "C28_refuted C28_below_2_32 C24_first_weight", "Refuted: numbers wrap at 2^32 in unchecked builds. Below 2^32 the claim holds (C65).")
claim("C29", "proved", "C29_remove_conflicting")
claim("C30", "proved", "C30_order C30_equality C30_meaning")
claim("C31", "partial", "C31_refuted C31_unpaired", "Refuted: for pairs only the descending direction is understood. For unpaired endpoints the claim holds (C66).")
claim("C32", "proved", "C32_fastdivide_exact C32_zero_rejected", "Both build profiles, every non-zero 64-bit divisor and dividend.")
claim("C33", "proved", "C33_combined_ranges")
claim("C34", "proved", "C34_join_limit")
claim("C35", "proved", "C35_sound C35_empty_range")
claim("C36", "proved", "C36_exact C36_approx")
claim("C37", "proved", "C37_every_position_once", "For ranges whose sizes multiply to less than 2^63 (also below); beyond that the position count itself can overflow.")
claim("C38", "proved", "C38_positions", "For ranges whose sizes multiply to less than 2^63; beyond that the position count itself can overflow.")
claim("C39", "proved", "C39_boards_of_a_deal")
claim("C40", "proved", "C40_masks")
claim("C41", "proved", "C41_hands")
claim("C42", "proved", "C42_threads_and_timing")
claim("C43", "partial", "C43_refuted C43_ninth_never_credited", "Refuted: with nine players the ninth player is never credited. What holds is C67.")
claim("C44", "partial", "C44_refuted C44_only_overflow", "Refuted: nine hands of weight 255 that tie overflow a 64-bit product and panic in checked builds. What holds is C68.")
claim("C45", "proved", "C45_consistent C45_exact", "No overflow: a checked build, or weights that fit 64 bits.")
claim("C46", "proved", "C46_cancelled")
claim("C47", "proved", "C47_no_waiting C47_returns")
claim("C48", "proved", "C48_progress", "Under usable ranges (the product of the range sizes fits 63 bits); binary64 arithmetic of the standard library's SpecFloat.")
claim("C49", "partial", "C49_refuted", "Refuted: two hands of weight 1 that tie give 0/0.")
claim("C50", "proved", "C50_hands_and_weights", "A hand given twice has the weight given last.")
claim("C51", "proved", "C51_combos")
claim("C52", "proved", "C52_categories")
claim("C53", "partial", "C53_refuted C53_flush_draws C53_returns C71_open_ended", "Refuted: 2-3-4-5 is not flagged open-ended although an ace or a six completes it. The flush parts hold; for straights see C71.")
claim("C54", "proved", "C54_legal_deals")
claim("C55", "proved", "C55_seats")
claim("C56", "partial", "C56_refuted", "Refuted: half of an odd tie is rounded down.")
claim("C57", "proved", "C57_samples_legal", "Up to nine players; the counters of a run are those of a list of legal samples.")
claim("C58", "proved", "C58_walk")
claim("C61", "proved", "C15_unpaired_accepted C15_pairs_rejected")
claim("C62", "proved", "C18_names_read C18_printed_names C18_checked")
claim("C63", "proved", "C21_unchecked_total C21_checked_overflow_only C21_short_numbers C21_builds_agree")
claim("C64", "proved", "C26_other_texts")
claim("C65", "proved", "C28_below_2_32")
claim("C66", "proved", "C31_unpaired")
claim("C67", "proved", "C43_ninth_never_credited C43_masks_of_eight")
claim("C68", "proved", "C44_only_overflow")
claim("C69", "proved", "C69_rank_and_draws")
claim("C70", "proved", "C70_draws")
claim("C71", "proved", "C71_straight_draws C71_open_ended")
claim("C72", "partial", "C72_refuted", "Refuted: straight draws to the wheel such as A-2-3-4 are not flagged. What holds is C71.")
claim("C73", "proved", "C73_nut_straight")
claim("C74", "partial", "C74_refuted", "Refuted: the wheel is never flagged. What holds is C73.")
claim("C75", "proved", "C75_nut_flush")
claim("C76", "proved", "C76_approx_only_overflow")
claim("C59", "partial", "C59_token_refuted", "Refuted: a run that converges stores true in the caller's token.")
claim("C60", "partial", "C60_progress_refuted", "Refuted: 255 is reported. C77 says when.")
claim("C77", "proved", "C77_first_flush")
claim("C78", "proved", "C78_one_thread")
claim("C79", "partial", "C79_deviation_refuted", "Refuted: the empty last batch counts as a sample with equity 0, so the reported deviation is above the target that stopped the run.")
claim("C80", "proved", "C80_any_text C80_reading_exists")
claim("C81", "proved", "C81_whole_batches")
claim("C82", "proved", "C82_one_batch_each")
claim("C83", "proved", "C83_ends")
claim("C84", "proved", "C84_exact C84_approx")
claim("C85", "proved", "C85_exact C85_approx")
claim("C86", "proved", "C86_true_equity")
claim("C87", "proved", "C87_runs C87_hands_and_text C87_same_results")
claim("C88", "proved", "C88_fresh_deals", "uniform up to the generator: samples are numbers of an arbitrary stream reduced to the bound")
claim("C89", "proved", "C89_walk_fair", "uniform up to the generator: samples are numbers of an arbitrary stream reduced to the bound")
claim("C90", "proved", "C90_boards_fair", "uniform up to the generator; the rejection loop is bounded by a fuel, any fuel not below the number of samples used")
claim("C91", "proved", "C91_unbiased")
claim("C92", "partial", "C92_refuted", "Refuted: with eight players and 256 hands each the number of positions is 2^64 and wraps to zero; the release build reports a finished run without a board, the checked build panics. C94 says what holds.")
claim("C93", "proved", "C93_never_stops", "not returning is modelled as: no schedule, however long, ends with all threads finished")
claim("C94", "proved", "C94_positions_wrap")
claim("C95", "partial", "C95_refuted", "Refuted: the equity of a hand outside the range is computed as 0/0 when batches are merged, and stays NaN. C96 says what holds.")
claim("C96", "proved", "C96_exact C96_approx")
claim("C97", "proved", "C97_true_equity")
claim("C98", "partial", "C98_refuted", "Refuted: it is the counted part of the ties divided by the total, half of the tie rate with two players. C96 says what holds.")
claim("C99", "proved", "C99_hands_and_weights C99_combos C99_categories C99_rank_and_draws C99_draws")
claim("C100", "partial", "C100_refuted C100_never_exact C100_never_approx", "Refuted: the flag is never set, nor are rank and draw, as the other theorems say.")
claim("C101", "proved", "C101_masks_exact")
claim("C102", "partial", "C102_refuted", "Refuted: a hand with card 2 contains 67. C103 says what holds.")
claim("C103", "proved", "C103_beyond_the_deck C103_panics")
claim("C104", "partial", "C104_refuted", "Refuted: four aces and four kings, or seven cards with repetitions, give an index beyond the table. C03 says what holds.")
claim("C105", "partial", "C105_refuted", "Refuted: the same ace twice is worth a pair of aces.")
claim("C106", "proved", "C106_order C106_meaning")
claim("C107", "partial", "C107_refuted", "Refuted: cmp ignores the weight and the player, equality does not. C106 says what holds.")
claim("C108", "proved", "C108_exact_no_deviation")
claim("C109", "proved", "C109_batches_counted")
claim("C110", "partial", "C110_refuted", "Refuted: the last, empty batch of every thread is counted. C109 says what holds.")
claim("C111", "proved", "C111_deviation_is_equity")
claim("C112", "proved", "C112_order")
claim("C113", "proved", "C113_unusable")
claim("C114", "proved", "C114_suits")
claim("C115", "proved", "C115_weights")
claim("C116", "proved", "C116_parts C116_conflict")
claim("C117", "partial", "C117_refuted", "Refuted: boards that differ only in irrelevant cards are evaluated once. C118 says what holds.")
claim("C118", "proved", "C118_at_most")
claim("C119", "proved", "C119_exact C119_approx C119_two_players")
claim("C120", "proved", "C120_true_equity")
claim("C121", "proved", "C121_threads")
claim("C122", "proved", "C122_at_least C122_complete_board")
claim("C123", "proved", "C123_order C123_unusable C123_suits")
claim("C124", "proved", "C124_exact C124_approx")
claim("C125", "proved", "C125_exact C125_approx")
claim("C126", "proved", "C126_weights")
claim("C127", "proved", "C127_fractions C127_weights")
claim("C128", "proved", "C128_exact C128_approx C128_true_equity")
claim("C129", "proved", "C129_seats")
claim("C130", "proved", "C130_read_back C130_parsed C130_display")
claim("C131", "proved", "C131_same_meaning C131_order C131_redundant")
claim("C132", "proved", "C132_abbreviations")
claim("C133", "proved", "C133_exact C133_approx")
claim("C134", "proved", "C134_same_range")
claim("C135", "proved", "C135_order")
claim("C136", "proved", "C136_alike")
claim("C137", "proved", "C137_table")
claim("C138", "partial", "C138_refuted", "Refuted: the error is only noticed when ranges are combined. Four players who all need one of three aces, with 126 hands each, admit no deal, but any two of the ranges have 10332 compatible pairs, more than MAX_SIZE, so nothing is combined and the run returns Ok. The converse is C35; what such a run returns is C139.")
claim("C139", "proved", "C139_exact C139_approx")
claim("C140", "proved", "C140_conflict C140_text")
claim("C141", "proved", "C141_exact C141_approx")
claim("C142", "proved", "C142_complete C142_three")
claim("C143", "proved", "C143_possible C143_exact_too")
claim("C144", "proved", "C144_exact C144_approx")
claim("C145", "proved", "C145_exact C145_approx")
claim("C146", "proved", "C146_exact C146_approx")
claim("C147", "proved", "C147_showdown")
claim("C148", "proved", "C148_masks C148_hands")
claim("C149", "proved", "C149_masks C149_hands")
claim("C150", "proved", "C150_masks C150_hands")
claim("C151", "proved", "C151_best_five")
claim("C152", "proved", "C152_same_value C152_number_of_values")
claim("C153", "proved", "C153_categories")
claim("C154", "proved", "C154_messages")
claim("C155", "proved", "C155_exact_step C155_approx_step C155_exact C155_approx")
claim("C156", "proved", "C156_returns C156_by_name")
claim("C157", "partial", "C157_refuted", "Refuted: without overflow checks player 2^63 is player 0, as 1326 * 2^63 is a multiple of 2^64. See C158.")
claim("C158", "proved", "C158_exact C158_exact_combo C158_approx")
claim("C159", "proved", "C159_text_equities")
claim("C160", "proved", "C160_fewer C160_fewer_approx C160_player C160_seats")
claim("C161", "proved", "C161_no_overflow")
claim("C162", "proved", "C162_combo_by_name")
claim("C163", "proved", "C163_all_combos")
claim("C164", "proved", "C164_hands C164_combos")
claim("C165", "proved", "C165_duel")
claim("C166", "proved", "C166_exact C166_approx")
claim("C167", "proved", "C167_exact C167_approx")
claim("C168", "proved", "C168_exact C168_approx")
claim("C169", "proved", "C169_exact C169_approx")

names = set()
for f in glob.glob("rocq/theories/Prop*.v"):
    names |= set(re.findall(r"^Theorem\s+(\w+)", open(f).read(), re.M))
used = set(t for c in claims for t in c["theorems"])
assert used <= names, used - names
print("not in manifest:", names - used)
ids = [json.loads(l)["id"] for l in open("properties.jsonl")]
assert all(c["property"] in ids for c in claims)
print("without claim:", [i for i in ids if i not in [c["property"] for c in claims]])
json.dump({"claims": claims}, open("MANIFEST.json", "w"), indent=1)
