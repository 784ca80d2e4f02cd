{
 "claims": [
  {
   "property": "C01",
   "status": "proved",
   "theorems": [
    "C01_evaluate_orders_hands"
   ],
   "note": "Hands built by any expression of default/CARDS/from_hole_cards/from_bit_mask/+; both profiles."
  },
  {
   "property": "C02",
   "status": "proved",
   "theorems": [
    "C02_category"
   ],
   "note": ""
  },
  {
   "property": "C03",
   "status": "proved",
   "theorems": [
    "C03_no_out_of_bounds"
   ],
   "note": ""
  },
  {
   "property": "C04",
   "status": "proved",
   "theorems": [
    "C04_set_of_cards"
   ],
   "note": ""
  },
  {
   "property": "C05",
   "status": "proved",
   "theorems": [
    "C05_flush_free_path"
   ],
   "note": ""
  },
  {
   "property": "C06",
   "status": "proved",
   "theorems": [
    "C06_suits_interchangeable"
   ],
   "note": ""
  },
  {
   "property": "C07",
   "status": "proved",
   "theorems": [
    "C07_more_cards_never_hurt"
   ],
   "note": ""
  },
  {
   "property": "C08",
   "status": "proved",
   "theorems": [
    "C08_counters_exact"
   ],
   "note": ""
  },
  {
   "property": "C09",
   "status": "proved",
   "theorems": [
    "C09_from_bit_mask"
   ],
   "note": ""
  },
  {
   "property": "C10",
   "status": "partial",
   "theorems": [
    "C10_refuted"
   ],
   "note": "Refuted: the property is false of the code; the theorem gives the witnesses (empty hand and a single card)."
  },
  {
   "property": "C11",
   "status": "proved",
   "theorems": [
    "C11_index_bijection"
   ],
   "note": ""
  },
  {
   "property": "C12",
   "status": "proved",
   "theorems": [
    "C12_layout",
    "C12_block_exists"
   ],
   "note": ""
  },
  {
   "property": "C13",
   "status": "proved",
   "theorems": [
    "C13_same_index"
   ],
   "note": ""
  },
  {
   "property": "C14",
   "status": "proved",
   "theorems": [
    "C14_hand_by_name",
    "C14_no_other_hand_name",
    "C14_combo_by_name",
    "C14_no_other_combo_name"
   ],
   "note": ""
  },
  {
   "property": "C15",
   "status": "partial",
   "theorems": [
    "C15_refuted",
    "C15_pairs_rejected",
    "C15_unpaired_accepted"
   ],
   "note": "Refuted: the Display text of a pocket pair is never accepted by the lookup; every unpaired hand's text is."
  },
  {
   "property": "C16",
   "status": "proved",
   "theorems": [
    "C16_mask_roundtrip",
    "C16_high_bits_ignored"
   ],
   "note": ""
  },
  {
   "property": "C17",
   "status": "proved",
   "theorems": [
    "C17_card_mask",
    "C17_any_text"
   ],
   "note": ""
  },
  {
   "property": "C18",
   "status": "partial",
   "theorems": [
    "C18_refuted",
    "C18_names_read",
    "C18_printed_names",
    "C18_checked"
   ],
   "note": "Refuted: upper-case suits and other two-character texts yield Ok with a value that is no card, or panic in checked builds. Names themselves are read correctly, and in checked builds a card is only returned for a name of it."
  },
  {
   "property": "C19",
   "status": "proved",
   "theorems": [
    "C19_flop"
   ],
   "note": ""
  },
  {
   "property": "C20",
   "status": "proved",
   "theorems": [
    "C20_hole_text"
   ],
   "note": ""
  },
  {
   "property": "C21",
   "status": "partial",
   "theorems": [
    "C21_refuted",
    "C21_unchecked_total",
    "C21_checked_overflow_only",
    "C21_short_numbers",
    "C21_builds_agree"
   ],
   "note": "Refuted: in checked builds a weight of ten or more digits overflows u32 and panics. What holds is C63."
  },
  {
   "property": "C22",
   "status": "proved",
   "theorems": [
    "C22_well_formed"
   ],
   "note": ""
  },
  {
   "property": "C23",
   "status": "proved",
   "theorems": [
    "C23_denotation"
   ],
   "note": ""
  },
  {
   "property": "C24",
   "status": "proved",
   "theorems": [
    "C24_first_weight"
   ],
   "note": ""
  },
  {
   "property": "C25",
   "status": "proved",
   "theorems": [
    "C25_random"
   ],
   "note": ""
  },
  {
   "property": "C26",
   "status": "partial",
   "theorems": [
    "C26_refuted",
    "C26_other_texts"
   ],
   "note": "Refuted: RANDOM is not read as random. Every other text is case-insensitive (C64)."
  },
  {
   "property": "C27",
   "status": "proved",
   "theorems": [
    "C27_malformed_tail"
   ],
   "note": ""
  },
  {
   "property": "C28",
   "status": "partial",
   "theorems": [
    "C28_refuted",
    "C28_below_2_32",
    "C24_first_weight"
   ],
   "note": "Refuted: numbers wrap at 2^32 in unchecked builds. Below 2^32 the claim holds (C65)."
  },
  {
   "property": "C29",
   "status": "proved",
   "theorems": [
    "C29_remove_conflicting"
   ],
   "note": ""
  },
  {
   "property": "C30",
   "status": "proved",
   "theorems": [
    "C30_order",
    "C30_equality",
    "C30_meaning"
   ],
   "note": ""
  },
  {
   "property": "C31",
   "status": "partial",
   "theorems": [
    "C31_refuted",
    "C31_unpaired"
   ],
   "note": "Refuted: for pairs only the descending direction is understood. For unpaired endpoints the claim holds (C66)."
  },
  {
   "property": "C32",
   "status": "proved",
   "theorems": [
    "C32_fastdivide_exact",
    "C32_zero_rejected"
   ],
   "note": "Both build profiles, every non-zero 64-bit divisor and dividend."
  },
  {
   "property": "C33",
   "status": "proved",
   "theorems": [
    "C33_combined_ranges"
   ],
   "note": ""
  },
  {
   "property": "C34",
   "status": "proved",
   "theorems": [
    "C34_join_limit"
   ],
   "note": ""
  },
  {
   "property": "C35",
   "status": "proved",
   "theorems": [
    "C35_sound",
    "C35_empty_range"
   ],
   "note": ""
  },
  {
   "property": "C36",
   "status": "proved",
   "theorems": [
    "C36_exact",
    "C36_approx"
   ],
   "note": ""
  },
  {
   "property": "C37",
   "status": "proved",
   "theorems": [
    "C37_every_position_once"
   ],
   "note": "For ranges whose sizes multiply to less than 2^63 (also below); beyond that the position count itself can overflow."
  },
  {
   "property": "C38",
   "status": "proved",
   "theorems": [
    "C38_positions"
   ],
   "note": "For ranges whose sizes multiply to less than 2^63; beyond that the position count itself can overflow."
  },
  {
   "property": "C39",
   "status": "proved",
   "theorems": [
    "C39_boards_of_a_deal"
   ],
   "note": ""
  },
  {
   "property": "C40",
   "status": "proved",
   "theorems": [
    "C40_masks"
   ],
   "note": ""
  },
  {
   "property": "C41",
   "status": "proved",
   "theorems": [
    "C41_hands"
   ],
   "note": ""
  },
  {
   "property": "C42",
   "status": "proved",
   "theorems": [
    "C42_threads_and_timing"
   ],
   "note": ""
  },
  {
   "property": "C43",
   "status": "partial",
   "theorems": [
    "C43_refuted",
    "C43_ninth_never_credited"
   ],
   "note": "Refuted: with nine players the ninth player is never credited. What holds is C67."
  },
  {
   "property": "C44",
   "status": "partial",
   "theorems": [
    "C44_refuted",
    "C44_only_overflow"
   ],
   "note": "Refuted: nine hands of weight 255 that tie overflow a 64-bit product and panic in checked builds. What holds is C68."
  },
  {
   "property": "C45",
   "status": "proved",
   "theorems": [
    "C45_consistent",
    "C45_exact"
   ],
   "note": "No overflow: a checked build, or weights that fit 64 bits."
  },
  {
   "property": "C46",
   "status": "proved",
   "theorems": [
    "C46_cancelled"
   ],
   "note": ""
  },
  {
   "property": "C47",
   "status": "proved",
   "theorems": [
    "C47_no_waiting",
    "C47_returns"
   ],
   "note": ""
  },
  {
   "property": "C48",
   "status": "proved",
   "theorems": [
    "C48_progress"
   ],
   "note": "Under usable ranges (the product of the range sizes fits 63 bits); binary64 arithmetic of the standard library's SpecFloat."
  },
  {
   "property": "C49",
   "status": "partial",
   "theorems": [
    "C49_refuted"
   ],
   "note": "Refuted: two hands of weight 1 that tie give 0/0."
  },
  {
   "property": "C50",
   "status": "proved",
   "theorems": [
    "C50_hands_and_weights"
   ],
   "note": "A hand given twice has the weight given last."
  },
  {
   "property": "C51",
   "status": "proved",
   "theorems": [
    "C51_combos"
   ],
   "note": ""
  },
  {
   "property": "C52",
   "status": "proved",
   "theorems": [
    "C52_categories"
   ],
   "note": ""
  },
  {
   "property": "C53",
   "status": "partial",
   "theorems": [
    "C53_refuted",
    "C53_flush_draws",
    "C53_returns",
    "C71_open_ended"
   ],
   "note": "Refuted: 2-3-4-5 is not flagged open-ended although an ace or a six completes it. The flush parts hold; for straights see C71."
  },
  {
   "property": "C54",
   "status": "proved",
   "theorems": [
    "C54_legal_deals"
   ],
   "note": ""
  },
  {
   "property": "C55",
   "status": "proved",
   "theorems": [
    "C55_seats"
   ],
   "note": ""
  },
  {
   "property": "C56",
   "status": "partial",
   "theorems": [
    "C56_refuted"
   ],
   "note": "Refuted: half of an odd tie is rounded down."
  },
  {
   "property": "C57",
   "status": "proved",
   "theorems": [
    "C57_samples_legal"
   ],
   "note": "Up to nine players; the counters of a run are those of a list of legal samples."
  },
  {
   "property": "C58",
   "status": "proved",
   "theorems": [
    "C58_walk"
   ],
   "note": ""
  },
  {
   "property": "C61",
   "status": "proved",
   "theorems": [
    "C15_unpaired_accepted",
    "C15_pairs_rejected"
   ],
   "note": ""
  },
  {
   "property": "C62",
   "status": "proved",
   "theorems": [
    "C18_names_read",
    "C18_printed_names",
    "C18_checked"
   ],
   "note": ""
  },
  {
   "property": "C63",
   "status": "proved",
   "theorems": [
    "C21_unchecked_total",
    "C21_checked_overflow_only",
    "C21_short_numbers",
    "C21_builds_agree"
   ],
   "note": ""
  },
  {
   "property": "C64",
   "status": "proved",
   "theorems": [
    "C26_other_texts"
   ],
   "note": ""
  },
  {
   "property": "C65",
   "status": "proved",
   "theorems": [
    "C28_below_2_32"
   ],
   "note": ""
  },
  {
   "property": "C66",
   "status": "proved",
   "theorems": [
    "C31_unpaired"
   ],
   "note": ""
  },
  {
   "property": "C67",
   "status": "proved",
   "theorems": [
    "C43_ninth_never_credited",
    "C43_masks_of_eight"
   ],
   "note": ""
  },
  {
   "property": "C68",
   "status": "proved",
   "theorems": [
    "C44_only_overflow"
   ],
   "note": ""
  },
  {
   "property": "C69",
   "status": "proved",
   "theorems": [
    "C69_rank_and_draws"
   ],
   "note": ""
  },
  {
   "property": "C70",
   "status": "proved",
   "theorems": [
    "C70_draws"
   ],
   "note": ""
  },
  {
   "property": "C71",
   "status": "proved",
   "theorems": [
    "C71_straight_draws",
    "C71_open_ended"
   ],
   "note": ""
  },
  {
   "property": "C72",
   "status": "partial",
   "theorems": [
    "C72_refuted"
   ],
   "note": "Refuted: straight draws to the wheel such as A-2-3-4 are not flagged. What holds is C71."
  },
  {
   "property": "C73",
   "status": "proved",
   "theorems": [
    "C73_nut_straight"
   ],
   "note": ""
  },
  {
   "property": "C74",
   "status": "partial",
   "theorems": [
    "C74_refuted"
   ],
   "note": "Refuted: the wheel is never flagged. What holds is C73."
  },
  {
   "property": "C75",
   "status": "proved",
   "theorems": [
    "C75_nut_flush"
   ],
   "note": ""
  },
  {
   "property": "C76",
   "status": "proved",
   "theorems": [
    "C76_approx_only_overflow"
   ],
   "note": ""
  },
  {
   "property": "C59",
   "status": "partial",
   "theorems": [
    "C59_token_refuted"
   ],
   "note": "Refuted: a run that converges stores true in the caller's token."
  },
  {
   "property": "C60",
   "status": "partial",
   "theorems": [
    "C60_progress_refuted"
   ],
   "note": "Refuted: 255 is reported. C77 says when."
  },
  {
   "property": "C77",
   "status": "proved",
   "theorems": [
    "C77_first_flush"
   ],
   "note": ""
  },
  {
   "property": "C78",
   "status": "proved",
   "theorems": [
    "C78_one_thread"
   ],
   "note": ""
  },
  {
   "property": "C79",
   "status": "partial",
   "theorems": [
    "C79_deviation_refuted"
   ],
   "note": "Refuted: the empty last batch counts as a sample with equity 0, so the reported deviation is above the target that stopped the run."
  },
  {
   "property": "C80",
   "status": "proved",
   "theorems": [
    "C80_any_text",
    "C80_reading_exists"
   ],
   "note": ""
  },
  {
   "property": "C81",
   "status": "proved",
   "theorems": [
    "C81_whole_batches"
   ],
   "note": ""
  },
  {
   "property": "C82",
   "status": "proved",
   "theorems": [
    "C82_one_batch_each"
   ],
   "note": ""
  },
  {
   "property": "C83",
   "status": "proved",
   "theorems": [
    "C83_ends"
   ],
   "note": ""
  },
  {
   "property": "C84",
   "status": "proved",
   "theorems": [
    "C84_exact",
    "C84_approx"
   ],
   "note": ""
  },
  {
   "property": "C85",
   "status": "proved",
   "theorems": [
    "C85_exact",
    "C85_approx"
   ],
   "note": ""
  },
  {
   "property": "C86",
   "status": "proved",
   "theorems": [
    "C86_true_equity"
   ],
   "note": ""
  },
  {
   "property": "C87",
   "status": "proved",
   "theorems": [
    "C87_runs",
    "C87_hands_and_text",
    "C87_same_results"
   ],
   "note": ""
  },
  {
   "property": "C88",
   "status": "proved",
   "theorems": [
    "C88_fresh_deals"
   ],
   "note": "uniform up to the generator: samples are numbers of an arbitrary stream reduced to the bound"
  },
  {
   "property": "C89",
   "status": "proved",
   "theorems": [
    "C89_walk_fair"
   ],
   "note": "uniform up to the generator: samples are numbers of an arbitrary stream reduced to the bound"
  },
  {
   "property": "C90",
   "status": "proved",
   "theorems": [
    "C90_boards_fair"
   ],
   "note": "uniform up to the generator; the rejection loop is bounded by a fuel, any fuel not below the number of samples used"
  },
  {
   "property": "C91",
   "status": "proved",
   "theorems": [
    "C91_unbiased"
   ],
   "note": ""
  },
  {
   "property": "C92",
   "status": "partial",
   "theorems": [
    "C92_refuted"
   ],
   "note": "Refuted: with eight players and 256 hands each the number of positions is 2^64 and wraps to zero; the release build reports a finished run without a board, the checked build panics. C94 says what holds."
  },
  {
   "property": "C93",
   "status": "proved",
   "theorems": [
    "C93_never_stops"
   ],
   "note": "not returning is modelled as: no schedule, however long, ends with all threads finished"
  },
  {
   "property": "C94",
   "status": "proved",
   "theorems": [
    "C94_positions_wrap"
   ],
   "note": ""
  },
  {
   "property": "C95",
   "status": "partial",
   "theorems": [
    "C95_refuted"
   ],
   "note": "Refuted: the equity of a hand outside the range is computed as 0/0 when batches are merged, and stays NaN. C96 says what holds."
  },
  {
   "property": "C96",
   "status": "proved",
   "theorems": [
    "C96_exact",
    "C96_approx"
   ],
   "note": ""
  },
  {
   "property": "C97",
   "status": "proved",
   "theorems": [
    "C97_true_equity"
   ],
   "note": ""
  },
  {
   "property": "C98",
   "status": "partial",
   "theorems": [
    "C98_refuted"
   ],
   "note": "Refuted: it is the counted part of the ties divided by the total, half of the tie rate with two players. C96 says what holds."
  },
  {
   "property": "C99",
   "status": "proved",
   "theorems": [
    "C99_hands_and_weights",
    "C99_combos",
    "C99_categories",
    "C99_rank_and_draws",
    "C99_draws"
   ],
   "note": ""
  },
  {
   "property": "C100",
   "status": "partial",
   "theorems": [
    "C100_refuted",
    "C100_never_exact",
    "C100_never_approx"
   ],
   "note": "Refuted: the flag is never set, nor are rank and draw, as the other theorems say."
  },
  {
   "property": "C101",
   "status": "proved",
   "theorems": [
    "C101_masks_exact"
   ],
   "note": ""
  },
  {
   "property": "C102",
   "status": "partial",
   "theorems": [
    "C102_refuted"
   ],
   "note": "Refuted: a hand with card 2 contains 67. C103 says what holds."
  },
  {
   "property": "C103",
   "status": "proved",
   "theorems": [
    "C103_beyond_the_deck",
    "C103_panics"
   ],
   "note": ""
  },
  {
   "property": "C104",
   "status": "partial",
   "theorems": [
    "C104_refuted"
   ],
   "note": "Refuted: four aces and four kings, or seven cards with repetitions, give an index beyond the table. C03 says what holds."
  },
  {
   "property": "C105",
   "status": "partial",
   "theorems": [
    "C105_refuted"
   ],
   "note": "Refuted: the same ace twice is worth a pair of aces."
  },
  {
   "property": "C106",
   "status": "proved",
   "theorems": [
    "C106_order",
    "C106_meaning"
   ],
   "note": ""
  },
  {
   "property": "C107",
   "status": "partial",
   "theorems": [
    "C107_refuted"
   ],
   "note": "Refuted: cmp ignores the weight and the player, equality does not. C106 says what holds."
  },
  {
   "property": "C108",
   "status": "proved",
   "theorems": [
    "C108_exact_no_deviation"
   ],
   "note": ""
  },
  {
   "property": "C109",
   "status": "proved",
   "theorems": [
    "C109_batches_counted"
   ],
   "note": ""
  },
  {
   "property": "C110",
   "status": "partial",
   "theorems": [
    "C110_refuted"
   ],
   "note": "Refuted: the last, empty batch of every thread is counted. C109 says what holds."
  },
  {
   "property": "C111",
   "status": "proved",
   "theorems": [
    "C111_deviation_is_equity"
   ],
   "note": ""
  },
  {
   "property": "C112",
   "status": "proved",
   "theorems": [
    "C112_order"
   ],
   "note": ""
  },
  {
   "property": "C113",
   "status": "proved",
   "theorems": [
    "C113_unusable"
   ],
   "note": ""
  },
  {
   "property": "C114",
   "status": "proved",
   "theorems": [
    "C114_suits"
   ],
   "note": ""
  },
  {
   "property": "C115",
   "status": "proved",
   "theorems": [
    "C115_weights"
   ],
   "note": ""
  },
  {
   "property": "C116",
   "status": "proved",
   "theorems": [
    "C116_parts",
    "C116_conflict"
   ],
   "note": ""
  },
  {
   "property": "C117",
   "status": "partial",
   "theorems": [
    "C117_refuted"
   ],
   "note": "Refuted: boards that differ only in irrelevant cards are evaluated once. C118 says what holds."
  },
  {
   "property": "C118",
   "status": "proved",
   "theorems": [
    "C118_at_most"
   ],
   "note": ""
  },
  {
   "property": "C119",
   "status": "proved",
   "theorems": [
    "C119_exact",
    "C119_approx",
    "C119_two_players"
   ],
   "note": ""
  },
  {
   "property": "C120",
   "status": "proved",
   "theorems": [
    "C120_true_equity"
   ],
   "note": ""
  },
  {
   "property": "C121",
   "status": "proved",
   "theorems": [
    "C121_threads"
   ],
   "note": ""
  },
  {
   "property": "C122",
   "status": "proved",
   "theorems": [
    "C122_at_least",
    "C122_complete_board"
   ],
   "note": ""
  },
  {
   "property": "C123",
   "status": "proved",
   "theorems": [
    "C123_order",
    "C123_unusable",
    "C123_suits"
   ],
   "note": ""
  },
  {
   "property": "C124",
   "status": "proved",
   "theorems": [
    "C124_exact",
    "C124_approx"
   ],
   "note": ""
  },
  {
   "property": "C125",
   "status": "proved",
   "theorems": [
    "C125_exact",
    "C125_approx"
   ],
   "note": ""
  },
  {
   "property": "C126",
   "status": "proved",
   "theorems": [
    "C126_weights"
   ],
   "note": ""
  },
  {
   "property": "C127",
   "status": "proved",
   "theorems": [
    "C127_fractions",
    "C127_weights"
   ],
   "note": ""
  },
  {
   "property": "C128",
   "status": "proved",
   "theorems": [
    "C128_exact",
    "C128_approx",
    "C128_true_equity"
   ],
   "note": ""
  },
  {
   "property": "C129",
   "status": "proved",
   "theorems": [
    "C129_seats"
   ],
   "note": ""
  },
  {
   "property": "C130",
   "status": "proved",
   "theorems": [
    "C130_read_back",
    "C130_parsed",
    "C130_display"
   ],
   "note": ""
  },
  {
   "property": "C131",
   "status": "proved",
   "theorems": [
    "C131_same_meaning",
    "C131_order",
    "C131_redundant"
   ],
   "note": ""
  },
  {
   "property": "C132",
   "status": "proved",
   "theorems": [
    "C132_abbreviations"
   ],
   "note": ""
  },
  {
   "property": "C133",
   "status": "proved",
   "theorems": [
    "C133_exact",
    "C133_approx"
   ],
   "note": ""
  },
  {
   "property": "C134",
   "status": "proved",
   "theorems": [
    "C134_same_range"
   ],
   "note": ""
  },
  {
   "property": "C135",
   "status": "proved",
   "theorems": [
    "C135_order"
   ],
   "note": ""
  },
  {
   "property": "C136",
   "status": "proved",
   "theorems": [
    "C136_alike"
   ],
   "note": ""
  },
  {
   "property": "C137",
   "status": "proved",
   "theorems": [
    "C137_table"
   ],
   "note": ""
  },
  {
   "property": "C138",
   "status": "partial",
   "theorems": [
    "C138_refuted"
   ],
   "note": "Refuted: the error is only noticed when ranges are combined. Four players who all need one of three aces, with 126 hands each, admit no deal, but any two of the ranges have 10332 compatible pairs, more than MAX_SIZE, so nothing is combined and the run returns Ok. The converse is C35; what such a run returns is C139."
  },
  {
   "property": "C139",
   "status": "proved",
   "theorems": [
    "C139_exact",
    "C139_approx"
   ],
   "note": ""
  },
  {
   "property": "C140",
   "status": "proved",
   "theorems": [
    "C140_conflict",
    "C140_text"
   ],
   "note": ""
  },
  {
   "property": "C141",
   "status": "proved",
   "theorems": [
    "C141_exact",
    "C141_approx"
   ],
   "note": ""
  },
  {
   "property": "C142",
   "status": "proved",
   "theorems": [
    "C142_complete",
    "C142_three"
   ],
   "note": ""
  },
  {
   "property": "C143",
   "status": "proved",
   "theorems": [
    "C143_possible",
    "C143_exact_too"
   ],
   "note": ""
  },
  {
   "property": "C144",
   "status": "proved",
   "theorems": [
    "C144_exact",
    "C144_approx"
   ],
   "note": ""
  },
  {
   "property": "C145",
   "status": "proved",
   "theorems": [
    "C145_exact",
    "C145_approx"
   ],
   "note": ""
  },
  {
   "property": "C146",
   "status": "proved",
   "theorems": [
    "C146_exact",
    "C146_approx"
   ],
   "note": ""
  },
  {
   "property": "C147",
   "status": "proved",
   "theorems": [
    "C147_showdown"
   ],
   "note": ""
  },
  {
   "property": "C148",
   "status": "proved",
   "theorems": [
    "C148_masks",
    "C148_hands"
   ],
   "note": ""
  },
  {
   "property": "C149",
   "status": "proved",
   "theorems": [
    "C149_masks",
    "C149_hands"
   ],
   "note": ""
  },
  {
   "property": "C150",
   "status": "proved",
   "theorems": [
    "C150_masks",
    "C150_hands"
   ],
   "note": ""
  },
  {
   "property": "C151",
   "status": "proved",
   "theorems": [
    "C151_best_five"
   ],
   "note": ""
  },
  {
   "property": "C152",
   "status": "proved",
   "theorems": [
    "C152_same_value",
    "C152_number_of_values"
   ],
   "note": ""
  },
  {
   "property": "C153",
   "status": "proved",
   "theorems": [
    "C153_categories"
   ],
   "note": ""
  },
  {
   "property": "C154",
   "status": "proved",
   "theorems": [
    "C154_messages"
   ],
   "note": ""
  },
  {
   "property": "C155",
   "status": "proved",
   "theorems": [
    "C155_exact_step",
    "C155_approx_step",
    "C155_exact",
    "C155_approx"
   ],
   "note": ""
  },
  {
   "property": "C156",
   "status": "proved",
   "theorems": [
    "C156_returns",
    "C156_by_name"
   ],
   "note": ""
  },
  {
   "property": "C157",
   "status": "partial",
   "theorems": [
    "C157_refuted"
   ],
   "note": "Refuted: without overflow checks player 2^63 is player 0, as 1326 * 2^63 is a multiple of 2^64. See C158."
  },
  {
   "property": "C158",
   "status": "proved",
   "theorems": [
    "C158_exact",
    "C158_exact_combo",
    "C158_approx"
   ],
   "note": ""
  },
  {
   "property": "C159",
   "status": "proved",
   "theorems": [
    "C159_text_equities"
   ],
   "note": ""
  },
  {
   "property": "C160",
   "status": "proved",
   "theorems": [
    "C160_fewer",
    "C160_fewer_approx",
    "C160_player",
    "C160_seats"
   ],
   "note": ""
  },
  {
   "property": "C161",
   "status": "proved",
   "theorems": [
    "C161_no_overflow"
   ],
   "note": ""
  },
  {
   "property": "C162",
   "status": "proved",
   "theorems": [
    "C162_combo_by_name"
   ],
   "note": ""
  },
  {
   "property": "C163",
   "status": "proved",
   "theorems": [
    "C163_all_combos"
   ],
   "note": ""
  },
  {
   "property": "C164",
   "status": "proved",
   "theorems": [
    "C164_hands",
    "C164_combos"
   ],
   "note": ""
  },
  {
   "property": "C165",
   "status": "proved",
   "theorems": [
    "C165_duel"
   ],
   "note": ""
  },
  {
   "property": "C166",
   "status": "proved",
   "theorems": [
    "C166_exact",
    "C166_approx"
   ],
   "note": ""
  },
  {
   "property": "C167",
   "status": "proved",
   "theorems": [
    "C167_exact",
    "C167_approx"
   ],
   "note": ""
  },
  {
   "property": "C168",
   "status": "proved",
   "theorems": [
    "C168_exact",
    "C168_approx"
   ],
   "note": ""
  },
  {
   "property": "C169",
   "status": "proved",
   "theorems": [
    "C169_exact",
    "C169_approx"
   ],
   "note": ""
  }
 ]
}