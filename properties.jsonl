{"id": "C01", "title": "Hand values order hands exactly as poker does", "statement": "For any two sets of 2 to 7 distinct cards, Hand::evaluate of the first is less than / equal to / greater than Hand::evaluate of the second exactly when the first set's best five-card hand (all its cards when it has fewer than five) loses to / ties / beats the second's under the rules of poker, including the A-5 straight, kickers and flush ties.", "quantifier": "every pair of sets of 2..7 distinct cards of the 52-card deck, each added to the hand in any order", "why_tests_cant": "There are about 1.5*10^8 seven-card sets and 10^16 pairs; the unit tests compare a handful of hands, and the tables are opaque numbers.", "anchors": ["src/hand_evaluator/hand.rs: Hand::evaluate, Hand::get_flush_key, Hand::has_flush", "src/lookup.rs: LOOKUP", "src/flush_lookup.rs: LOOKUP_FLUSH", "src/hash_offsets.rs: PERF_HASH_OFFSETS"]}
{"id": "C02", "title": "The high bits of a hand value are the poker category", "statement": "For any set of 2 to 7 distinct cards evaluate() / 4096 is 1 for high card, 2 pair, 3 two pair, 4 three of a kind, 5 straight, 6 flush, 7 full house, 8 four of a kind, 9 straight flush of the best hand in the set, and so SimulationResults' rank (value / 4096 - 1) names the category 0..8.", "quantifier": "every set of 2..7 distinct cards", "why_tests_cant": "Millions of hands per category; tests try a few.", "anchors": ["src/hand_evaluator/hand.rs: Hand::evaluate", "src/constants.rs: HAND_CATEGORY_OFFSET", "src/equity_calculator/simulator.rs: Simulator::set_ranks"]}
{"id": "C03", "title": "Evaluation never reads outside its tables", "statement": "evaluate and evaluate_without_flush, which index their tables without bounds checks, read inside the tables for every hand of at most 7 distinct cards; neither panics nor has undefined behaviour, in checked and unchecked builds.", "quantifier": "every set of 0..7 distinct cards", "why_tests_cant": "An out-of-bounds get_unchecked is undefined behaviour that a passing test does not reveal.", "anchors": ["src/hand_evaluator/hand.rs: Hand::evaluate, Hand::evaluate_without_flush"]}
{"id": "C04", "title": "A hand value depends only on the set of cards", "statement": "Adding the same distinct cards in any order and grouping gives equal Hand objects (==) and the same value; conversely hands built from different sets of cards are unequal.", "quantifier": "every pair of sequences of at most 12 cards per suit drawn without repetition", "why_tests_cant": "Quantifies over all orders and all sets.", "anchors": ["src/hand_evaluator/hand.rs: impl Add, impl AddAssign, impl PartialEq for Hand, CARDS"]}
{"id": "C05", "title": "The flush-free fast path agrees with the full evaluation", "statement": "Whenever no suit has five or more cards, evaluate_without_flush returns the same value as evaluate.", "quantifier": "every hand", "why_tests_cant": "The simulator switches between the two on a suit count argument; tests cannot cover all boards.", "anchors": ["src/hand_evaluator/hand.rs: Hand::evaluate_without_flush", "src/equity_calculator/simulator.rs: Simulator::evaluate_hands"]}
{"id": "C06", "title": "Suits are interchangeable", "statement": "Renaming the suits of all cards by any permutation never changes a hand's value.", "quantifier": "every set of 2..7 distinct cards and every one of the 24 suit permutations", "why_tests_cant": "All sets times all permutations.", "anchors": ["src/hand_evaluator/hand.rs: Hand::evaluate"]}
{"id": "C07", "title": "More cards never hurt", "statement": "Adding cards to a set of at least 2 and at most 7 cards in total never lowers its value.", "quantifier": "every pair A subset of B of distinct cards with 2 <= |A| <= |B| <= 7", "why_tests_cant": "All pairs of nested sets.", "anchors": ["src/hand_evaluator/hand.rs: Hand::evaluate"]}
{"id": "C08", "title": "Card counters are exact", "statement": "For a hand built from distinct cards, count() is the number of cards (up to 15), suit_count(s) the number of cards of suit s (up to 12), contains(c) tells whether c was added, and has_flush() whether some suit has five or more cards.", "quantifier": "every sequence of distinct cards within those limits, every suit 0..3 and card 0..51", "why_tests_cant": "The counters are packed nibbles; carries between them show only for particular combinations.", "anchors": ["src/hand_evaluator/hand.rs: Hand::count, Hand::suit_count, Hand::contains, Hand::has_flush"]}
{"id": "C09", "title": "A hand built from a bit mask contains exactly the cards of the mask", "statement": "Hand::from_bit_mask(m) equals the hand obtained by adding one by one the cards whose bit is set among bits 0..51; higher bits are ignored.", "quantifier": "every 64-bit mask with at most 12 cards of each suit", "why_tests_cant": "2^64 masks.", "anchors": ["src/hand_evaluator/hand.rs: Hand::from_bit_mask"]}
{"id": "C10", "title": "A hand with no cards or one card is ranked below every real hand", "statement": "The value of an empty or one-card hand is at most the value of every hand of two or more cards.", "quantifier": "every set of 0..1 cards against every set of 2..7 cards", "why_tests_cant": "A user who evaluates an incomplete hand relies on it; no test does it.", "anchors": ["src/hand_evaluator/hand.rs: Hand::evaluate, impl Default for Hand"]}
{"id": "C11", "title": "Starting hands are numbered without gaps or clashes", "statement": "get_card_index is symmetric in its arguments and a bijection between the 1326 two-card hands and 0..1325; no pair of distinct cards reads outside its table.", "quantifier": "every ordered pair of distinct cards 0..51", "why_tests_cant": "A clash makes two hands share one result slot silently.", "anchors": ["src/hand_evaluator/hand.rs: get_card_index", "src/map.rs: CARD_MAP"]}
{"id": "C12", "title": "Indices are grouped pairs, suited, offsuited in blocks of one rank pair", "statement": "Indices 0..77 are pairs in blocks of 6, 78..389 suited hands in blocks of 4, 390..1325 offsuited hands in blocks of 12, every block containing exactly the hands of one rank combination; consequently combo k of combo_results aggregates exactly the hands of the k-th preflop combo.", "quantifier": "every index 0..1325", "why_tests_cant": "All 1326 entries of a literal table have to be right.", "anchors": ["src/map.rs: CARD_MAP", "src/equity_calculator/simulator.rs: SimulationResults::generate_final_data"]}
{"id": "C13", "title": "Both index functions agree", "statement": "For any two distinct cards, the index of the two-card Hand (method) equals get_card_index of the two cards (function).", "quantifier": "every pair of distinct cards", "why_tests_cant": "Two independent literal tables (4096 and 1326 entries).", "anchors": ["src/hand_evaluator/hand.rs: Hand::get_card_index, get_card_index", "src/map.rs: MASK_MAP, CARD_MAP"]}
{"id": "C14", "title": "Looking up a starting hand by name finds that hand", "statement": "get_hand_result with the name of two distinct cards (rank, suit, rank, suit with the higher rank first, pairs in the library's suit order) returns the result slot of these two cards for that player; get_combo_result with AA, AKs, AKo, ... returns the slot aggregating exactly the hands of that name; any other text returns an error and never another hand's result.", "quantifier": "every player index, every text", "why_tests_cant": "1326 + 169 names and all other strings.", "anchors": ["src/string_lookup.rs: INDEX_TO_HAND, HAND_TO_INDEX, INDEX_TO_COMBO, COMBO_TO_INDEX", "src/equity_calculator/simulator.rs: SimulationResults::get_hand_result, SimulationResults::get_combo_result"]}
{"id": "C15", "title": "The printed form of a combo is accepted by get_hand_result", "statement": "For every combo of every range, the text printed by Display for Combo is a name accepted by get_hand_result.", "quantifier": "every two distinct cards", "why_tests_cant": "All 1326 combos; the two naming conventions are in different files.", "anchors": ["src/hand_range.rs: impl Display for Combo", "src/string_lookup.rs: INDEX_TO_HAND"]}
{"id": "C16", "title": "Card masks survive printing and parsing", "statement": "get_card_mask(mask_to_string(m)) = m for every mask of cards; mask_to_string ignores bits 52..63.", "quantifier": "every m < 2^52 (and every 64-bit m for the second half)", "why_tests_cant": "2^52 masks.", "anchors": ["src/hand_range.rs: get_card_mask, mask_to_string"]}
{"id": "C17", "title": "get_card_mask accepts exactly concatenated card names", "statement": "get_card_mask(text) never panics; if text is a concatenation of card names (rank then suit, any case) the result has exactly these cards' bits; otherwise it is 0.", "quantifier": "every text", "why_tests_cant": "All strings.", "anchors": ["src/hand_range.rs: get_card_mask"]}
{"id": "C18", "title": "card_from_str returns a card only for a card name", "statement": "card_from_str(text) is Ok(c) only if text is a rank character followed by a suit character naming c, and every card's printed name parses back to it.", "quantifier": "every text", "why_tests_cant": "All strings.", "anchors": ["src/hand_range.rs: card_from_str, card_to_string"]}
{"id": "C19", "title": "flop_from_str parses exactly three different cards", "statement": "For three card names in any order, with any white space between them, flop_from_str returns the three cards in increasing order if they are different and an error otherwise; text after the third card is an error.", "quantifier": "every three cards, every amount of white space between them, every trailing text", "why_tests_cant": "All combinations.", "anchors": ["src/hand_range.rs: flop_from_str"]}
{"id": "C20", "title": "Hole cards print as both cards", "statement": "hole_to_string of two distinct cards is the name of the lower card followed by the name of the higher card, does not depend on their order, and parses back with get_card_mask to exactly these two cards.", "quantifier": "every two distinct cards", "why_tests_cant": "All pairs.", "anchors": ["src/hand_range.rs: hole_to_string, holes_to_strings"]}
{"id": "C21", "title": "Parsing a range never panics and always terminates", "statement": "HandRange::from_string returns for every text, in checked and unchecked builds.", "quantifier": "every text (every sequence of Unicode characters), both build profiles", "why_tests_cant": "Parsing uses unguarded indexing and unchecked integer arithmetic; only particular inputs reach the bad states.", "anchors": ["src/hand_range.rs: HandRange::from_string, parse_hand, parse_weight, parse_combos_dash"]}
{"id": "C22", "title": "Parsed ranges are well formed", "statement": "Every combo of a parsed range consists of two different cards 0..51, the higher first, with weight 0..100; no hand occurs twice; and for every text other than random the combos are strictly sorted (by the two ranks, then the two suits).", "quantifier": "every text", "why_tests_cant": "All strings.", "anchors": ["src/hand_range.rs: HandRange::from_string, add_combo, remove_duplicates"]}
{"id": "C23", "title": "Range notation denotes the standard set of hands", "statement": "For every list of well-formed terms (exact hands, XY / XYs / XYo, XX, with +, with a dash, each with an optional @weight) the range parsed from its text contains a hand exactly when some term denotes it.", "quantifier": "every list of well-formed terms", "why_tests_cant": "Infinitely many texts; the combinations of ranks, suitedness and ranges are many.", "anchors": ["src/hand_range.rs: parse_hand, add_combos, add_combos_plus, add_combos_dash"]}
{"id": "C24", "title": "The first mention of a hand fixes its weight", "statement": "If several terms denote the same hand, the parsed range gives it the weight of the first of them (100 when that term has no @weight).", "quantifier": "every list of well-formed terms", "why_tests_cant": "Depends on the stability of the sort and on dedup over every history of insertions.", "anchors": ["src/hand_range.rs: remove_duplicates, impl Ord for Combo, impl PartialEq for Combo"]}
{"id": "C25", "title": "random is every hand once", "statement": "The range random contains each of the 1326 hands exactly once with weight 100.", "quantifier": "all 1326 hands", "why_tests_cant": "A test counts them but does not identify them.", "anchors": ["src/hand_range.rs: HandRange::from_string, add_all"]}
{"id": "C26", "title": "Range text is case-insensitive", "statement": "Changing the case of ASCII letters in a range text does not change the parsed range.", "quantifier": "every ASCII text", "why_tests_cant": "All strings.", "anchors": ["src/hand_range.rs: HandRange::from_string"]}
{"id": "C27", "title": "A malformed tail is dropped, never misread", "statement": "If a list of well-formed terms is followed by a comma and text that does not start with a rank character, the parsed range is that of the well-formed terms.", "quantifier": "every list of terms, every such tail", "why_tests_cant": "All strings.", "anchors": ["src/hand_range.rs: HandRange::from_string, parse_hand"]}
{"id": "C28", "title": "A weight above 100 is never accepted", "statement": "A term with @n, n > 100 written in decimal with any number of digits, never yields a weight obtained from n; n <= 100 yields weight n.", "quantifier": "every decimal number", "why_tests_cant": "Numbers of unbounded length against a 32-bit accumulator.", "anchors": ["src/hand_range.rs: parse_weight"]}
{"id": "C29", "title": "Removing conflicting combos keeps exactly the compatible ones", "statement": "remove_conflicting_combos(board, dead) keeps, in order and with their weights, exactly the combos sharing no card with either mask.", "quantifier": "every parsed or well-formed range, every pair of masks", "why_tests_cant": "All ranges and masks.", "anchors": ["src/hand_range.rs: HandRange::remove_conflicting_combos"]}
{"id": "C30", "title": "The order on combos is a total order consistent with equality", "statement": "cmp on combos of cards is reflexive, antisymmetric, transitive and total, and cmp returns Equal exactly when == holds (weights ignored); sorting a range is therefore well defined.", "quantifier": "every three combos with cards 0..51", "why_tests_cant": "All triples.", "anchors": ["src/hand_range.rs: impl Ord for Combo, impl PartialEq for Combo"]}
{"id": "C31", "title": "Dash ranges mean the same in both directions", "statement": "a term X-Y denotes the same hands as Y-X.", "quantifier": "every two endpoints of equal kind", "why_tests_cant": "All pairs of endpoints.", "anchors": ["src/hand_range.rs: parse_combos_dash, add_combos_dash"]}
{"id": "C32", "title": "Fast division is exact", "statement": "DividerU64::divide_by(d).divide(n) = n / d for all 64-bit n and d > 0, without panic in either build profile; d = 0 panics.", "quantifier": "every n, d < 2^64", "why_tests_cant": "2^128 pairs; the tests try about a hundred divisors.", "anchors": ["src/fastdivide.rs: DividerU64::divide_by, DividerU64::divide"]}
{"id": "C33", "title": "Combining ranges loses and invents nothing", "statement": "For up to nine ranges, the combined ranges partition the players, and the combos of each combined range are exactly the card-disjoint choices of one combo per member player, each as many times as it can be chosen, with cards, weights and card mask preserved.", "quantifier": "every list of at most nine well-formed ranges", "why_tests_cant": "All ranges; which ranges are merged depends on their sizes.", "anchors": ["src/equity_calculator/combined_range.rs: CombinedRange::from_ranges, join"]}
{"id": "C34", "title": "Range combination terminates at a fixed point below the limit", "statement": "from_ranges always terminates; when it stops any two remaining combined ranges have at least 10000 compatible pairs of combos, and every merged combined range has fewer than 10000 combos.", "quantifier": "every list of at most nine well-formed ranges", "why_tests_cant": "All ranges.", "anchors": ["src/equity_calculator/combined_range.rs: CombinedRange::from_ranges, estimate_join_size"]}
{"id": "C35", "title": "ConflictingRanges is reported only when no deal exists", "statement": "If exact_equity or approx_equity returns ConflictingRanges there is no way to give every player a hand from their range without sharing a card with another player, the board or the dead cards; and an empty range (or one emptied by the board and dead cards) always gives that error.", "quantifier": "every list of ranges, every board and dead mask", "why_tests_cant": "All ranges.", "anchors": ["src/equity_calculator/simulator.rs: exact_equity, approx_equity", "src/equity_calculator/combined_range.rs: from_ranges"]}
{"id": "C36", "title": "Arguments are validated, in a fixed order, before anything else", "statement": "exact_equity and approx_equity return TooFewPlayers for fewer than 2 ranges, else TooManyPlayers for more than 9, else TooManyBoardCards for more than 5 board cards, else TooManyDeadCards when 2*players + dead + 5 > 52, independently of everything else, and never these errors otherwise.", "quantifier": "every argument list and schedule", "why_tests_cant": "All inputs.", "anchors": ["src/equity_calculator/simulator.rs: exact_equity, approx_equity, SimulatorError"]}
{"id": "C37", "title": "Threads divide the work without overlap or omission", "statement": "Whatever the number of threads (at least one) and however they interleave, when an uncancelled exact run ends every starting-hand position has been processed exactly once.", "quantifier": "every list of ranges whose sizes multiply to less than 2^63, every board and dead mask, number of threads and schedule", "why_tests_cant": "Schedules cannot be enumerated by tests.", "anchors": ["src/equity_calculator/simulator.rs: enumerate_all, reserve_batch"]}
{"id": "C38", "title": "Every consistent deal is enumerated exactly once", "statement": "Each card-consistent choice of one hand per player, counted with multiplicity, is decoded from exactly one of the positions 0..N-1 (N the product of the sizes of the combined ranges); all other positions are skipped.", "quantifier": "every list of at most nine well-formed ranges whose sizes multiply to less than 2^63, every board and dead mask", "why_tests_cant": "All ranges; the decoding uses magic-number division.", "anchors": ["src/equity_calculator/simulator.rs: enumerate_all", "src/fastdivide.rs: DividerU64"]}
{"id": "C39", "title": "Board enumeration with suit and rank shortcuts equals brute force", "statement": "For given hole cards the weighted evaluations made by the recursive board enumeration, with its merging of equivalent suits and ranks and its flush-free shortcut, add up for every winner mask and every hand counter to the sum over all completions of the board by unused cards.", "quantifier": "every hole cards for 2..9 players, every board of 0..5 cards, every dead mask, every weight", "why_tests_cant": "Up to C(48,5) boards per deal for every deal.", "anchors": ["src/equity_calculator/simulator.rs: enumerate_board, enumerate_board_rec, evaluate_hands"]}
{"id": "C40", "title": "Exact results count every deal and board", "statement": "For 2 to 8 players, when an uncancelled exact_equity run returns Ok, wins_by_mask[m] is the sum, over all consistent deals and all completions of the board, of the product of the dealt combos' weights where exactly the players in m win (modulo 2^64 in a build without overflow checks).", "quantifier": "every list of ranges whose sizes multiply to less than 2^63, every board and dead mask, thread count >= 1 and schedule", "why_tests_cant": "All inputs and schedules.", "anchors": ["src/equity_calculator/simulator.rs: exact_equity, update_results"]}
{"id": "C41", "title": "Per-hand results count every deal and board", "statement": "For 2 to 9 players the wins, ties and total of every player's starting hand in hand_results are the corresponding sums over deals containing that hand.", "quantifier": "every list of ranges whose sizes multiply to less than 2^63, every board and dead mask, thread count >= 1 and schedule", "why_tests_cant": "All inputs and schedules.", "anchors": ["src/equity_calculator/simulator.rs: exact_equity, hand_results"]}
{"id": "C42", "title": "Integer results do not depend on threads or timing", "statement": "Two uncancelled exact runs with the same ranges, board and dead cards but different thread counts and schedules return the same wins_by_mask, wins, eval_count and per-hand wins, ties, totals.", "quantifier": "every list of ranges whose sizes multiply to less than 2^63, board and dead mask, every two thread counts >= 1 and schedules", "why_tests_cant": "Schedules.", "anchors": ["src/equity_calculator/simulator.rs: exact_equity"]}
{"id": "C43", "title": "The ninth player's wins are credited", "statement": "With nine players every player's wins are recorded in wins.", "quantifier": "every nine-player input", "why_tests_cant": "Tests use at most a few players.", "anchors": ["src/equity_calculator/simulator.rs: evaluate_hands"]}
{"id": "C44", "title": "Counters do not overflow", "statement": "Any accepted input of up to nine ranges produces counts without arithmetic overflow.", "quantifier": "every accepted input", "why_tests_cant": "Overflow needs long runs with many players.", "anchors": ["src/equity_calculator/simulator.rs: evaluate_hands, get_preflop_combo_count"]}
{"id": "C45", "title": "Results are self-consistent", "statement": "In an uncancelled or cancelled exact run and in any approximate run, the sum of wins_by_mask equals for each player the sum of hand totals, each hand's wins + ties <= total, and wins[p] = wins_by_mask[2^p] (2..8 players, no overflow).", "quantifier": "every input, schedule and random stream", "why_tests_cant": "Schedules and random streams.", "anchors": ["src/equity_calculator/simulator.rs: evaluate_hands, update_results"]}
{"id": "C46", "title": "Cancelling an exact run returns a correct partial count", "statement": "If the token is set at any moment the run still returns Ok, and every counter is the sum over some subset of the positions, each counted completely or not at all.", "quantifier": "every list of ranges whose sizes multiply to less than 2^63 and whose weights fit 64 bits, every moment of cancellation, every schedule", "why_tests_cant": "Cancellation points.", "anchors": ["src/equity_calculator/simulator.rs: enumerate_all"]}
{"id": "C47", "title": "Exact runs always terminate", "statement": "From every reachable state of an exact run every thread can take a step until it is done, no thread waits for another, and the number of steps to completion is bounded.", "quantifier": "every list of ranges whose sizes multiply to less than 2^63, every thread count and schedule", "why_tests_cant": "Deadlock and livelock need all schedules.", "anchors": ["src/equity_calculator/simulator.rs: enumerate_all, reserve_batch, update_results"]}
{"id": "C48", "title": "Exact progress goes up to 100", "statement": "The progress values passed to the callback by exact_equity never decrease, never exceed 100, and the last value of an uncancelled run is 100.", "quantifier": "every input and schedule", "why_tests_cant": "Schedules and floating-point rounding.", "anchors": ["src/equity_calculator/simulator.rs: update_results"]}
{"id": "C49", "title": "Equities are defined for every successful run", "statement": "Whenever exact_equity returns Ok no equity is NaN.", "quantifier": "every accepted input, thread count and schedule", "why_tests_cant": "Edge cases: zero threads, zero weights.", "anchors": ["src/equity_calculator/simulator.rs: get_equity, exact_equity"]}
{"id": "C50", "title": "Weights and validity of hands are reported as given", "statement": "In the results of a run each player's hand is valid exactly if it is in their range after removing conflicts, and then its weight is its weight in the range.", "quantifier": "every ranges, board, dead mask, schedule", "why_tests_cant": "All ranges (uniform ranges take a different path).", "anchors": ["src/equity_calculator/simulator.rs: save_hand_weights, fix_hand_weights"]}
{"id": "C51", "title": "Combo results sum their hands", "statement": "Each entry of combo_results has wins, ties and total equal to the sums over the valid hands of its block (scaled down together when the total exceeds 64 bits), and is invalid exactly when no valid hand of the block was dealt.", "quantifier": "every final hand_results", "why_tests_cant": "All contents.", "anchors": ["src/equity_calculator/simulator.rs: generate_final_data"]}
{"id": "C52", "title": "Board results partition hands by category", "statement": "On boards of 3 to 5 cards, board_results[9*p+k] sums wins, ties and totals over exactly player p's valid hands whose current best hand has category k (scaled down together when the total exceeds 64 bits).", "quantifier": "every ranges, every board of 3..5 cards", "why_tests_cant": "All boards and ranges.", "anchors": ["src/equity_calculator/simulator.rs: set_ranks, generate_board_data"]}
{"id": "C53", "title": "Draw flags are exact", "statement": "get_draw reports a flush draw exactly when some suit has four cards among hole cards and board, a backdoor flush draw exactly when some suit has exactly three on a flop, and reports an open-ended straight draw whenever four consecutive ranks that can be extended at both ends are present.", "quantifier": "every two hole cards and board of 3 or 4 cards of category below straight", "why_tests_cant": "All hands.", "anchors": ["src/hand_evaluator/hand.rs: get_draw"]}
{"id": "C54", "title": "Dead and board cards are never dealt", "statement": "No deal or board evaluated in an exact run uses a dead card, or a card twice.", "quantifier": "every list of ranges whose sizes multiply to less than 2^63, every board and dead mask, thread count, schedule and cancellation", "why_tests_cant": "All inputs.", "anchors": ["src/equity_calculator/simulator.rs: enumerate_all, enumerate_board"]}
{"id": "C55", "title": "Seats do not matter", "statement": "Permuting the ranges permutes the exact results correspondingly: the count of a winner mask moves to the permuted mask.", "quantifier": "every list of ranges whose sizes multiply to less than 2^63 (for masks at most eight), every permutation, all thread counts >= 1 and schedules", "why_tests_cant": "All inputs; the merging of ranges depends on the seat order.", "anchors": ["src/equity_calculator/simulator.rs: exact_equity", "src/equity_calculator/combined_range.rs: from_ranges"]}
{"id": "C56", "title": "Wins and tie shares add up to all the weight", "statement": "The sum of wins and ties over all players equals the total weight counted in wins_by_mask.", "quantifier": "every input", "why_tests_cant": "Integer division when sharing pots depends on batch boundaries.", "anchors": ["src/equity_calculator/simulator.rs: update_results"]}
{"id": "C57", "title": "Every sampled deal is legal", "statement": "In approx_equity, whatever the random numbers, every evaluated deal gives each player two cards from their range with that hand's weight, no card is used twice or dead, and the board extends the given board to five cards.", "quantifier": "every input, random stream and schedule", "why_tests_cant": "Random streams.", "anchors": ["src/equity_calculator/simulator.rs: sim_random_walk_monte_carlo, randomize_hole_cards, randomize_board"]}
{"id": "C58", "title": "The random walk never gets stuck or corrupts its card mask", "statement": "The step to the next combo always terminates within one round of the combined range and never underflows the used-card mask.", "quantifier": "every reachable state of the walk, every random stream", "why_tests_cant": "Random streams.", "anchors": ["src/equity_calculator/simulator.rs: sim_random_walk_monte_carlo"]}
{"id": "C59", "title": "approx_equity leaves the caller's cancel token alone", "statement": "After approx_equity returns, the cancel token has the value the caller gave it.", "quantifier": "every run", "why_tests_cant": "Needs the convergence path.", "anchors": ["src/equity_calculator/simulator.rs: update_results, approx_equity"]}
{"id": "C60", "title": "Approximate progress stays within 0-100", "statement": "The values passed to the callback by approx_equity are at most 100.", "quantifier": "every run", "why_tests_cant": "Floating point near convergence.", "anchors": ["src/equity_calculator/simulator.rs: update_results"]}
{"id": "C61", "title": "Unpaired hands can be looked up by their printed text", "statement": "For every combo of two cards of different rank, the higher first, the Display text is accepted by get_hand_result and finds that hand; for pocket pairs it never is.", "quantifier": "every combo", "why_tests_cant": "All combos and result vectors.", "anchors": ["src/hand_range.rs: Display for Combo", "src/equity_calculator/simulator.rs: get_hand_result"]}
{"id": "C62", "title": "card_from_str reads card names", "statement": "Every card name (rank in either case, suit in lower case) is read as its card; card_to_string prints such a name; in checked builds a value below 52 is only returned for a name of that card.", "quantifier": "every text", "why_tests_cant": "All strings.", "anchors": ["src/hand_range.rs: card_from_str, card_to_string"]}
{"id": "C63", "title": "Only a ten-digit weight can make parsing fail", "statement": "Unchecked builds parse every text; checked builds either return the same range or panic with an arithmetic overflow, and cannot panic on ASCII text without ten digits in a row.", "quantifier": "every text", "why_tests_cant": "All strings.", "anchors": ["src/hand_range.rs: HandRange::from_string, parse_weight"]}
{"id": "C64", "title": "Range text other than random is case-insensitive", "statement": "Two ASCII texts differing only in the case of letters, neither being random, give the same range.", "quantifier": "every two such texts", "why_tests_cant": "All strings.", "anchors": ["src/hand_range.rs: HandRange::from_string"]}
{"id": "C65", "title": "Weights above 100 below 2^32 are ignored and end the list", "statement": "After well-formed terms, a term with @n, 100 < n < 2^32, counts with weight 100 and everything after it is dropped.", "quantifier": "every list of terms, shape, number and tail", "why_tests_cant": "All strings.", "anchors": ["src/hand_range.rs: parse_weight, parse_hand"]}
{"id": "C66", "title": "Unpaired dash ranges mean the same in both directions", "statement": "For unpaired endpoints X and Y sharing a rank, X-Y parses to the same range as Y-X.", "quantifier": "every two such endpoints, suitedness and weight", "why_tests_cant": "All strings.", "anchors": ["src/hand_range.rs: add_combos_dash"]}
{"id": "C67", "title": "With nine players only the first eight are seen in winner masks", "statement": "With nine players wins[8] and all masks with bit 8 stay 0; a deal won by the ninth player is counted under the mask of the other winners.", "quantifier": "every list of ranges whose sizes multiply to less than 2^63, board, dead mask, thread count >= 1, schedule", "why_tests_cant": "Nine-player runs are never tested.", "anchors": ["src/equity_calculator/simulator.rs: evaluate_hands"]}
{"id": "C68", "title": "Overflow of the counters is the only possible panic of an exact run", "statement": "An exact run on accepted arguments whose threads get enough steps returns Ok or ConflictingRanges, or panics with an arithmetic overflow; the latter only in checked builds and only if the product of the ranges' summed weights (each at least 1) times the number of completions of the board (at least 7776) reaches 2^64.", "quantifier": "every list of ranges whose sizes multiply to less than 2^63, every board and dead mask, thread count, schedule and cancellation", "why_tests_cant": "All inputs and schedules.", "anchors": ["src/equity_calculator/simulator.rs: exact_equity"]}
{"id": "C69", "title": "Rank and draws of a hand on the board", "statement": "On boards of 3 to 5 cards every valid hand is reported with the category of its current best hand; with fewer than five board cards its draw flags are those of get_draw for that hand, board and category, with five cards there are none.", "quantifier": "every ranges, board of 3..5 cards, dead mask, schedule and cancellation", "why_tests_cant": "All boards and ranges.", "anchors": ["src/equity_calculator/simulator.rs: set_ranks"]}
{"id": "C70", "title": "Board draws sum the hands with each draw", "statement": "On boards of 3 to 5 cards board_draws[10*p+k] sums wins, ties and totals over exactly player p's valid hands with the k-th draw flag for k < 7, and for k = 7, 8, 9 over those with the nut flag that have only a backdoor flush draw, a flush draw, or neither (scaled down together when the total exceeds 64 bits).", "quantifier": "every ranges, board of 3..5 cards, dead mask, schedule and cancellation", "why_tests_cant": "All boards and ranges.", "anchors": ["src/equity_calculator/simulator.rs: generate_board_data"]}
{"id": "C71", "title": "Straight draw flags without the wheel", "statement": "For a hand below a straight on a board of at most four cards: the open-ended, gutshot or double-gutshot flag is set exactly if some missing rank completes a straight other than the wheel; open-ended or double-gutshot exactly if two ranks do; open-ended exactly if four consecutive ranks from 3-6 to T-K are held. The backdoor flag is only set on boards of fewer than four cards when two more ranks make such a straight, and always set then if none of the other flags is.", "quantifier": "every two hole cards and board of at most 4 cards, category below straight", "why_tests_cant": "All hands.", "anchors": ["src/hand_evaluator/hand.rs: get_draw"]}
{"id": "C72", "title": "Every straight draw is flagged", "statement": "If one more card makes a straight, one of the straight draw flags is set.", "quantifier": "every two hole cards and board of at most 4 cards, category below straight", "why_tests_cant": "All hands.", "anchors": ["src/hand_evaluator/hand.rs: get_draw"]}
{"id": "C73", "title": "Nut straight flag", "statement": "The nut straight flag is set exactly if the hand is a straight other than the wheel and no two ranks make a higher straight with the board.", "quantifier": "every two hole cards and board of at most 4 cards", "why_tests_cant": "All hands.", "anchors": ["src/hand_evaluator/hand.rs: get_draw"]}
{"id": "C74", "title": "Every unbeatable straight is flagged", "statement": "A straight that no straight made with any two cards beats has the nut straight flag.", "quantifier": "every two hole cards and board of at most 4 cards", "why_tests_cant": "All hands.", "anchors": ["src/hand_evaluator/hand.rs: get_draw"]}
{"id": "C75", "title": "Nut flush flag", "statement": "The nut flag is set exactly if the player holds the highest card not on the board of a suit they have a flush in (category flush) or a flush draw or backdoor flush draw in (lower categories); never above a flush.", "quantifier": "every two hole cards and board of at most 4 cards", "why_tests_cant": "All hands.", "anchors": ["src/hand_evaluator/hand.rs: get_draw"]}
{"id": "C76", "title": "Overflow of the counters is the only possible panic of an approximate run", "statement": "An approximate run on accepted arguments returns Ok, or ConflictingRanges when no deal is possible, or is not over yet, or panics with an arithmetic overflow; the latter only in checked builds and only if the number of steps taken times the product of the ranges' largest weights (each at least 1) reaches 2^64.", "quantifier": "every list of ranges, accepted board and dead mask, thread count, target, random streams, shuffles, schedule and cancellation", "why_tests_cant": "All inputs, random streams and schedules.", "anchors": ["src/equity_calculator/simulator.rs: approx_equity, sim_random_walk_monte_carlo"]}
{"id": "C77", "title": "The first batch merged always stops an approximate run", "statement": "For every target above 2^-14 the first flush of any thread's counters stores true in the stop flag, whatever was sampled; for targets from 2^-13 up to 2^60 the progress it reports is 255.", "quantifier": "every list of ranges, accepted board and dead mask, thread count, random streams, schedule and cancellation; checked builds, or steps times the product of the largest weights below 2^64", "why_tests_cant": "Binary64 rounding for every possible batch of samples.", "anchors": ["src/equity_calculator/simulator.rs: update_results, sim_random_walk_monte_carlo"]}
{"id": "C78", "title": "With one thread an approximate run evaluates at most 4096 boards", "statement": "With one thread and a target above 2^-14, eval_count of the result is at most 4096.", "quantifier": "every list of ranges, accepted board and dead mask, random streams, shuffles, schedule and cancellation; checked builds, or steps times the product of the largest weights below 2^64", "why_tests_cant": "All random streams.", "anchors": ["src/equity_calculator/simulator.rs: approx_equity, update_results"]}
{"id": "C79", "title": "A run that stopped by itself reports a deviation within the target", "statement": "If nobody cancelled and the run stopped because it converged, the reported stdev is not above stdev_target.", "quantifier": "every run", "why_tests_cant": "Needs the merge of the last, empty batch.", "anchors": ["src/equity_calculator/simulator.rs: update_results, sim_random_walk_monte_carlo"]}
{"id": "C80", "title": "How any ASCII text is parsed as a range", "statement": "The text is read from the left as terms separated by commas; reading stops at the first thing that is not a term, or after a term no comma follows, and the rest is dropped. A term is two cards, two ranks with an optional s or o, the same with +, or two such pairs joined by a dash, where both are pairs or both share a rank, and the second repeats the first's s or o or gives none. Its weight is 100 unless @ and a number up to 100 follow (@ without digits is 0). The range holds exactly the hands some term read denotes, with the weight of the first such term.", "quantifier": "every ASCII text other than random without ten digits in a row, well formed or not, both build profiles", "why_tests_cant": "All texts.", "anchors": ["src/hand_range.rs: from_string, parse_hand, parse_combos_dash, parse_weight, parse_char, parse_rank, parse_suit"]}
{"id": "C81", "title": "An approximate run evaluates whole batches", "statement": "eval_count of every result of approx_equity is a multiple of 4096.", "quantifier": "every list of ranges, board and dead mask, thread count, target, random streams, schedule and cancellation", "why_tests_cant": "All random streams and schedules.", "anchors": ["src/equity_calculator/simulator.rs: approx_equity, sim_random_walk_monte_carlo"]}
{"id": "C82", "title": "Every thread of an approximate run evaluates one batch", "statement": "If no two ranges have a card in common and the target is above 2^-14, eval_count is 4096 times the number of threads: neither the target nor a cancellation changes the size of the sample.", "quantifier": "every such list of ranges, board and dead mask, random streams, schedule and cancellation; checked builds, or steps times the product of the largest weights below 2^64", "why_tests_cant": "All random streams and schedules.", "anchors": ["src/equity_calculator/simulator.rs: approx_equity, sim_random_walk_monte_carlo, update_results"]}
{"id": "C83", "title": "Such a run ends", "statement": "With the conditions of C82, a complete board and a possible deal, the run returns Ok once every thread has taken 8195 steps.", "quantifier": "every such list of ranges, board and dead mask, random streams and schedule with that many steps of every thread; steps times the product of the largest weights below 2^64", "why_tests_cant": "Termination for all random streams and schedules.", "anchors": ["src/equity_calculator/simulator.rs: approx_equity, sim_random_walk_monte_carlo, update_results"]}
{"id": "C84", "title": "Equities are between 0 and 1, or nothing was won", "statement": "Every equity of a successful run satisfies 0.0 <= e and e <= 1.0, unless all wins are 0 and all ties are 0.0; then every equity is NaN.", "quantifier": "every exact run on ranges the memory holds and every approximate run, any thread count, schedule, random stream and cancellation, both build profiles, also after a counter has wrapped", "why_tests_cant": "Binary64 rounding of sums and quotients for every possible count.", "anchors": ["src/equity_calculator/simulator.rs: get_equity, update_results"]}
{"id": "C85", "title": "Equities are the shares of the pots counted in wins_by_mask", "statement": "Let w be the weight of all masks but 0, n the number of players, b the number of batches merged and d = n*b*(2^(n-1)-1). If the masks sum to at most 2^53 and d < w, the equity of player j is a number within d/w + 2^-53 of their share of the pots, where the pots of a mask are split evenly among its players.", "quantifier": "every exact and approximate run, any thread count, schedule, random stream and cancellation; checked builds, or weights that cannot overflow", "why_tests_cant": "All counts; rounding losses of every batch add up.", "anchors": ["src/equity_calculator/simulator.rs: update_results, get_equity"]}
{"id": "C86", "title": "An exact run reports the true equities", "statement": "With w the total weight of all possible deals and boards and d as in C85: if w is at most 2^53 and d < w, the equity of player j is a number within d/w + 2^-53 of the mean share of the pot over all deals and boards, where every pot is split evenly among the holders of the best hand.", "quantifier": "every exact run that was not cancelled, of 2 to 8 players on ranges the memory holds, any board, dead mask, thread count and schedule; checked builds, or weights that cannot overflow", "why_tests_cant": "All inputs; the definition enumerates all deals.", "anchors": ["src/equity_calculator/simulator.rs: exact_equity, update_results, get_equity"]}
{"id": "C87", "title": "Builds with and without overflow checks agree unless the checked one panics on an overflow", "statement": "Whenever the build with overflow checks does not panic on an overflow, the build without them has the same outcome: the same value, error or other panic. So successful runs whose weights cannot overflow have the same result in both builds, for the same schedule and random streams.", "quantifier": "every argument of exact_equity, approx_equity, HandRange::from_string, the Hand operations, get_draw, LibDivide and the text functions", "why_tests_cant": "Compares two builds on all inputs.", "anchors": ["src/equity_calculator/simulator.rs: exact_equity, approx_equity", "src/hand_range.rs: from_string", "src/hand_evaluator/hand.rs: get_draw, from_bit_mask", "src/fastdivide.rs: divide_by, divide"]}
{"id": "C88", "title": "Fresh deals are chosen fairly", "statement": "Every choice of one combo per combined range that has no card twice gives a possible deal, and every possible deal comes from exactly one such choice. When a thread deals afresh, each attempt samples one combo of every combined range; an attempt succeeds exactly if its choice is legal, and the first such choice of at most 1000 attempts is dealt: the hands, indexes and weights of the thread become those of that deal.", "quantifier": "every list of ranges, board and dead mask that approx_equity accepts, every thread in every reachable state, every shuffle and random stream, both build profiles", "why_tests_cant": "All random streams and reachable states; uniformity is a statement about all of them.", "anchors": ["src/equity_calculator/simulator.rs: randomize_hole_cards", "src/equity_calculator/combined_range.rs: from_ranges"]}
{"id": "C89", "title": "The random walk keeps every legal choice equally likely", "statement": "A step of the walk changes the combo of the combined range that was sampled to the next one below, wrapping around, with which the choice is legal. In each combined range the steps permute the legal choices. So among all pairs of a first legal choice and t sampled ranges, every legal choice is reached by the same number, the number of combined ranges to the t.", "quantifier": "every list of ranges, board and dead mask that approx_equity accepts, every walking thread in every reachable state, every number of steps, both build profiles", "why_tests_cant": "A counting statement over all choices and all paths.", "anchors": ["src/equity_calculator/simulator.rs: sim_random_walk_monte_carlo"]}
{"id": "C90", "title": "Random boards are chosen fairly", "statement": "A thread evaluates its hands on the given board completed by the first cards among its samples which are neither dealt, on the board, dead nor drawn before. All sequences of different unseen cards of the same length come from the same number of sequences of t samples.", "quantifier": "every list of ranges, board and dead mask that approx_equity accepts, every evaluating thread in every reachable state, every t, both build profiles", "why_tests_cant": "A counting statement over all sample sequences.", "anchors": ["src/equity_calculator/simulator.rs: randomize_board, sim_random_walk_monte_carlo"]}
{"id": "C91", "title": "The samples of an approximate run are unbiased", "statement": "Taken over all legal choices and all sequences of unseen cards completing the board, the counters of masks, and of wins, ties and totals of every hand, are the counters of the exact enumeration of all deals and boards, times the number of orders of the added cards; and so is the number of samples.", "quantifier": "every list of ranges, board and dead mask that approx_equity accepts, every mask, player and hand", "why_tests_cant": "Sums over all deals and boards.", "anchors": ["src/equity_calculator/simulator.rs: sim_random_walk_monte_carlo, randomize_hole_cards, randomize_board", "src/equity_calculator/combined_range.rs: from_ranges"]}
{"id": "C92", "title": "An exact run counts something whenever a deal is possible", "statement": "If the arguments are accepted and at least one deal is possible, an exact run that is not cancelled evaluates at least one board.", "quantifier": "every list of ranges, board and dead mask that exact_equity accepts, every schedule, both build profiles", "why_tests_cant": "Only ranges with more than 2^64 combinations show the difference.", "anchors": ["src/equity_calculator/simulator.rs: get_preflop_combo_count, reserve_batch, enumerate_all"]}
{"id": "C93", "title": "A target that is not positive never ends an approximate run", "statement": "If the target is zero, negative or not a number, and no card is in the ranges of two players, an approximate run without cancellation never stops: in every reachable state the stop flag is false and no thread has finished, and no result is returned.", "quantifier": "every list of ranges without a common card, board, dead mask, number of threads, shuffle, random stream and schedule, both build profiles", "why_tests_cant": "Non-termination cannot be observed by a test.", "anchors": ["src/equity_calculator/simulator.rs: update_results, sim_random_walk_monte_carlo, approx_equity"]}
{"id": "C94", "title": "Positions are counted modulo 2^64", "statement": "In an exact run that is not cancelled, the threads process each position below the product of the sizes of the combined ranges, taken modulo 2^64, exactly once. A run of a checked build returns a result only if the product is below 2^64.", "quantifier": "every list of ranges, board and dead mask that exact_equity accepts, every number of threads and schedule, both build profiles; remainders within two million of 2^64 excluded", "why_tests_cant": "Products this large cannot be enumerated.", "anchors": ["src/equity_calculator/simulator.rs: get_preflop_combo_count, reserve_batch, enumerate_all"]}
{"id": "C95", "title": "Every starting hand has an equity that is a number", "statement": "After a successful exact run the equity reported for every starting hand of every player is a number.", "quantifier": "every exact run that was not cancelled", "why_tests_cant": "The field is public also for hands outside the ranges.", "anchors": ["src/equity_calculator/simulator.rs: UnitResults::add_assign, update_results, generate_final_data"]}
{"id": "C96", "title": "The rates in the tables", "statement": "Of every hand that can be dealt and every preflop combination, winrate and tierate are the binary64 numbers closest to wins/total and ties/total, and the equity counts between 1/P and 1/2 of a tie, P being the smallest power of two not below the number of players; with two players it is the number closest to (wins + ties/2)/total. The same holds for categories and draws, except that their tierate is that of the counted part of the ties. Without a total the rates are 0.", "quantifier": "every exact and approximate run, any thread count, schedule, random stream and cancellation, totals up to 2^49; checked builds, or weights that cannot overflow", "why_tests_cant": "Sums of rounded shares of ties over all deals, in any order.", "anchors": ["src/equity_calculator/simulator.rs: update_ties, UnitResults::add_assign, generate_final_data, generate_board_data"]}
{"id": "C97", "title": "Against one opponent the equity of each hand is the true one", "statement": "In an exact run of two players that is not cancelled, equity, winrate and tierate of every hand that can be dealt are the binary64 numbers closest to its true values over all deals and boards.", "quantifier": "every such run with a total of the hand up to 2^49, any board, dead mask, thread count and schedule; checked builds, or weights that cannot overflow", "why_tests_cant": "All inputs; the definition enumerates all deals.", "anchors": ["src/equity_calculator/simulator.rs: evaluate_hands, update_results, generate_final_data"]}
{"id": "C98", "title": "The tie rate of a category is its ties divided by its total", "statement": "As for starting hands, the tierate of every entry of board_results and board_draws is the binary64 number closest to ties/total.", "quantifier": "every exact run", "why_tests_cant": "Compares fields computed in different places.", "anchors": ["src/equity_calculator/simulator.rs: generate_board_data"]}
{"id": "C99", "title": "The tables of an approximate run", "statement": "What C50, C51, C52, C69 and C70 say about the tables of exact runs holds for approximate runs: which hands are valid and with which weight, the sums by preflop combination, category and draw, and the rank and draws of every hand on the board.", "quantifier": "every approximate run on valid ranges, any board, dead mask, thread count, target, random streams, shuffles, schedule and cancellation; sums: checked builds, or steps times the product of the largest weights below 2^64", "why_tests_cant": "All random streams and schedules.", "anchors": ["src/equity_calculator/simulator.rs: approx_equity, generate_final_data, generate_board_data"]}
{"id": "C100", "title": "Entries with a total are marked as valid", "statement": "Every entry of board_results and board_draws with a total above 0 has valid set, as the entries of hand_results and combo_results have.", "quantifier": "every exact run", "why_tests_cant": "Concerns a flag no caller in the crate reads.", "anchors": ["src/equity_calculator/simulator.rs: generate_board_data, UnitResults::default"]}
{"id": "C101", "title": "Suit masks, rank mask and flush key name exactly the ranks held", "statement": "For a hand built from different cards, at most 12 of a suit, bit r of get_suit_mask(s) is set if and only if card 4r+s is held, bit r of get_rank_mask if and only if a card of rank r is held, and get_flush_key has the ranks of the highest-numbered suit with five cards or more; it is 0 if there is none.", "quantifier": "every such hand, built in any way, and every suit; both build profiles", "why_tests_cant": "2^52 sets of cards.", "anchors": ["src/hand_evaluator/hand.rs: get_suit_mask, get_rank_mask, get_flush_key"]}
{"id": "C102", "title": "A hand contains no number that is not a card", "statement": "contains(c) is never true for a number c from 52 to 255.", "quantifier": "every hand built from different cards, every such number, both build profiles", "why_tests_cant": "Shifts by amounts only such numbers reach.", "anchors": ["src/hand_evaluator/hand.rs: contains"]}
{"id": "C103", "title": "What contains answers beyond the deck", "statement": "Numbers from 52 to 63 are never contained. A number c from 64 to 115 that four does not divide is contained if and only if the card c-65 is. For every number from 64 to 255 that four divides, a checked build panics.", "quantifier": "every hand built from different cards, at most 12 of a suit; the panic: every hand", "why_tests_cant": "2^52 sets of cards.", "anchors": ["src/hand_evaluator/hand.rs: contains"]}
{"id": "C104", "title": "evaluate stays inside its tables for every hand the operators can build", "statement": "Whatever cards are added to a hand, with or without repetitions, evaluate reads no table beyond its end.", "quantifier": "every hand of any number of different cards; every hand of at most seven cards with repetitions", "why_tests_cant": "A read outside a table by get_unchecked need not be visible.", "anchors": ["src/hand_evaluator/hand.rs: evaluate, add_assign"]}
{"id": "C105", "title": "Adding a card that is already held changes nothing", "statement": "If a hand holds a card, adding the card again gives the same hand, or at least the same value.", "quantifier": "every hand of different cards and every card in it", "why_tests_cant": "All hands.", "anchors": ["src/hand_evaluator/hand.rs: add_assign, evaluate"]}
{"id": "C106", "title": "The order of HandWithIndex", "statement": "cmp is reflexive, antisymmetric in its answers and transitive, and one entry is less than another exactly if (rank of the first card, rank of the second, suit of the first, suit of the second) comes before in lexicographic order.", "quantifier": "all entries", "why_tests_cant": "All triples of entries.", "anchors": ["src/equity_calculator/simulator.rs: HandWithIndex::cmp, HandWithIndex::partial_cmp"]}
{"id": "C107", "title": "The order of HandWithIndex is consistent with equality", "statement": "Entries which compare as Equal are equal.", "quantifier": "all entries", "why_tests_cant": "All pairs of entries.", "anchors": ["src/equity_calculator/simulator.rs: HandWithIndex::cmp, HandWithIndex"]}
{"id": "C108", "title": "Exact runs report no deviation", "statement": "After a successful exact run stdev, batch_count, batch_sum and batch_sum2 are 0.0.", "quantifier": "every exact run, any ranges, thread count, schedule and cancellation, both build profiles", "why_tests_cant": "All schedules.", "anchors": ["src/equity_calculator/simulator.rs: exact_equity, update_results"]}
{"id": "C109", "title": "What an approximate run counts as batches", "statement": "batch_count is the number of progress messages, which is the number of batches of 4096 boards that were evaluated plus the number of threads: every thread ends with a batch without boards.", "quantifier": "every approximate run with fewer than 2^52 messages, any target, thread count, random streams, schedule and cancellation, both build profiles", "why_tests_cant": "All random streams and schedules.", "anchors": ["src/equity_calculator/simulator.rs: approx_equity, sim_random_walk_monte_carlo, update_results"]}
{"id": "C110", "title": "The batches that are counted are the batches that were evaluated", "statement": "batch_count is eval_count divided by 4096.", "quantifier": "every approximate run", "why_tests_cant": "All random streams and schedules.", "anchors": ["src/equity_calculator/simulator.rs: update_results, sim_random_walk_monte_carlo"]}
{"id": "C111", "title": "With one thread and one batch the reported deviation is the equity of the first player times a constant", "statement": "Let w be the sum of wins_by_mask and a what the first player is credited with: the pots won alone and the integer parts of even shares. If eval_count is 4096 and the share a/w is at least 1/1000, stdev is a number between 0.353 a/w and 0.354 a/w, because the batch is compared with the empty one that follows. So it says nothing about the spread of the samples.", "quantifier": "every such approximate run with one thread, any target, random stream, shuffle, schedule and cancellation, w up to 2^53; checked builds, or steps times the product of the largest weights below 2^64", "why_tests_cant": "All random streams and counts; rounding of binary64.", "anchors": ["src/equity_calculator/simulator.rs: update_results, sim_random_walk_monte_carlo"]}
{"id": "C112", "title": "The order of the hands in a range does not matter", "statement": "If two uncancelled exact runs on ranges that hold the same hands in different orders both succeed, wins_by_mask, wins, and wins, ties and total of every hand of every player are the same.", "quantifier": "every list of ranges whose sizes multiply to less than 2^63, every board and dead mask, all thread counts >= 1 and schedules of the runs; counters wrap at 2^64 in builds without overflow checks", "why_tests_cant": "All inputs; the merging of ranges and the positions depend on the order.", "anchors": ["src/equity_calculator/simulator.rs: exact_equity", "src/equity_calculator/combined_range.rs: from_ranges, join"]}
{"id": "C113", "title": "Hands that use a board card or a dead card do not matter", "statement": "If an uncancelled exact run and one on the ranges without such hands both succeed, wins_by_mask, wins, and wins, ties and total of every hand of every player are the same.", "quantifier": "every list of ranges whose sizes multiply to less than 2^63, every board and dead mask, all thread counts >= 1 and schedules of the runs; counters wrap at 2^64 in builds without overflow checks", "why_tests_cant": "All inputs.", "anchors": ["src/equity_calculator/simulator.rs: exact_equity", "src/hand_range.rs: remove_conflicting_combos"]}
{"id": "C114", "title": "Renaming the suits of everything changes nothing else", "statement": "If the suits of all hands of all ranges, of the board and of the dead cards are renamed by a permutation of the four suits and both uncancelled exact runs succeed, wins_by_mask and wins are the same, and wins, ties and total of a hand are those of the renamed hand.", "quantifier": "every permutation of suits, every list of ranges whose sizes multiply to less than 2^63, every board and dead mask, all thread counts >= 1 and schedules of the runs; counters wrap at 2^64 in builds without overflow checks", "why_tests_cant": "All inputs; board enumeration uses shortcuts that treat suits differently.", "anchors": ["src/equity_calculator/simulator.rs: exact_equity, enumerate_board"]}
{"id": "C115", "title": "Multiplying weights multiplies the counters", "statement": "If the weights of each player's hands are multiplied by a number of that player's and both uncancelled exact runs succeed, wins_by_mask, wins, and wins, ties and total of every hand of every player are multiplied by the product of these numbers.", "quantifier": "every list of factors for which the weights still fit 8 bits, every list of ranges whose sizes multiply to less than 2^63, every board and dead mask, all thread counts >= 1 and schedules of the runs; counters wrap at 2^64 in builds without overflow checks", "why_tests_cant": "All inputs.", "anchors": ["src/equity_calculator/simulator.rs: exact_equity, evaluate_hands"]}
{"id": "C116", "title": "The counters of a range are the sums of those of its parts", "statement": "If the range of a player is split in two and the three uncancelled exact runs succeed, wins_by_mask, wins, and wins, ties and total of every hand of every player of the whole are the sums of those of the parts; if the run on one part reports ConflictingRanges, they are those of the other part.", "quantifier": "every player and every split, every list of ranges whose sizes multiply to less than 2^63, every board and dead mask, all thread counts >= 1 and schedules of the runs; counters wrap at 2^64 in builds without overflow checks", "why_tests_cant": "All inputs; ranges are merged differently in the three runs.", "anchors": ["src/equity_calculator/simulator.rs: exact_equity", "src/equity_calculator/combined_range.rs: from_ranges"]}
{"id": "C117", "title": "eval_count of an exact run counts every deal on every board", "statement": "After an uncancelled exact run that succeeds, eval_count is the sum over all legal deals of the number of boards that complete the given one.", "quantifier": "every list of ranges whose sizes multiply to less than 2^63, every board and dead mask, all thread counts >= 1 and schedules without a cancellation", "why_tests_cant": "All inputs; a test on an unlucky board would not see the shortcut.", "anchors": ["src/equity_calculator/simulator.rs: enumerate_board, update_results"]}
{"id": "C118", "title": "eval_count of an exact run is at most the number of deals and boards", "statement": "After an exact run that succeeds, cancelled or not, eval_count is at most the sum over all legal deals of the number of boards that complete the given one.", "quantifier": "every list of ranges whose sizes multiply to less than 2^63, every board and dead mask, all thread counts, all schedules, with and without cancellation, both builds", "why_tests_cant": "All inputs and interleavings.", "anchors": ["src/equity_calculator/simulator.rs: enumerate_board, enumerate_board_rec, update_results"]}
{"id": "C119", "title": "Equities lose nothing when every pot splits evenly", "statement": "If every legal deal has a weight divisible by every number up to the number of players (for two players: one player's weights are even, as the default 100 is), every equity an exact or approximate run reports is within 2^-53 of the player's share of the pots in wins_by_mask.", "quantifier": "all ranges, boards, dead cards, thread counts, schedules, cancellations, random streams and both builds, as long as the counters do not exceed 2^53 and something was won", "why_tests_cant": "All inputs and interleavings; the loss depends on how ties fall into batches.", "anchors": ["src/equity_calculator/simulator.rs: update_results, get_equity, exact_equity, approx_equity"]}
{"id": "C120", "title": "Then the equities of an exact run are the true equities", "statement": "If every legal deal has a weight divisible by every number up to the number of players (for two players: one player's weights are even, as the default 100 is), every equity an uncancelled exact run reports is within 2^-53 of the player's true share of all pots over all deals and boards.", "quantifier": "all lists of at most 8 ranges whose sizes multiply to less than 2^63, boards, dead cards, thread counts >= 1 and schedules, total weight at most 2^53", "why_tests_cant": "All inputs and interleavings.", "anchors": ["src/equity_calculator/simulator.rs: exact_equity, update_results, get_equity"]}
{"id": "C121", "title": "Then the equities of an exact run do not depend on threads and timing", "statement": "If every legal deal has a weight divisible by every number up to the number of players (for two players: one player's weights are even, as the default 100 is), two uncancelled exact runs on the same arguments that succeed report equal equities, whatever their thread counts, schedules and builds.", "quantifier": "all lists of at most 8 ranges whose sizes multiply to less than 2^63 and whose counters fit, boards, dead cards, pairs of thread counts >= 1 and schedules, total weight at most 2^53", "why_tests_cant": "All pairs of interleavings.", "anchors": ["src/equity_calculator/simulator.rs: exact_equity, update_results, get_equity"]}
{"id": "C122", "title": "Every deal that can be completed is evaluated", "statement": "After an uncancelled exact run that succeeds, eval_count is at least the number of legal deals that some board completes; on a complete board it is the number of legal deals.", "quantifier": "every list of ranges whose sizes multiply to less than 2^63, every board and dead mask, all thread counts >= 1 and schedules; for the first part in builds without overflow checks fewer than 2^64 deals and boards", "why_tests_cant": "All inputs and interleavings.", "anchors": ["src/equity_calculator/simulator.rs: exact_equity, enumerate_board, evaluate_hands, update_results"]}
{"id": "C123", "title": "With even pots, the order of hands, hands that cannot be dealt and suits leave no trace in the equities", "statement": "If every legal deal has a weight divisible by every number up to the number of players, two uncancelled exact runs report equal equities when the hands of the ranges are reordered, when hands with board cards or dead cards are removed, and when the suits of everything are renamed.", "quantifier": "all arguments as in C112-C114 whose counters fit and sum to at most 2^53, all thread counts >= 1 and schedules of the two runs", "why_tests_cant": "All inputs and pairs of interleavings.", "anchors": ["src/equity_calculator/simulator.rs: exact_equity, update_results, get_equity"]}
{"id": "C124", "title": "A player who can win nothing has equity 0", "statement": "If a player is not among the winners of any legal deal on any board, exact and approximate runs report the equity +0.0 for that player, to the last bit, also when they are cancelled; the only exception are runs that credit nobody with anything.", "quantifier": "all ranges of legal hands, boards, dead cards, numbers of threads, schedules, random numbers, both builds", "why_tests_cant": "All inputs, interleavings and random streams.", "anchors": ["src/equity_calculator/simulator.rs: update_results, get_equity, evaluate_hands"]}
{"id": "C125", "title": "A player who always wins has equity 1", "statement": "If one player alone wins every legal deal on every board, exact and approximate runs report the equity 1.0 for that player and +0.0 for everybody else, to the last bit, as soon as one pot is counted, also when they are cancelled.", "quantifier": "all ranges of legal hands, boards, dead cards, numbers of threads, schedules, random numbers, both builds", "why_tests_cant": "All inputs, interleavings and random streams.", "anchors": ["src/equity_calculator/simulator.rs: update_results, get_equity, evaluate_hands"]}
{"id": "C126", "title": "With even pots, multiplying weights does not change the equities", "statement": "If every legal deal has a weight divisible by every number up to the number of players, multiplying all weights of a player by a positive number, for any of the players, leaves the equities of uncancelled exact runs equal to the last bit.", "quantifier": "all ranges, positive multipliers, boards, dead cards whose counters fit and sum to at most 2^53 after the multiplication, all thread counts >= 1 and schedules of the two runs, both builds", "why_tests_cant": "All inputs and pairs of interleavings; rounding could differ for any quotient.", "anchors": ["src/equity_calculator/simulator.rs: update_results, get_equity"]}
{"id": "C127", "title": "The rates of a starting hand depend only on the fractions of its wins and ties", "statement": "Two starting hands, in the same run or different runs, whose wins and ties are the same fractions of their totals have win rates and tie rates that are equal to the last bit, and with two players equal equities. So multiplying the weights of players does not change these rates.", "quantifier": "all pairs of exact runs, cancelled or not, all hands of the ranges with totals of at most 2^49, both builds unless counters overflow", "why_tests_cant": "All inputs and pairs of interleavings; rounding could differ for any quotient.", "anchors": ["src/equity_calculator/simulator.rs: UnitResults::add_assign, generate_final_data, update_results"]}
{"id": "C128", "title": "With even pots, every equity is the float closest to the share", "statement": "If every legal deal has a weight divisible by every number up to the number of players, no binary64 number is closer to the player's share of the pots than the reported equity, however small the share; for uncancelled exact runs with at most 8 players the share is the true one.", "quantifier": "all ranges, boards, dead cards, thread counts, schedules, cancellations, random streams and both builds, as long as the counters do not exceed 2^53 and something was won", "why_tests_cant": "All inputs and interleavings.", "anchors": ["src/equity_calculator/simulator.rs: update_results, get_equity"]}
{"id": "C129", "title": "With even pots, players who change seats take their equities with them", "statement": "If every legal deal has a weight divisible by every number up to the number of players, permuting the list of ranges permutes the equities of uncancelled exact runs in the same way, to the last bit.", "quantifier": "all lists of at most 8 ranges, permutations, boards, dead cards, thread counts >= 1 and schedules of the two runs, total weight at most 2^53", "why_tests_cant": "All inputs and pairs of interleavings.", "anchors": ["src/equity_calculator/simulator.rs: exact_equity, update_results, get_equity"]}
{"id": "C130", "title": "Ranges can be written out hand by hand and read back", "statement": "The hands of a range, each written as its display name followed by @ and its weight in decimal and separated by commas, parse to the same hands with the same weights, in the order of the library; so every range that was parsed, other than random, is returned unchanged when it is written out and parsed again.", "quantifier": "all lists of different hands (higher card first) with weights up to 100, all texts a range was parsed from, both builds", "why_tests_cant": "There are more than 2^1326 ranges.", "anchors": ["src/hand_range.rs: Display for Combo, from_string, parse_hand, remove_duplicates"]}
{"id": "C131", "title": "Texts with the same meaning give the same range", "statement": "Two texts of well-formed terms parse to the same list of hands exactly when the first terms that denote a hand have the same weight in both, for every hand. So the order of terms does not matter as long as no hand gets different weights from them, and a term all of whose hands were denoted before can be left out.", "quantifier": "all pairs of lists of well-formed terms, in upper or lower case, both builds", "why_tests_cant": "Infinitely many texts; the result of sorting and removing duplicates depends on all hands.", "anchors": ["src/hand_range.rs: from_string, parse_hand, remove_duplicates"]}
{"id": "C132", "title": "Shorthand terms mean the terms they abbreviate", "statement": "XY means XYs,XYo and the same as YX; XX+ means all pairs from XX up; XY+ means XY and the higher kickers below X; dashes mean everything in between. Replacing a term by these terms, each with its weight, at any place in a text leaves the parsed range unchanged.", "quantifier": "all lists of well-formed terms and all places in them, both builds", "why_tests_cant": "Infinitely many texts.", "anchors": ["src/hand_range.rs: from_string, parse_hand, add_combos_plus, add_combos_dash"]}
{"id": "C133", "title": "The equities of a run add up to 1", "statement": "If any player is credited with anything, the equities a run reports are finite numbers whose sum differs from 1 by at most one rounding per player (n * 2^-53), even though shares of pots are rounded down.", "quantifier": "all exact and approximate runs, cancelled or not, in which no counter wraps and the counted weight is at most 2^53", "why_tests_cant": "Sums of rounded quotients over all possible counts.", "anchors": ["src/equity_calculator/simulator.rs: get_equity, update_results"]}
{"id": "C134", "title": "Players with the same range have the same equity", "statement": "In a complete exact run two players with the same range have the same equity, bit for bit, if every deal's weight can be split evenly among any number of its players.", "quantifier": "all ranges of up to eight players, boards, dead cards, thread counts and schedules without cancellation, both builds, up to a dealt weight of 2^53", "why_tests_cant": "Needs all ranges and all ways the work is divided into batches.", "anchors": ["src/equity_calculator/simulator.rs: exact_equity, get_equity, update_results"]}
{"id": "C135", "title": "It does not matter which card of a hand is first", "statement": "Swapping the two cards of hands in the ranges, and reordering the hands, changes no integer counter of a complete exact run: wins_by_mask, wins, and wins, ties and total of every hand.", "quantifier": "all ranges, boards, dead cards, thread counts and schedules without cancellation, both builds", "why_tests_cant": "A test compares single pairs of inputs.", "anchors": ["src/equity_calculator/simulator.rs: exact_equity, evaluate_hands, update_results", "src/hand_range.rs: get_card_index"]}
{"id": "C136", "title": "Hands that differ only by a symmetry of the suits have the same counters", "statement": "If a renaming of the suits maps every range, the board and the dead cards to themselves, then in a complete exact run a hand and its renamed hand have the same wins, ties and total.", "quantifier": "all suit permutations, ranges, boards, dead cards, thread counts and schedules without cancellation, both builds", "why_tests_cant": "A test compares single pairs of hands.", "anchors": ["src/equity_calculator/simulator.rs: exact_equity, enumerate_board_rec, evaluate_hands"]}
{"id": "C137", "title": "Only the cards on the board and the cards out of play matter", "statement": "Two complete exact runs with the same board cards and the same cards that are on the board or dead have the same integer counters; so marking board cards as dead changes nothing.", "quantifier": "all ranges, boards, dead cards, thread counts and schedules without cancellation, both builds", "why_tests_cant": "All pairs of masks.", "anchors": ["src/equity_calculator/simulator.rs: exact_equity, enumerate_board"]}
{"id": "C138", "title": "ConflictingRanges is reported whenever no deal is possible", "statement": "If the ranges, the board and the dead cards admit no deal, exact_equity and approx_equity return ConflictingRanges.", "quantifier": "all accepted arguments", "why_tests_cant": "The error depends on which ranges were combined; small ranges always are.", "anchors": ["src/equity_calculator/simulator.rs: exact_equity, approx_equity", "src/equity_calculator/combined_range.rs: from_ranges, MAX_SIZE"]}
{"id": "C139", "title": "Without a possible deal nothing is counted", "statement": "If no deal is possible and a run returns Ok, all entries of wins_by_mask and wins are 0, all ties are 0.0, and all equities are NaN.", "quantifier": "all exact and approximate runs, cancelled or not, both builds", "why_tests_cant": "All random streams and schedules.", "anchors": ["src/equity_calculator/simulator.rs: enumerate_all, sim_random_walk_monte_carlo, randomize_hole_cards, get_equity"]}
{"id": "C140", "title": "With two or three players ConflictingRanges is reported exactly when no deal is possible", "statement": "For two or three players exact_equity and approx_equity return ConflictingRanges if, and only if, no choice of one hand per range avoids the board, the dead cards and the other hands. With three players no range may contain the same two cards twice, which holds for ranges read from text.", "quantifier": "all accepted arguments with two or three players, all threads, schedules, random streams, both builds", "why_tests_cant": "C138 shows that the claim fails for four players; only ranges of more than a hundred hands behave differently.", "anchors": ["src/equity_calculator/simulator.rs: exact_equity, approx_equity", "src/equity_calculator/combined_range.rs: from_ranges, estimate_join_size, MAX_SIZE", "src/hand_range.rs: from_string"]}
{"id": "C141", "title": "If every hand weighs at least 2 and any pot was counted, the equities are numbers", "statement": "A run whose wins_by_mask has a nonzero entry reports only equities that are numbers between 0 and 1, if every hand of every range has weight at least 2. (With weight 1 they can be NaN.)", "quantifier": "all exact and approximate runs, cancelled or not, in which no counter wraps", "why_tests_cant": "Rounding down of shares happens per batch; needs all divisions of the work into batches.", "anchors": ["src/equity_calculator/simulator.rs: update_results, get_equity"]}
{"id": "C142", "title": "A complete run with two or three players reports numbers", "statement": "If exact_equity is not cancelled and returns Ok, every hand weighs at least 2 and there are two or three players, every reported equity is a number between 0 and 1. With up to eight players the same holds if some deal is possible.", "quantifier": "all ranges, boards, dead cards, thread counts and schedules without cancellation, both builds", "why_tests_cant": "All ranges; the error check, the enumeration and the rounding must work together.", "anchors": ["src/equity_calculator/simulator.rs: exact_equity, update_results, get_equity", "src/equity_calculator/combined_range.rs: from_ranges"]}
{"id": "C143", "title": "An approximate run counts only what can happen", "statement": "If approx_equity reports a counter that is not zero (an entry of wins_by_mask, or wins, ties or total of a starting hand), some possible deal and board has that outcome, and the same counter of a complete exact run is not zero.", "quantifier": "all arguments, random streams, shuffles, threads and schedules, cancelled or not; both builds (the exact run without overflow; masks up to eight players)", "why_tests_cant": "Random runs reach only a tiny part of the deals; the claim is about all random streams.", "anchors": ["src/equity_calculator/simulator.rs: approx_equity, sim_random_walk_monte_carlo, exact_equity"]}
{"id": "C144", "title": "A player who is never behind has at least the other player's equity", "statement": "If player j gets a part of every pot of which player k gets a part, then the equity reported for k is <= the equity reported for j in floating point, unless nothing was won and all are NaN.", "quantifier": "all exact and approximate runs, cancelled or not, both builds, j one of the first eight players", "why_tests_cant": "All divisions into batches and all orders of floating-point additions.", "anchors": ["src/equity_calculator/simulator.rs: update_results, get_equity, evaluate_hands"]}
{"id": "C145", "title": "Players who can only win together have the same equity", "statement": "If two players share every pot that one of them wins, their reported equities are equal bit for bit, for example when everybody plays the board.", "quantifier": "all exact and approximate runs, cancelled or not, both builds, players among the first eight", "why_tests_cant": "All divisions into batches and all orders of floating-point additions.", "anchors": ["src/equity_calculator/simulator.rs: update_results, get_equity, evaluate_hands"]}
{"id": "C146", "title": "If the same players win every deal, they share everything evenly", "statement": "If on every possible deal and board the winners are the same k players, the reported equities are the float 1/k for these players and 0 for the others, unless nothing was won and all are NaN.", "quantifier": "all exact and approximate runs with at most eight players, cancelled or not, both builds (without overflow, counters adding up to at most 2^53)", "why_tests_cant": "All divisions into batches, all weights; 1/3, 1/5, 1/6 and 1/7 are not floats, so every rounding matters.", "anchors": ["src/equity_calculator/simulator.rs: update_results, get_equity"]}
{"id": "C147", "title": "Exact and approximate runs agree at showdown", "statement": "With one hand per player and five cards on the board, exact_equity and approx_equity report the same equities bit for bit, unless one of them counted nothing.", "quantifier": "all hands and weights of at most eight players, boards, threads, random streams, schedules, both builds (without overflow, counters adding up to at most 2^53)", "why_tests_cant": "A test compares one random stream and one hand; the claim is about all of them, bit for bit.", "anchors": ["src/equity_calculator/simulator.rs: exact_equity, approx_equity, get_equity"]}
{"id": "C148", "title": "The counters of a board are those of the boards with one more card, added up", "statement": "For a board with fewer than five cards: if exact_equity is run on the board and on every board with one more card that is not on the table, each counter (wins_by_mask; wins, ties and total of a starting hand) of the runs with one more card adds up to the number of cards to come times the counter of the first run. Runs that report ConflictingRanges count as 0.", "quantifier": "all ranges, boards, dead cards, threads and schedules, both builds (without overflow; masks up to eight players)", "why_tests_cant": "Relates about fifty runs to each other for all arguments; a miscounted or forgotten board shows up in no single run.", "anchors": ["src/equity_calculator/simulator.rs: exact_equity, enumerate_board"]}
{"id": "C149", "title": "More dead cards raise no counter", "statement": "Adding dead cards does not raise any counter of an exact run (wins_by_mask; wins, ties and total of a starting hand); a run that reports ConflictingRanges counts as 0.", "quantifier": "all ranges, boards, sets of dead cards, threads and schedules, both builds (without overflow; masks up to eight players)", "why_tests_cant": "All pairs of sets of dead cards.", "anchors": ["src/equity_calculator/simulator.rs: exact_equity, enumerate_board"]}
{"id": "C150", "title": "Taking one card after the other out of play", "statement": "Run exact_equity once, and once more for every card that is not on the table with that card dead. Each counter of the additional runs adds up to (cards in play - 2 * players - cards to come) times the counter of the first run: a deal is missing exactly from the runs without one of its cards. Runs that report ConflictingRanges count as 0.", "quantifier": "all ranges, boards, dead cards, threads and schedules, both builds (without overflow; masks up to eight players)", "why_tests_cant": "Relates about fifty runs to each other for all arguments.", "anchors": ["src/equity_calculator/simulator.rs: exact_equity, enumerate_board, enumerate_all"]}
{"id": "C151", "title": "The value of a hand is that of its best five cards", "statement": "The value of five to seven cards is the value of five of them, and no five of them have a higher value.", "quantifier": "all hands of five to seven cards, however built, both builds", "why_tests_cant": "21 choices for each of 133784560 hands of seven cards.", "anchors": ["src/hand_evaluator/hand.rs: evaluate, evaluate_without_flush"]}
{"id": "C152", "title": "There are 7462 values of five cards", "statement": "Two hands of five cards have the same value exactly if they have the same ranks and both or neither are a flush. Altogether there are exactly 7462 values.", "quantifier": "all pairs of five-card hands, however built, both builds", "why_tests_cant": "Millions of millions of pairs of hands.", "anchors": ["src/hand_evaluator/hand.rs: evaluate, evaluate_without_flush"]}
{"id": "C153", "title": "How many values each category has", "statement": "Of the values of five cards 1277 are high cards, 2860 pairs, 858 two pairs, 858 three of a kind, 10 straights, 1277 flushes, 156 full houses, 156 four of a kind and 10 straight flushes, the category being the value divided by 4096, minus 1.", "quantifier": "all hands of five cards, however built, both builds", "why_tests_cant": "All hands of five cards and all ways to build them.", "anchors": ["src/hand_evaluator/hand.rs: evaluate, evaluate_without_flush"]}
{"id": "C154", "title": "An exact run reports progress for every thread and at most every 10000 evaluations", "statement": "An exact run sends at least one progress message for each thread, and at most one more for each full 10000 evaluations.", "quantifier": "all exact runs, thread counts, schedules and cancellations, in builds with overflow checks or when the weights fit", "why_tests_cant": "All schedules; runs of more than 10000 evaluations in several threads.", "anchors": ["src/equity_calculator/simulator.rs: enumerate_all, update_results"]}
{"id": "C155", "title": "Cancelled runs stop soon", "statement": "Once the cancellation token is set, whatever the state of the run, each thread sends at most two more progress messages. A run cancelled before it starts sends at most two messages for each thread, and an approximate one evaluates at most one batch of 4096 samples in each thread.", "quantifier": "all states and schedules of exact and approximate runs, both builds; fewer than 2^32 threads for the last part", "why_tests_cant": "All interleavings of the threads with the cancellation.", "anchors": ["src/equity_calculator/simulator.rs: enumerate_all, sim_random_walk_monte_carlo, update_results"]}
{"id": "C156", "title": "Two ranges given as texts give the right answer, as do three on a flop", "statement": "If two players' ranges, or three players' ranges with at least three board cards, are given as texts, a valid call of exact_equity always returns: ConflictingRanges if no deal is possible, results otherwise. A complete run has counted every deal and board in wins_by_mask, and get_hand_result with any hand's name returns that hand's true wins, ties, total, validity and weight. Nothing overflows.", "quantifier": "all texts, boards, dead cards, thread counts, schedules and hands, both builds", "why_tests_cant": "All pairs of ranges, all boards, all schedules.", "anchors": ["src/hand_range.rs: from_strings", "src/equity_calculator/simulator.rs: exact_equity, get_hand_result"]}
{"id": "C157", "title": "Results are only returned for players of the run", "statement": "get_hand_result returns a result only if the player's number is below the number of ranges of the run.", "quantifier": "all runs, player numbers and texts, both builds", "why_tests_cant": "2^64 player numbers.", "anchors": ["src/equity_calculator/simulator.rs: get_hand_result"]}
{"id": "C158", "title": "Asking for a player who is not there panics, unless the number wraps around", "statement": "get_hand_result and get_combo_result with a valid name and a player's number that is not below the number of ranges panic, in builds with overflow checks and for numbers up to 2^53 in builds without.", "quantifier": "all exact runs and, for get_hand_result, approximate runs, player numbers and names", "why_tests_cant": "2^64 player numbers.", "anchors": ["src/equity_calculator/simulator.rs: get_hand_result, get_combo_result"]}
{"id": "C159", "title": "Two ranges written without weights get the closest equities", "statement": "If two players' ranges are given as texts without weights, and there are at least three board cards or the pots dealt weigh at most 2^53, a complete run of exact_equity gives each player the f64 closest to their true share of all pots, tied pots split equally.", "quantifier": "all such texts, boards, dead cards, thread counts and schedules, both builds", "why_tests_cant": "All pairs of ranges and boards; a rounding error shows only in the last bit.", "anchors": ["src/hand_range.rs: from_strings", "src/equity_calculator/simulator.rs: exact_equity, get_equity"]}
{"id": "C160", "title": "A conflict does not go away when there is less choice", "statement": "If two or three ranges conflict, so that exact_equity (or approx_equity) reports ConflictingRanges, it reports it as well when hands are removed or written differently or weighted differently, or more cards are dead or on the board. exact_equity also reports it when a third player joins two, or when the players change seats.", "quantifier": "all well-formed ranges (no hand written twice if there are three), boards, dead cards, thread counts, targets, random choices and schedules, both builds", "why_tests_cant": "All ranges; the search for a conflict depends on the order of the ranges and on sizes.", "anchors": ["src/equity_calculator/simulator.rs: exact_equity, approx_equity", "src/equity_calculator/combined_range.rs: from_ranges, join"]}
{"id": "C161", "title": "Approximate runs of ranges given as texts do not overflow", "statement": "If the ranges of n players are given as texts and the threads take fewer than 2^64 / 100^n steps (10^15 for two players), approx_equity with valid arguments does not panic: it reports ConflictingRanges, and then no deal is possible, or returns results, unless a thread never finds a first deal. Builds with and without overflow checks do the same.", "quantifier": "all texts, boards, dead cards, thread counts, targets, random streams and schedules, both builds", "why_tests_cant": "All texts and random streams; runs of 2^50 steps.", "anchors": ["src/hand_range.rs: from_strings", "src/equity_calculator/simulator.rs: approx_equity, sim_random_walk_monte_carlo, evaluate_hands, update_results"]}
{"id": "C162", "title": "A preflop combination's name gives its true results", "statement": "After a complete exact run of two ranges given as texts, or three with at least three board cards, get_combo_result with the name of any of the 169 combinations (AA, AKs, AKo) returns the weight of all deals and boards in which the player holds such a hand and wins alone, ties for the win, or anything happens.", "quantifier": "all texts, boards, dead cards, thread counts, schedules, players and combinations, both builds", "why_tests_cant": "All pairs of ranges, all boards, all schedules.", "anchors": ["src/hand_range.rs: from_strings", "src/equity_calculator/simulator.rs: exact_equity, generate_final_data, get_combo_result"]}
{"id": "C163", "title": "The results of the 169 combinations add up to everything", "statement": "After a complete exact run of two ranges given as texts, or three with at least three board cards, the wins returned by get_combo_result under the 169 names add up to the weight of all deals and boards the player wins alone, the ties to the weight of those they tie for, and the totals to the weight of all deals and boards, for each player alike.", "quantifier": "all texts, boards, dead cards, thread counts, schedules and players, both builds", "why_tests_cant": "All pairs of ranges, all boards, all schedules.", "anchors": ["src/hand_range.rs: from_strings", "src/equity_calculator/simulator.rs: exact_equity, generate_final_data, get_combo_result"]}
{"id": "C164", "title": "Names give the closest floats to the true equities", "statement": "After a complete exact run of two ranges given as texts, looking up the name of a starting hand or of one of the 169 preflop combinations that was dealt to the player returns the float closest to its true equity (wins plus half of the ties, divided by everything), and the floats closest to its rates of wins and ties. No bound on the counters is needed.", "quantifier": "all pairs of texts, boards, dead cards, thread counts, schedules, players, hands and combinations, both builds", "why_tests_cant": "All pairs of ranges, all boards, all schedules, rounding of three divisions.", "anchors": ["src/hand_range.rs: from_strings", "src/equity_calculator/simulator.rs: exact_equity, generate_final_data, get_hand_result, get_combo_result"]}
{"id": "C165", "title": "The combinations of two players agree with wins_by_mask", "statement": "After a complete exact run of two ranges given as texts, the wins under the 169 names of the first player add up to wins_by_mask[1], those of the second player to wins_by_mask[2], the ties of either player to wins_by_mask[3], and the totals of either player to the sum of the three.", "quantifier": "all pairs of texts, boards, dead cards, thread counts and schedules, both builds", "why_tests_cant": "All pairs of ranges, all boards, all schedules.", "anchors": ["src/hand_range.rs: from_strings", "src/equity_calculator/simulator.rs: exact_equity, generate_final_data, get_combo_result, wins_by_mask"]}
{"id": "C166", "title": "The totals of every player's combinations add up to the pots in wins_by_mask", "statement": "After any exact run, cancelled or not, and any approximate run, the totals of the 169 preflop combinations of each player add up to the sum of wins_by_mask, provided this sum is below 2^64 (otherwise the totals are scaled down) and the counters did not wrap around.", "quantifier": "all ranges, boards, dead cards, thread counts, schedules, random numbers and players, both builds", "why_tests_cant": "All ranges, all schedules, all random numbers.", "anchors": ["src/equity_calculator/simulator.rs: exact_equity, approx_equity, generate_final_data"]}
{"id": "C167", "title": "The wins of a player's hands add up to the pots the player won alone", "statement": "With up to eight players, after any exact run, cancelled or not, and any approximate run, the wins of each player's 1326 hands add up to the entry of wins_by_mask for this player alone, and to the player's entry in wins, provided the counters did not wrap around.", "quantifier": "all ranges of up to eight players, boards, dead cards, thread counts, schedules, random numbers and players, both builds", "why_tests_cant": "All ranges, all schedules, all random numbers.", "anchors": ["src/equity_calculator/simulator.rs: exact_equity, approx_equity, evaluate_hands"]}
{"id": "C168", "title": "The wins of a player's combinations add up to the pots the player won alone", "statement": "With up to eight players, after any exact run, cancelled or not, and any approximate run, the wins of each player's 169 preflop combinations add up to the player's entry in wins, provided the sum of wins_by_mask is below 2^64 (otherwise they are scaled down) and the counters did not wrap around.", "quantifier": "all ranges of up to eight players, boards, dead cards, thread counts, schedules, random numbers and players, both builds", "why_tests_cant": "All ranges, all schedules, all random numbers.", "anchors": ["src/equity_calculator/simulator.rs: exact_equity, approx_equity, generate_final_data"]}
{"id": "C169", "title": "The ties of a player's hands add up to the pots the player split", "statement": "With up to eight players, after any exact run, cancelled or not, and any approximate run, the ties of each player's 1326 hands add up to the entries of wins_by_mask whose masks hold this player and at least one other, provided the counters did not wrap around.", "quantifier": "all ranges of up to eight players, boards, dead cards, thread counts, schedules, random numbers and players, both builds", "why_tests_cant": "All ranges, all schedules, all random numbers.", "anchors": ["src/equity_calculator/simulator.rs: exact_equity, approx_equity, evaluate_hands"]}
