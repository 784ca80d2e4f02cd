# Formal model of the pokers library

Rocq/Coq 8.16.1, standard library only.  The model is in `rocq/theories`; the code it
models is the Rust crate in `/repo` (read as text, never run).

## Files

| file | contents |
|---|---|
| `Base.v` | outcomes (a panic is a value), build profiles, machine arithmetic, arrays, tables |
| `TLookup.v TSmall.v TMap.v TStrings.v` | literal tables of `lookup.rs`, `flush_lookup.rs`, `hash_offsets.rs`, `map.rs`, `string_lookup.rs`, transcribed by `tools/gen_tables.py` |
| `Hand.v` | `constants.rs`, `hand_evaluator/cards.rs`, `hand_evaluator/hand.rs` |
| `FastDivide.v` | `fastdivide.rs` |
| `Range.v` | `hand_range.rs` |
| `Combined.v` | `equity_calculator/combined_range.rs` |
| `Float64.v` | f64 operations, from the specification floats of the standard library |
| `Sim.v` | `equity_calculator/simulator.rs`: results, exact enumeration, threads as a step machine, aggregation |
| `Approx.v` | `simulator.rs`: Monte Carlo walk |
| `HandIndex.v` | `simulator.rs`: `HandWithIndex` |
| `Spec*.v` | specifications, written without the model's helpers |
| `*Proofs.v`, `*Facts.v`, `Ghost.v`, `EvalCheck.v` | lemmas; `EvalCheck.v` holds the large finite computations about the tables |
| `SourceTests.v` | the repository's unit tests, evaluated on the model |
| `Prop*.v` | property theorems only, each closed by a lemma, with `Print Assumptions`, and an `Example` showing its hypotheses can be met |

Specifications:

| file | says |
|---|---|
| `SpecPoker.v` | cards, categories, the order of five-card hands, the best five of a set |
| `SpecHand.v` | ways to build a hand and the cards it should hold |
| `SpecNames.v` | names and numbers of starting hands and preflop combinations |
| `SpecText.v` | card names as text |
| `SpecRange.v` | range notation: terms, their text, the hands they denote |
| `SpecGrammar.v` | how any ASCII text is read as terms, well formed or not |
| `SpecEquity.v` | deals, boards, winners and the exact counts over all of them |
| `SpecRun.v` | arguments of a run, combined ranges, the meaning of a position |
| `SpecResults.v`, `SpecFinal.v` | what a run reports: masks, hands, combinations, categories, draws |
| `SpecDraw.v` | straights and flushes that can still be made |
| `SpecApprox.v` | legal samples and steps of an approximate run |
| `SpecDeviation.v` | what a batch equity counts |
| `SpecShare.v` | equity as the share of the pots, in 2520ths |
| `SpecSymmetry.v` | changed arguments: order, suits, weights, parts of a range |
| `SpecEven.v` | deals whose pots split evenly |
| `SpecConflict.v` | hands with the same cards, ranges without repeated hands, weights of at least 2 |
| `SpecFavourite.v` | a player who is never behind another |
| `SpecSettled.v` | the same players win every deal |
| `SpecStreet.v` | one more card on the board, more dead cards, reported counters |
| `SpecValue.v` | the value of a built hand, complete hands of n cards, same ranks |
| `SpecTable.v` | small tables, the true entry of a starting hand, ranges without weights |
| `SpecClash.v` | ranges with fewer hands, tables with more cards |
| `SpecKind.v` | what a player wins with hands of a preflop combination |
| `SpecAdd.v` | equities that add up to 1 |
| `SpecTurn.v` | hands as sets of cards, symmetric suits, equal tables |
| `SpecWrite.v` | ranges written out hand by hand, term lists with the same meaning, abbreviations |
| `SpecScale.v` | entries with the same rates |
| `SpecSure.v` | players who never win, players who always win |
| `SpecRates.v` | closest floats, the rates in the tables |
| `SpecFair.v` | choices, steps and sample sequences of the random walk |

## Conventions of the model

* `outcome A` is `Ret a` or `Fail f`.  Panics (overflow check, index, assert/unwrap),
  undefined behaviour of `get_unchecked`, and exhausted fuel are different values of `f`.
  No theorem treats a failure as a normal value.
* `profile` is `Debug` (overflow checks on: overflow panics) or `Release` (wraps).
  Theorems hold for both unless they name one.
* Machine integers are `N` with explicit wrap; indices and fuel are `nat`.
* f64 is `Coq.Floats.SpecFloat.spec_float` at precision 53, emax 1024: executable, no axioms.
* Threads: the shared state is the position counter, the results, the stop flag and the
  progress messages; a step is one access to shared state with the local work before it.
  A schedule is an arbitrary list of `Run thread` / `Cancel` events.  Relaxed memory is not
  an issue: the code uses locks and SeqCst.
* Random numbers are an arbitrary stream; nothing about distributions is assumed.

## Trusted base

* The Coq kernel including its `vm_compute` reduction.  (`coqchk` re-checks everything
  without the virtual machine.)
* The transcription of the code into the definitions (each cites its lines) and of the
  tables by `tools/gen_tables.py`.
* Assumptions: `Print Assumptions` stands under each theorem.  Every theorem of every
  `Prop*.v` file is "Closed under the global context": no axiom is used.
* `coqchk` lists seven axioms `Coq.ssr.ssrunder.Under_rel.*`.  They are declared in the
  standard library, loaded with it, and used by no theorem here.

Modelled: every function of `hand.rs`, `cards.rs`, `constants.rs`, `fastdivide.rs`,
`hand_range.rs`, `combined_range.rs` and `simulator.rs`, and all literal tables, except the
following.

Not modelled: the `rand` crate (replaced by arbitrary streams), `Debug` formatting,
allocation failure, the operating system's threads, performance, tests and documentation.

### Comparison with the repository's tests

`SourceTests.v` evaluates the assertions of the repository's unit tests on the model; all hold.
`test_libdivide` is an instance of C32.  The tests that run whole simulations are too slow for
`coqchk` and are not part of the build.  They were evaluated once, in a scratch file, with all
positions given to one of the eight threads:

* `test_accuracy` (AA against a random hand on KdKsKh3s): the model's first equity is
  `8602132410786017 * 2^-53`, which is the expected `0.9550285463328941` to the last bit.

### Simplifications

* Unicode: `str::to_lowercase` and `char::is_whitespace` are parameters.  Theorems assume
  of the first only that it lower-cases ASCII text as ASCII does, of the second only that no
  rank character is white space.
* `add_combos` takes no profile: its arguments are ranks below 13 at every call.
* The pair counter of `estimate_join_size` does not wrap: it counts at most 2^64 pairs.
* `powi(2)` is one multiplication.
* `update_results` is one step: it holds the write lock throughout.
* A random sample is one number of the stream reduced to the wanted interval; how many raw
  words `rand` consumes for it is not modelled.  Each thread's stream is arbitrary.
* `sort` is a stable insertion sort; a stable sort under a total preorder is unique.
* The parser's scratch field `char_vec` is not part of the resulting range.

## False properties

Some properties of `properties.jsonl` turned out false of the code.  They keep their
original statement, their theorem ends in `_refuted` and gives a concrete witness, and the
manifest says `partial` with a note starting with "Refuted".  What does hold is proved
beside it, mostly as a property of its own (C61-C68, C71, C73, C77, C84-C86, C94, C96, C103, C106, C109, C118, C122, C139-C142, C158).

| id | why it is false |
|---|---|
| C10 | the empty hand and single cards hit unrelated table entries |
| C15 | the lookup of a pocket pair's own printed text fails |
| C18 | an upper-case suit gives `Ok` of something that is no card |
| C21 C28 | a weight of ten digits overflows `u32` |
| C26 | `RANDOM` is not `random` |
| C31 | `22-55` denotes nothing although `55-22` does |
| C43 | the ninth player is never credited |
| C44 | nine ties of weight 255 overflow |
| C49 C56 | integer halves: ties of odd weight lose a unit, and two hands of weight 1 give 0/0 |
| C53 C72 C74 | draws to the wheel are not flagged |
| C59 | a run that converges stores true in the caller's token |
| C60 C79 | the first merge seems converged and reports 255; the last, empty batch raises the deviation |
| C92 | the number of positions is a product in `u64`: eight ranges of 256 hands give 2^64, that is 0 |
| C95 | the equity of a hand outside the range is 0/0 |
| C98 | the tie rate of a category or a draw is computed from the corrected ties |
| C100 | categories and draws keep the default `valid: false` |
| C102 | the shift wraps: number 67 reads the bit of card 2 |
| C104 C105 | repeated cards and eight cards add up in the key; nothing checks it |
| C107 | the order ignores weight and player |
| C110 | the last, empty batch of every thread is counted |
| C117 | boards that differ only in irrelevant cards are evaluated once |
| C138 | ranges are only combined up to `MAX_SIZE`; four players who all need one of three aces give no error |
| C157 | without overflow checks `get_hand_result` takes player 2^63 for player 0 |

## Properties: what is modelled and how it is proved

| id | model | method |
|---|---|---|
| C01 C02 | `evaluate` on the literal tables | spec: best 5-subset by (category, ranks); reduction to rank-count vectors and flush masks, both finite sets checked by kernel computation, and a flush/non-flush comparison lemma |
| C03 | same | same finite check: every key reached is inside the tables |
| C04 C08 C09 | `hand_add`, key and mask packing | induction over card lists; nibble arithmetic |
| C05 | `evaluate`, `evaluate_without_flush` | counter lemma of C08 |
| C06 C07 | corollaries of C01 via the spec | spec is invariant / monotone |
| C10 | `evaluate` on 0 and 1 cards | computed witnesses |
| C11-C13 | index tables | finite domain (52*52), kernel computation lifted to forall |
| C14 C15 C61 | name tables | finite |
| C16-C20 C62 | text functions | induction over characters and cards |
| C21-C28 C31 C63-C66 | parser on well-formed text | cursor invariants; terms with a printer |
| C80 | parser on any text | both directions of "the parser accepts a term here iff the grammar does", for every position |
| C29 C30 | list filter, order | induction; arithmetic |
| C32 | divider | arithmetic over N |
| C33-C35 | combined ranges | invariant over the join loop |
| C36 | entry checks | direct |
| C37 C42 C46 C47 | thread machine | invariant over schedules |
| C38 C54 | position decoding | mixed radix, C32, C33 |
| C39 | board recursion | induction; suit irrelevance lemma; binomial grouping |
| C40 C41 C45 C55 | whole exact run | composition; a counter is its true value or the checked build has panicked (`Ghost.v`) |
| C43 C44 C49 C56 C67 C68 | whole run | computed witnesses and the positive part |
| C48 | progress | rounding bounds of binary64 over Q |
| C50-C52 C69 C70 | aggregation | induction over the result vector |
| C53 C71-C75 | draws | reduction to rank sets (2^13) and suit counts |
| C57 C58 C76 | walk | invariant over steps for every stream and schedule |
| C59 C60 C77-C79 | how an approximate run ends | rounding bounds for sums, squares and roots; computed witnesses |
| C81-C83 | batches | every counter value is a whole number of batches; one flush per thread; a count of steps to the end |
| C84-C86 | equities | a run is the list of its merged batches; tie shares are integer quotients, summed exactly below 2^53; then one rounded division |
| C87 | build profiles | every function agrees between the profiles unless the checked one overflows, function by function |
| C88-C91 | fair samples | a choice is a vector of combo positions; legal choices correspond to deals; steps in one range are injective on them, so they permute them; sequences of drawn cards are counted by recursion on the samples |
| C92 C94 | position count | witness whose combined ranges are computed, then the thread machine with no positions; the product as a fold modulo 2^64 and the trace of C37 for any total |
| C93 | approximate runs | signs of square roots and quotients; invariant "no thread stops" over schedules |
| C95-C98 C100 | rates | the sum of a hand's tie shares lies between two dyadic multiples of its ties; rounded sums cannot leave the interval, as its ends are floats below 2^49, and with two players they coincide; then one rounded division |
| C99 | tables of approximate runs | the final record of C50 for the random walk |
| C101-C105 | masks of a hand, `contains` | bits of the mask word; computed witnesses |
| C106 C107 | `HandWithIndex` | lexicographic comparison |
| C108-C110 | batch counts | invariant over schedules; small integers are exact in binary64 |
| C111 | deviation after one batch | the list of merged batches of C84 with their equities; relative error of a rounded square root |
| C112-C116 | changed arguments | sums over deals and boards of C40 and C41, reindexed: permutations of picks, of the deck, factors and splits |
| C117 C118 C122 | number of evaluations | witness run of C40; each evaluated board class stands for at least one board, and all together for all boards |
| C119-C121 C123 | equities without remainders | the list of merged batches of C84, each divisible by 1..n; the equities are then a function of wins_by_mask |
| C124 C125 | certain results | each merged batch counts the winners of legal deals on legal boards; masks nobody can reach stay 0 |
| C126-C129 | equal fractions | a quotient a/s with a <= s <= 2^53 is never halfway between two floats, so equal fractions round to the same float; the rest is C119 and C115 |
| C130-C132 | meaning of term lists | a strictly sorted list is determined by its elements (C22), and these by the first weights (C24); term lists are compared by the weight they give to each hand |
| C133 C134 | reported equities | C133: sum of the quotients of C86's integer form, one rounding each; C134: C129 for a swap of the two seats |
| C135-C137 | integer counters | the totals of `SpecEquity.v` do not change; C136 combines C114 and C135 |
| C138 C139 | runs without a deal | C138: pigeonhole and one kernel computation of compatible pairs; C139: every batch counts possible deals only |
| C140 | error of two or three players | if three ranges admit no deal, two of them have at most `MAX_SIZE` compatible pairs, so they are combined |
| C141 C142 | reported equities | a batch entry is 0 or at least the number of players, so its shares are not rounded to 0; C142 uses C140 and C86's counters |
| C143 | counters of approximate runs | C57's legal samples are deals and boards of the exact count |
| C144 C145 | reported equities | rounded additions and divisions are monotone; every share of k is also a share of j |
| C146 C147 | reported equities | only one mask is counted; whole numbers below 2^53 are added exactly, equal fractions round equally |
| C148 C149 | counters of several exact runs | every choice of r cards is found r times by choosing one card first; fewer cards, fewer choices |
| C150 | counters of several exact runs | a choice of r cards out of n avoids n - r of them |
| C151-C153 | values of five to seven cards | the strength of five cards determines how often each rank is held; one hand listed for each of 7462 combinations of ranks and flush |
| C154 | number of messages of an exact run | invariant: the messages are at least the finished threads, and each other message merged 10000 evaluations |
| C155 | messages after a cancellation | the messages sent plus those each thread may still send (2, 1 or 0 by its phase) never increase while the token is set |
| C156 | runs of texts | a parsed range has at most 1326 hands of weight at most 100, so two ranges, or three on a flop, cannot overflow; then C140, C41, C50 and C14 |
| C157 C158 | numbers of players | arithmetic on the position of the entry |
| C159 | equities of texts | hands of weight 100 can be halved, two parsed ranges on a flop deal at most 2^53; then C128 |
| C160 | conflicts | every deal of the smaller table is one of the larger table up to weights, order of cards and seats; then C140 |
| C161 | samples of texts | parsed weights are at most 100, so a deal weighs at most 100^n; then C76 and C87 |
| C162 | combinations by name | C51 sums the hands of a block; C11 and C12 give their positions, C41 their counters; each deal counts for one hand |
| C163 | sum over all combinations | C162, and every hand belongs to exactly one combination (338 cases of ranks and suits) |
| C164 | rates by name | C96, C97 and C162; a combination has at most 12 hands and there are at most 52^5 / 5! boards, so its total is below 2^49 |
| C165 | combinations and masks | C163 and C156; of two players the first, the second or both win |
| C166 | totals of all combinations | C45 adds up the hands, C51 and C99 the blocks of hands; hands that are not valid were never dealt |
| C167 | wins of all hands | the deals of a run split by the hand of the player; with nine players C43 is a counterexample |
| C168 | wins of all combinations | C167 and the blocks of hands as in C166; a hand never dealt has no wins by C45 |
| C169 | ties of all hands | the showdowns of a run split by the mask of winners on one side and by the hand of the player on the other |

Limits that are part of the statements: theorems about whole runs assume that the product of
the sizes of the combined ranges is below 2^63 (beyond it the position count can overflow),
and either a checked build or weights whose totals fit 64 bits.

## Seeded bugs

`seeded/LOG.jsonl` records edits of the model that a real bug could have made, and the
theorems whose proof then fails.  The edits were made in a scratch copy.
