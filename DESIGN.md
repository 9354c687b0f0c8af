# Formal model of fschlatt/clubs in Rocq (Coq 8.16.1)

Nothing of the project was run.  The only tie between the theorems and the program is the model, and
every definition of the model cites the lines of `/repo` it was read from.

## 1. What is modelled

| file in `/repo` | model | not modelled |
| --- | --- | --- |
| `clubs/poker/card.py` | `CardModel.v`, `ShuffleModel.v` (`random.shuffle`), `ReprModel.v` (`__repr__`, `_bin_str`), `CardOpsModel.v` (the operators; operands are cards, integers, or objects without operators) | the uses of the operators in the evaluator are modelled on the integer |
| `clubs/poker/evaluator.py` | `EvalModel.v`, `EvalTextModel.v`, `PercentModel.v` (the text with its rounded floats), `SpeedModel.v` (the clock in `speed_test`, without rounding), `ReprModel.v` | `suits`/`ranks` outside 1..4 / 1..13 are outside the domain of the model (a `Deck`, hence a `Dealer`, rejects them) |
| `clubs/poker/engine.py` (class `Dealer`, `argmin`) | `EngineModel.v` (lists as values), `HeapModel.v` (lists as objects), `RenderModel.v` (`render`, `__str__`), `ReprModel.v` | keyword arguments and sleeping of `render` |
| `clubs/render/ascii_viewer.py` and its template | `AsciiModel.v` | printing, sleeping |
| `clubs/render/graphic.py`: `_convert_hands`, `_jsonify` | `JsonModel.v` | `json.dumps` |
| `clubs/render/graphic.py`: `GraphicViewer` and its server process | `RenderModel.v` (what can happen in the server and in the browsers, in any order), `ViewerModel.v` (starting, connecting, closing, in any schedule, with deaths of the server and interruptions of `close`) | host and the choice of the port, HTTP; sending to all browsers is one event; messages to a browser are neither lost nor reordered; loading the page and connecting are one event |
| `clubs/render/graphic.py`: `_RoundedRectangle` | `EdgeModel.v` (real numbers) | floating point rounding |
| `clubs/render/graphic.py`: `_SVGElement`, `_SVGPoker`; the images; `parse_config.js` | `SvgModel.v` (a tree of elements with the attributes the code reads or writes) | attributes only used for looks, XML syntax, the HTML page around the image, how a browser paints; seat positions are parameters |
| `clubs/configs.py` | `ConfigsModel.v` (as literals) | |
| `clubs/render/viewer.py` | `rconfig` in `AsciiModel.v` (the render configuration) | the abstract base class |
| `clubs/error.py` | the constructors of `exn` in `PyBase.v` | messages |
| `README.md` (the program), `example.py` | `ExampleModel.v` | the calls of `time.sleep`; random numbers are arguments |
| `engine_numpy.py` (in the root, not part of the package) | `NumpyModel.v`, `NumpyHeapModel.v` (arrays and lists as objects), `NumpyRenderModel.v`, `NumpyExampleModel.v` (the README program with this dealer) (arrays as lists; fields, configuration and methods that are the same in both dealers are shared with `EngineModel.v`) | the width of array integers (but see C74); the random boards of `win_probabilities` are an argument |
| `speed_test.py` (in the root) | `SpeedModel.v` | the text around the two numbers |

Files ending in `Spec.v`, sections called "Specification" in some `Prop*.v` files, and definitions placed
directly before a theorem contain the vocabulary of the statements.  `*Facts.v`, `*Proofs.v` and `Eval*.v` contain lemmas only.
Every property is a `Theorem Cnn_...` in a file `Prop*.v`, with `Print Assumptions` behind it in the file.  Every
property has an `Example Cnn_...` beside its theorems showing a concrete execution that meets hypotheses of theirs.

Randomness: `random.shuffle` is a function of an explicit list of random choices; every theorem
quantifies over that list, and `shuf_complete` shows that every ordering of the cards is the result of
some list.  `ShuffleModel.v` also models how `random.shuffle` of CPython orders a list from the numbers it draws (its
source is not part of `/repo`); C96 shows that all orders come from equally many draws.  That the numbers drawn are
equally likely is not modelled.

Python numbers: `int` is `Z`; chips are ints.  A bet may be an int, a finite float (its exact rational
value), an infinity or nan.  Quotients in `win_probabilities` are exact fractions in `EngineModel.v` and
`NumpyModel.v`; `FloatModel.v` rounds them to doubles as the code does (C77).  The geometry of C52 is over the real numbers.

Exceptions are values.  A method that raises returns the state with all assignments made before the
exception.

Aliasing: lists are values in `EngineModel.v`.  `HeapModel.v` models the same methods on a store, where
`self.x = ...` makes a new object and `self.x[i] = ...` and `self.x += ...` change the old one;
`hrun_refines` (`HeapFacts.v`) proves that the two models agree on every history of calls, so every
theorem about the first model is one about the second.  `NumpyHeapModel.v` and `NumpyHeapFacts.v` do the same for the
dealer on arrays (`nh_run_refines`), whose arrays are changed in place and copied by `tolist`.

Histories: `reachable` (`EngineSpec.v`) is any history of `reset`, `step`, `deck.trick`,
`deck.untrick` and assignments to `stacks`.  Excluded are an assignment of a list of the wrong length
and a `reset` that raises during a hand (it corrupts the hand: `C40_failed_reset_corrupts_hand`).
`fair` adds: configured amounts and assigned stacks are not negative.

## 2. Method per property

`refuted` means: the statement in `properties.jsonl` is false of the code as it is; a theorem
`..._refuted` exhibits a concrete reachable execution, and further theorems prove the strongest version
found that holds (suffix `_partial` when it is weaker than the property, `_exact` when it says exactly
what happens in all cases).

| id | modelled by | proof |
| --- | --- | --- |
| C01 card parsing | `Card`, tables | finite table sweep lifted to all strings |
| C02 deck contents | `Deck` | all 52 (suits, ranks) pairs, all random sources |
| C03 draw | `deck_draw` | induction on the number drawn |
| C04 shuffle | `deck_shuffle` | permutation by induction; completeness of `shuf` |
| C05 trick | `deck_trick` | refuted for the full deck; `C05_exact` for every list of cards |
| C06 deck histories | traces of deck operations | invariant by induction |
| C07 evaluator domain | `Evaluator` | finite sweep of all (suits, ranks, cards, low) lifted to a characterisation |
| C08-C10 ranks | `LookupTable`, `table_lookup` | see section 4 |
| C11-C14 | `evaluate` | fold/minimum lemmas, permutation invariance |
| C15 rarity | counts vs. enumerated frequency | refuted for the wrong formula; exact set of good decks, in terms of classes and of hands (`PropExact.v`) |
| C16 custom order | `ranked_classes` | refuted for repetitions, which damage the table (`C16_repetition_harm`); theorem for orders without |
| C17 configuration | `Dealer` | characterisation of success/errors |
| C18-C21 chips | `step`, `reset` | invariants over all operation sequences; refuted cases with witnesses |
| C22-C25 bets | `bet_sizes`, `clean_bet` | arithmetic; refuted cases |
| C26-C32 betting rounds | `step` | invariants; C32 by an explicit bound: chips left, players left and streets left, times the number of seats (`longest`) |
| C33-C37 showdown | `payouts`, `split_pots` | loop invariants against a closed-form side-pot specification (`ShowSpec.v`); `PaidSpec.v` says who shares which pot in every showdown, also in those the side-pot rule does not describe |
| C38-C41 API | `step`, `reset` | case analysis |
| C42 blinds | `reset` | index arithmetic |
| C43, C44 | `observation`, `AsciiModel` | non-interference: two tables that differ in hidden cards only |
| C45 win probabilities | `win_counts` | counting over all completions of the board |
| C46, C47 history | `history` | invariants; refuted for the fold flag |
| C48 sessions | traces | induction over hands |
| C49, C54 snapshots | `HeapModel` | refinement of `EngineModel`; frame rule for the objects of an observation |
| C50, C53 text table | `AsciiModel` | the template is a literal; formatting is proved equal to the template with its slots filled |
| C51 JSON | `JsonModel` | structural induction |
| C52 geometry | `EdgeModel` | trigonometry (standard library reals) |
| C55 between hands | `step` | invariant by induction |
| C56 numbers | `str_int`, `fmt_comma` in `AsciiModel` | induction over the digits |
| C57 rendering | `render` in `RenderModel` | case analysis, and induction over sessions that play and render |
| C58 the drawing | `base_svg` in `SvgModel` | closed form of the image; identifiers are shown to be an injective notation for positions in the tree |
| C59 the page | `on_config` in `SvgModel` | the script is proved equal to a list of writes to identified elements; the last write to each element decides; induction over the messages |
| C60 all browsers | `happen` in `RenderModel` | invariant over all schedules: every page and its inbox are an ordered selection of the configurations rendered; a measure that every internal event lowers by one |
| C61 text of an evaluator | `evaluator_str` in `EvalTextModel` | the counting formulas are compared with a count of all hands, which C15 already relates to the hands of the deck; one finite check over the 520 decks |
| C62 `speed_test` | `speed_test` in `EvalTextModel` | induction over the iterations |
| C63 program of the README | `readme`, `program` in `ExampleModel` | induction over the loop with C20, C22, C30, C32, C37 and C11; the invariant `level` of `LevelFacts.v` (equal chips, nobody all in before acting) shows that no hand is cut short |
| C64 `example.py` | `example_py` in `ExampleModel` | drawing never fails after a step that succeeded, so the loop is the one of C63 |
| C65 chips | `np_step`, `np_reset`, `np_payouts` in `NumpyModel` | a state of the array dealer is compared with the same table of the list dealer with the button taken modulo the players (`wrap`); the pots dealt out add up to the chips put in, by induction over the pots |
| C66 side pots | `np_eval_round` | its loop is proved to produce the side pots of `ShowSpec` where folded players are covered, and those of `NumpyPaidSpec` in every case |
| C67 odd chips | `np_remainder` | case analysis on where the shifted list of winners starts |
| C68 both dealers | both models | the two models are run from the same table; everything up to the payouts is equal, the payouts are compared through the side pots |
| C69 end of a hand | `np_step` | the measure of C32 |
| C70 win probabilities | `np_win_probabilities`, `ncr` | the quotient of products in `ncr` is proved to be the number of boards; C45 |
| C71 button and turns | `np_reset`, `np_step` | C31 and C42 through `wrap` |
| C72 steps after the end | `np_step`, `np_payouts` | dealing the pots again with pot 0: the loop never meets 0 early (`np_split_again`) |
| C73 printing | `np_str` | exact condition: payouts fail, or the button has reached the number of players |
| C74 size of numbers | `np_step`, `np_reset` | invariant: chips of this street within chips put in, within the pot; no debts |
| C75 cards of the array dealer | `np_reset`, `np_step` | the invariant of C30: table, hands and deck are a permutation of the deck |
| C76 hands that end | `np_step`, `np_payouts`, `NumpyExampleModel.v` | invariant: a player in the hand has put in the most of the street, and somebody in the hand has chips in the pot; so a showdown always has a winner; C11 for the ranks, C75 for distinct cards |
| C77 float probabilities | `FloatModel.v` on top of C45, C70 | a double is an exact rational; `FloatSpec.v` says what the nearest double is, and the quotient computed with integers is proved to be it; the rest follows from the specification |
| C78 percentages | `PercentModel.v` on top of C61 | errors of the three roundings are added up; the sum is smaller than the distance of the exact value to the next tie |
| C79, C80 snapshots of the array dealer | `NumpyHeapModel.v` | refinement of `NumpyModel`; frame rule; for C80 induction over the calls and assignments of a program, with the set of observations that are out of the dealer's reach |
| C81 operators of cards | `CardOpsModel.v` | case analysis on the operands; for the folds over hands, the bit fields and the unique factorisation of C08 |
| C82 the value of a chip | `EngineModel.v` against `ScaleSpec.v` | every function of the dealer commutes with multiplying all amounts; showdowns through `PaidSpec.v` and its uniqueness |
| C83 the numbers of the seats | `EngineModel.v` against `SeatsSpec.v` | every function of the dealer commutes with moving all players by the same number of seats; showdowns through `ShowSpec.v` and its uniqueness |
| C84 a better hand never pays less | `EngineModel.v` against `ShowSpec.v` | shares summed chip level by chip level (times a factorial, so that the sums stay whole); winners of a level compared for the two showdowns; the play of both tables is the same by C43 |
| C85 texts tell objects apart | `ReprModel.v`, `CardModel.v` (`__str__`) | the separators do not occur in cards and numbers, so every text can be cut into its parts in one way; numbers by C56 |
| C86 the times of speed_test | `SpeedModel.v` on top of `EvalTextModel.v` (C62) | induction over the loop; the clock is an arbitrary function of the number of calls |
| C87 winning no more than one's own stake from anybody | both dealers; `matched` in `PropCover.v` | from C34 and C66 for showdowns, directly for hands that end by folding; refuted for irregular ties (list dealer) and for the odd chips (array dealer) |
| C88 the array dealer hides cards | `np_step`, `np_reset` of `NumpyModel.v`, `recard` of `PropHidden.v` | two runs that differ in the cards only, step by step and by induction over the bets |
| C89 better hands at the array dealer | the same, `improved_shares` of `PropBetter.v` | from C66: the shares level by level; refuted for pots that cannot be divided |
| C90 the value of a chip at the array dealer | `NumpyModel.v` against `ScaleSpec.v` | every function commutes with multiplying all amounts; the side pots of `np_show_pots` are scaled one by one |
| C91 moving all players round the table of the array dealer | `NumpyModel.v` against `SeatsSpec.v` | as C83, with the pots of `NumpyPaidSpec.v`; the seat of the odd chips by the order after the button |
| C92 the life of the server process of a viewer | `ViewerModel.v`: constructor, `render`, `close`, finalizer, interleaved with lists of steps of the server processes | an invariant of the connection over all schedules; exact conditions for a process left behind |
| C93 what a bet means at the array dealer | `NumpyModel.v`: `np_step` with the limits of the observation | one lemma on all effects of a bet (`np_seen`), through the agreement with the list dealer (C68) |
| C94 the history of the array dealer | `NumpyModel.v`: `history` | induction over the bets of a hand, from `np_seen` |
| C95 the course of a hand at the array dealer | `NumpyModel.v`: `np_step`, `np_run_steps` | a street invariant carried along the bets, through the agreement with the list dealer (C68) |
| C96 every order of the deck equally likely | `ShuffleModel.v`: `py_shuffle`, `source` (the loop of `random.shuffle`) | the draws are shown to be in bijection with the orders, by induction over the loop; deals are then counted |
| C97 over one round of the table everybody posts the same | `EngineModel.v`: `reset`, `apply_op`; `NumpyModel.v`: `np_reset`, `np_apply_op` | sessions as an inductive relation; the positions of a seat over a round are shown to be a permutation of all positions |
| C98 a player without chips stays out | `EngineModel.v`: `reset`, `step`, `payouts`; `NumpyModel.v`: `np_reset`, `np_step`, `np_payouts` | induction over the further calls of a session, with the payouts of players who are not in the hand (C36, C66) |
| C99 no seat is favoured by the deal | `ShuffleModel.v`; `EngineModel.v`: `reset`; `NumpyModel.v`: `np_reset` | a bijection of the draws of `random.shuffle` that exchanges the hole cards of two seats and nothing else |
| C100 the names of the suits and the order of the cards in a hand do not matter | `EngineModel.v`: `step`, `reset`; `NumpyModel.v`: `np_step`, `np_reset`; `EvalModel.v`: `evaluate` | a relation between two tables (same play, corresponding cards) that every step keeps; at the showdown C12 and C14 |
| C101 a new hand depends on the past only through the stacks, the button and the tricked cards | `EngineModel.v`: `reset`, `step`, `run`; `NumpyModel.v`: `np_reset`, `np_step`, `np_run` | induction over the session: no operation changes the full deck and only `trick`/`untrick` change the tricked cards; then `reset` reads nothing else of the old state |
| C102 a hand that is at least as good, with at least as many chips in, does not win less | `EngineModel.v`: `step`, `payouts`; `NumpyModel.v`: `np_step`, `np_payouts` | the payouts are shares of side pots (C34, C66); shares are monotone, and the number of odd chips is bounded, by induction over the side pots |
| C103 win probabilities do not depend on the order of the deck, the order of cards in a hand or the names of suits | `EngineModel.v`: `win_counts`, `win_probabilities`; `NumpyModel.v`: `np_win_probabilities` | the k-element choices from a permuted deck are a permutation of the choices, up to order inside each (induction over the permutation); every choice is ranked alike (C12, C100) and adding up wins commutes |
| C104 a hand that is as good on every board has at least the same win probability; a beaten one has none, an unbeatable one has all | `EngineModel.v`: `win_probabilities`; `NumpyModel.v`: `np_win_probabilities` | from the counts of C45 and C70: who is among the best on a board stays so with a better hand; the counts add up to the denominator |
| C105 all negative bets do the same, all bets above the limits do the same, and a float does what the whole number it rounds to does | `EngineModel.v`: `settle_bet`, `step`; `NumpyModel.v`: `np_settle_bet`, `np_step` | the two bets are cleaned to the same chips and read with the same fold flag, so the rest of the step is the same; at the array dealer, which does not raise a negative bet to 0, by the limits every fair table keeps |

## 3. Trusted base

* Coq's kernel, including its virtual machine (`vm_compute` is used for finite sweeps and examples;
  `coqchk` rechecks the same terms without it).
* The reading of the Python code expressed by the model.  `SuiteChecks.v` runs the project's own test-suite on the model:
  every assertion of `/repo/test` about modelled behaviour holds, with the deck orders that `random.seed(42)` gives
  where a test depends on them, and the tests of the dealer also hold of the dealer on arrays.  These are tests of the
  model, not properties; no theorem depends on them.
* Axioms: `Print Assumptions` answers "Closed under the global context" for every property theorem
  except the ten of C52.  Those list, from the standard library:
  `ClassicalDedekindReals.sig_forall_dec` and `FunctionalExtensionality.functional_extensionality_dep` (all
  ten), `ClassicalDedekindReals.sig_not_dec` (nine), `Classical_Prop.classic` (one).  No axiom is
  declared in this development; there are no admitted proofs, functors, module types or plugins.
* `coqchk` lists as axioms of the loaded library also `Coq.ssr.ssrunder.Under_rel.*`: fields of a module type in
  the standard library file `ssrunder.v`, loaded with `ssreflect`; and those of `Coq.Reals.Rdefinitions`
  (opaque modules `RbaseSymbolsImpl`, `RinvImpl`).  No theorem here depends on the former.

## 4. The evaluator proofs

The lookup tables are finite but large, and `coqchk` has no virtual machine, so nothing enumerates
a deck's hands for the ranking theorems.  The classes are described by their choices of ranks (`EvalLists.v`), the lists the code builds
are proved equal to lists of such choices, best first (`EvalLists.v`, `EvalRuns.v`), ranks are positions
in the cumulative ranking (`EvalRank.v`), and comparing ranks is proved equivalent to comparing hands by
the rules of poker in `PokerSpec.v`, which mentions no tables, prime products or bit patterns (it
imports the model only for the nine class names).  Sweeps (`EvalSweep1.v`, `EvalSweep2.v`) run over the whole finite parameter
domain of the theorems (1-4 suits, 1-13 ranks, 1-5 cards, ace-low or not), closed by `vm_cast_no_check`;
the kernel still checks these terms at `Qed`.  Two hands with equal prime
products having the same ranks is `prime_prod_inj`.

## 5. What is false of the code

Each item is a theorem; the concrete execution is in its statement or in its proof.

1. A hand in which every remaining player is all in, but somebody has not had a turn, ends at once
   without a showdown: everybody left is refunded and the chips of those who folded vanish
   (`C19_refuted`, `C20_refuted`, `C39_refuted`, `C48_refuted`; engine.py:622-625).
2. Odd chips: `payouts[player_idx + self.button % self.num_players]` (engine.py:733) reads the wrong
   seat or past the list, and the next line pays another seat.  The step can raise `IndexError`; then the hand
   can never be finished and the table cannot be drawn (`C35_refuted`, `C35_stuck_reached`, `C36_refuted`,
   `C32_refuted`, `C50_dealer_refuted`).
3. A player whose side pot is empty is not taken out of the next one (engine.py:713-714), so tied players can
   be paid from side pots they are not in (`C34_refuted`).  What is paid instead: `C34_exact`.
4. Folded players with the largest ante get chips back at a showdown (`C36_refuted_antes`).
5. Blinds and antes are not capped by the stack: stacks become negative (`C21_refuted`).
6. After a hand that ended by folding, a further `step` reports other payouts, and the drawn table shows the
   winner with a loss and names nobody (`C38_refuted`, `C53_refuted`, `C53_after_fold`): the payouts are computed from the emptied pot.
7. Bets: a legal raise near the call can be turned into a smaller bet (`C22_refuted`); in pot limit
   `min_raise` can exceed `max_raise` and a raise still be taken (`C22_pot_limit_refuted`); a raise smaller
   than the largest one can be allowed (`C24_min_raise_refuted`, `C24_min_raise_exact`); with a fixed raise size below the big
   blind no raise is counted by the cap (`C25_refuted`); the recorded fold flag is the sign of the request
   (`C47_refuted`), and for a player in debt the record is 0 although
   chips flow back from the pot (`C46_refuted`, `C46_exact`, `C22_debt`).
8. A `reset` that raises in the middle of a hand has already overwritten the list of active players
   (`C40_failed_reset_corrupts_hand`).
9. The last observation of a hand shows the hole cards of the last seat, even if that player folded
   (`C43_after_the_end`); when the blinds put everybody all in, the table is drawn with all hands open
   although the hand goes on (`C44_dealer_refuted`).
10. Observations share four lists with the dealer (`C49_refuted`, `C54_refuted`); those of the dealer on arrays share the two
    lists of cards (`C79_refuted`, `C80_refuted`).
11. Decks and evaluators: a deck tricked with all its cards is not tricked (`C05_trick_refuted`), tricking with a repeated card
    duplicates it (`C06_repeated_trick_duplicates`), straight flushes tie with straights in decks with as many ranks as
    cards in a hand (`C09_ranking_refuted`, `C10_rank_class_of_hand_refuted`), a custom order that
    ranks an impossible flush can make every lookup raise (`C08_every_hand_has_a_rank_refuted`), classes may be repeated (`C16_repetition_refuted`) and then four aces can
    lose to seven high with a rank that has no class (`C16_repetition_harm`), and the
    default order is not by rarity for some decks (`C15_rarity_refuted`).
12. `render` keeps the first viewer that could be opened: later calls ignore the mode, and an unknown mode raises nothing
    any more (`C57_refuted`, `C57_exact`; engine.py:476).  Before the first hand the page in the browser shows 0 chips for
    everybody, because it writes stacks only for players with hole cards (`C59_refuted`).
13. The text of an evaluator gives wrong shares for hands of two cards with more than one suit (Leduc poker: pairs 1/3 instead
    of 1/5), for three suits and hands of four or five cards, and for decks with fewer ranks than cards in a hand
    (`C61_refuted`, `C61_exact`).  `speed_test` deals one deck out and then times the evaluation of no cards: with the
    standard deck 99992 of its 100000 hands are empty (`C62_refuted`, `C62_exact`).
14. The programs of the README and of `example.py` can stop with an `IndexError` at a showdown with an odd chip: see C34
    (`C63_refuted`, `C64_refuted`).  Everything else that is promised of them holds (`C63_exact`, `C64_exact`); in particular
    no chips disappear, because everybody starts with the same stack (`C19_equal_chips`, `C20_equal_chips`).
15. The dealer on arrays: `self.button + 1 % self.num_players` counts the button up without a limit, so from the hand on in
    which it passes the last seat players observe a button that is no seat (`C71_refuted`; engine_numpy.py:291) and the odd
    chips go to the first winner after the last seat instead of after the button (`C67_refuted`, `C67_exact`).  Chips of a folded
    player that nobody in the hand has matched are shared among all seats, folded ones included (`C66_refuted`).  It does not
    lose chips (C65), does not cut hands short and pays ties right: there the dealers differ (`C68_refuted`).  Once the button
    has been counted up to the number of players, `str(dealer)` and `render` raise an `IndexError` (`C73_refuted`).  Without
    debts no showdown fails (C76); with debts and stacks taken away during a hand the search (`np.argmin`) for the winner of the odd
    chip can find nobody, and `step` raises a `ValueError` (`C69_refuted`).
16. A better hand can hand a chip to a third player: the odd chip goes to the wrong seat (item on C35), so whether a loser gets it
    can depend on how many others tie (`C84_refuted`).
17. The two dealers can pay a player more from somebody else than the player put in (C87). At the list dealer a tied player
    who is all in for one chip can share in a side pot of 20-chip bets (`C87_refuted`: the loop over the tied players leaves
    a player without chips among the winners). At the array dealer the odd chips of a side pot go to the first winner after
    the button, also if that winner has no chips in this side pot (`C87_array_refuted`). For the same reason a better hand of
    one player can pay another player a chip more (`C89_refuted`).
18. At the array dealer the counter of the button is never reduced to a seat. Once it has reached the number of players the
    odd chips of a showdown go to the lowest seat with a share instead of the first one after the button, so moving the
    players round the table can change who gets them (`C91_refuted`). Before that everything moves with the players
    (`C91_step`), which is not so at the list dealer (`C83_odd_chips`).
19. When the server process needs more than ten seconds to open its socket, `GraphicViewer.__init__` raises before the
    attribute `socket` exists.  The finalizer then raises an AttributeError instead of ending the process, which goes on
    running (`C92_refuted`, `C92_failed`, `C92_leak`).  As `Dealer.viewer` stays unassigned, each further `render` of this kind leaves
    one more process (`C92_pile_up`).
20. A `close` that is interrupted after its message was sent cannot be repeated: the listener closes the connection, the next
    `close` raises while sending, and the process is not terminated (`C92_cut_refuted`).
21. `close` does not wait for the listener: a configuration rendered just before may never be shown (`C92_lost`; when it
    is: `C92_seen`).
22. When a player is out of the game the others no longer post the same over a round of the table: the button stops at the
    empty seat too, the positions are counted from the first player after it, and a blind that falls on the empty seat is
    not posted at all (`C97_refuted`: seats 0, 2 and 3 of four post 3, 2 and 5 chips in four hands with blinds 1 and 2).
23. A player who has lost all chips can come back without buying any. At the list dealer the odd chips of a showdown can go to
    an empty seat (`C98_refuted`), whose player is dealt in again by the next reset. At the array dealer this needs unequal
    antes: what a folded player has put in above everybody else is shared by all seats, the empty ones too
    (`C98_array_refuted`). Without new chips, without debts and with equal antes the array dealer keeps players without chips
    out for good (`C98_array_partial`), and so does the list dealer while hands end without showdown or with the button at
    seat 0 (`C98_partial`).
24. At the list dealer two players with equal hands and equal bets can be paid very differently (`C102_refuted`: 13 and 24
    chips), when a third player with an equal hand has put in more; it is the fault of `C34_refuted` as a player
    sees it. With regular ties (`C102_partial`), and at the array dealer (`C102_array_partial`,
    `C102_array_solvent`), they differ by odd chips only.

## 6. Wrong programs

`seeded/LOG.jsonl` has one line per edit of the model made in a scratch copy.  `failed` lists every
theorem that no longer compiled, including those that only use a helper lemma that failed;
`failed_directly` lists those whose own proof failed.  A failing proof does not by itself show that the
statement is false of the edited program; the log says only that the edit did not pass unnoticed.

## 7. Theorems per property

The status is that of `MANIFEST.json`.

* **C01 Card parsing and bit layout** (proved; PropCards.v): `C01_parsing`, `C01_layout`, `C01_equality`.
* **C02 Deck contents** (proved; PropCards.v): `C02_deck_contents`.
* **C03 Drawing cards** (proved; PropCards.v): `C03_draw`.
* **C04 Shuffle restores a full deck** (proved; PropCards.v): `C04_shuffle`, `C04_reachable`.
* **C05 Tricking a deck** (partial; PropCards.v, PropExact.v): `C05_trick_refuted`, `C05_trick_partial`, `C05_trick_bad_card`, `C05_untrick`, `C05_exact`. False of the code when every card of the deck is named; proved for all shorter lists. C05_exact says for every list of cards of the deck, repeated or not, what every later shuffle gives: the list followed by a permutation of the other cards, or, if there are none, what the untricked deck gives.
* **C06 No card duplicated by any deck history** (proved; PropCards.v): `C06_histories`, `C06_repeated_trick_duplicates`.
* **C07 Evaluator construction domain** (proved; PropEval.v): `C07_construction`, `C07_shipped`. The set of good parameters is `constructible` (EvalSpec.v); `key_error` says which failures are KeyError.
* **C08 Every hand has a rank** (partial; PropEval.v, PropExact.v): `C08_every_hand_has_a_rank_refuted`, `C08_default_order`, `C08_every_hand_has_a_rank_partial`, `C08_exact`, `C16_repetition_harm`. Proved in full for the default order. C08_exact: for orders without repetitions it fails exactly for a one-suit deck with as many ranks as cards in a hand and flushes ranked, where the only hand raises KeyError. Orders with repetitions are accepted and can give ranks beyond max_rank (C16_repetition_harm).
* **C09 Hand ranking agrees with the rules of poker** (partial; PropEval.v): `C09_ranking_refuted`, `C09_ranking_partial`, `C09_tight_decks`, `C09_tight_suited`, `C09_standard_deck`. False when the deck has as many ranks as a hand has cards (straight flushes tie with straights); exact behaviour proved there, and the full statement for every other deck.
* **C10 Rank class names** (partial; PropEval.v, PropExact.v): `C10_rank_class_of_hand_refuted`, `C10_rank_class_of_hand_partial`, `C10_domain`, `C10_intervals`, `C10_tight_suited`. Class names false in the decks of C09, where the class reported is that of the same ranks in mixed suits (C10_tight_suited); domain and interval order proved for all.
* **C100 The names of the suits and the order of the cards in a hand do not matter at the table** (proved; PropAlike.v): `C100_hand`, `C100_reset`, `C100_array_hand`, `C100_array_reset`. Both dealers. alike relates two tables with the same play and corresponding cards; C100_example and C100_array_example show two such tables with different hands played to a showdown.
* **C101 A new hand depends on the past only through the stacks, the button and the tricked cards** (proved; PropForget.v): `C101_sessions`, `C101_fresh`, `C101_array_sessions`, `C101_array_fresh`. Both dealers. If the reset raises, the answer is the same too, but the table keeps what it had (C40). C101_example and C101_array_example show two sessions with different pasts.
* **C102 A hand that is at least as good, with at least as many chips in, does not win less** (partial; PropOrder.v): `C102_partial`, `C102_refuted`, `C102_array_partial`, `C102_array_solvent`. Array dealer: proved when no folded player has put in more than everybody in the hand, and without that condition if nobody owes chips and the antes are equal. List dealer: false when a player tied with two others has put in more (C102_refuted: equal hands and bets get 13 and 24 chips); proved for regular ties.
* **C103 Win probabilities do not depend on the order of the deck, the order of cards in a hand or the names of suits** (proved; PropWinAlike.v): `C103_list`, `C103_array`. list: win_probabilities at a reachable table, against any table whose hands, board and deck hold the same cards up to order and suit names. array: the same for the array dealer, with corresponding random boards when it draws them. Both speak of calls that give numbers; which error a failing call raises is not compared.
* **C104 A better hand has the better chances** (proved; PropWinOrder.v): `C104_order`, `C104_dead`, `C104_sure`, `C104_array_order`, `C104_array_dead`, `C104_array_sure`. order: as good on every completion gives at least the same win probability (same denominator). dead: beaten on every completion gives 0. sure: better than everybody on every completion, or alone, gives 1 and 0 for everybody else. array_*: the same at the array dealer, over completions and drawn boards.
* **C105 What a bet does depends only on how it is read** (proved; PropSameBet.v): `C105_fold`, `C105_above`, `C105_whole`, `C105_array_fold`, `C105_array_above`, `C105_array_whole`. fold: any two negative bets give the same reply and table. above: any two bets that round to at least call, min_raise and max_raise as observed. whole: a float that rounds to an int of the same sign does what the int does. array_*: the same at the array dealer; negative bets there at fairly reached tables.
* **C11 Evaluation picks the best admissible hand** (proved; PropEval.v): `C11_best_hand`, `C11_any_cards`, `C11_best_unique`, `C11_bad_mandatory`.
* **C12 Evaluation ignores card order** (proved; PropEval.v): `C12_order_irrelevant`.
* **C13 Extra community cards never hurt** (proved; PropEval.v): `C13_extra_community`, `C13_extra_hole`, `C13_deck_cards`.
* **C14 Suits are interchangeable** (proved; PropEval.v): `C14_lookup`, `C14_evaluate`.
* **C15 Classes ordered by rarity** (partial; PropEval.v, PropExact.v): `C15_rarity_refuted`, `C15_rarity_partial`, `C15_exact`, `C15_exact_hands`. False e.g. for 3 suits, 13 ranks (three of a kind above straight). C15_exact_hands: for every evaluator with the default order, hands of rarer classes never lose to those of more frequent classes exactly if the deck is not in rarity_exception; C15_exact says the same of the order of the classes.
* **C16 Custom order is honoured and validated** (partial; PropEval.v, PropExact.v): `C16_accepted`, `C16_missing`, `C16_unknown`, `C16_honoured_partial`, `C16_repetition_refuted`, `C16_repetition_harm`. Orders without repetitions are honoured. Repeated class strings are accepted (C16_repetition_refuted), and then ranks are wrong: with 'sf' named twice four aces lose to seven high and get_rank_class raises (C16_repetition_harm).
* **C17 Configuration validation** (proved; PropConfig.v): `C17_wrong_length`, `C17_bad_raise`, `C17_expanded`, `C17_success`, `C17_shipped`.
* **C18 Chips are conserved while betting** (proved; PropBetting.v): `C18_betting`, `C18_pot`, `C18_many_bets`. Every bet (any int or float) on every reachable state.
* **C19 Chips are conserved when a hand ends** (partial; PropLevel.v, PropShow.v): `C19_exact`, `C19_partial`, `C19_acted`, `C19_equal_chips`, `C19_refuted`. False as stated: when every player left is all in but somebody has not acted, the hand is cut short, all are refunded and the chips of folded players disappear (C19_refuted). C19_exact gives the exact amount; C19_partial: conserved whenever the hand is not cut short; C19_equal_chips: conserved in every hand that everybody starts with the same number of chips, more than any ante and blind.
* **C20 Payouts of a finished hand sum to zero** (partial; PropLevel.v, PropShow.v): `C20_exact`, `C20_partial`, `C20_equal_chips`, `C20_refuted`. False as stated for hands that are cut short (C20_refuted); C20_exact gives the exact sum; C20_partial: zero whenever the hand is not cut short; C20_equal_chips: zero in every hand that everybody starts with the same number of chips.
* **C21 Stacks never go negative** (partial; PropSolvent.v): `C21_step`, `C21_reset`, `C21_partial`, `C21_refuted`. No step ever makes a stack negative (C21_step), and no reset does when everybody dealt in can pay (C21_reset, C21_partial); C21_refuted: a reset takes the whole blind or ante from a shorter stack.
* **C22 A bet is rounded to the nearest legal bet** (partial; PropBetting.v, PropExact.v): `C22_refuted`, `C22_pot_limit_refuted`, `C22_exact`, `C22_rounding_partial`, `C22_interval`, `C22_debt`. C22_exact: what is taken for every bet that can be rounded, at every table, for players who are not in debt; C22_debt: a player in debt takes the debt back from the pot and folds exactly on a negative bet. The claim holds with a big blind or a fixed raise size and a raise interval that is not inside out (C22_rounding_partial; C22_interval: it never is in no-limit and fixed-limit games). False otherwise (C22_refuted, C22_pot_limit_refuted).
* **C23 Legal bets are taken as they are** (partial; PropBetting.v): `C23_call`, `C23_raise_partial`, `C23_exact`, `C23_refuted`. Call half proved in full for players who are not in debt. Raise half: proved with a big blind or a fixed raise size (C23_raise_partial), false without (C23_refuted); C23_exact says which bets inside the interval are taken as they are at every table.
* **C24 Bet limits are sane** (partial; PropBetting.v, PropExact.v): `C24_bounds`, `C24_call`, `C24_fixed_limit`, `C24_pot_limit`, `C24_largest_raise`, `C24_largest_raise_start`, `C24_min_raise_partial`, `C24_min_raise_refuted`, `C24_min_raise_exact`. All clauses proved except 'an allowed raise is at least the largest raise', which is refuted; C24_min_raise_exact: it fails exactly on streets with a fixed raise size below the largest raise of the hand.
* **C25 Number of raises per street is capped** (partial; PropBetting.v, PropExact.v): `C25_cap_partial`, `C25_other_raises_all_in`, `C25_capped`, `C25_counter`, `C25_refuted`, `C25_all_raises`. Refuted: with a fixed raise size below the big blind no raise is counted, five raises pass a cap of 1 (C25_refuted). Full raises (at least the largest raise so far) are capped when there is a big blind (C25_cap_partial); C25_other_raises_all_in says when the remaining raises are all-in bets. C25_all_raises: if the raise rule of the street fits the raises made before, at most cap raises plus one short all-in raise per player with chips are made.
* **C26 Folding** (proved; PropBetting.v): `C26_fold_exactly`, `C26_below_call`, `C26_nothing_owed`, `C26_stays_out`.
* **C27 Only the acting player's chips move** (proved; PropBetting.v): `C27_others_untouched`.
* **C28 A street ends only when betting is settled** (proved; PropRound.v): `C28_settled`, `C28_unchanged`.
* **C29 Community cards follow the street** (proved; PropRound.v): `C29_grow`, `C29_board`.
* **C30 No card is dealt twice** (proved; PropRound.v): `C30_no_card_twice`.
* **C31 Turn order** (proved; PropReset.v, PropRound.v): `C31_next`, `C31_in_hand`, `C31_unique`, `C42_positions`.
* **C32 Every hand terminates** (partial; PropTerm.v): `C32_partial`, `C32_exact`, `C32_refuted`. Every hand in fair play is over after an explicit number of bets, computed from the state, if no step raises (C32_partial). With finite bets only, it is over by then or stands at a showdown that cannot be paid out (C32_exact). Such showdowns exist, so the unconditional claim is false of the code (C32_refuted).
* **C33 Last player standing takes the pot** (proved; PropRound.v): `C33_last_player`.
* **C34 Showdown side pots** (partial; PropPaid.v, PropSide.v, PropSolvent.v): `C34_exact`, `C34_determined`, `C34_partial`, `C34_solvent_partial`, `C34_refuted`. C34_exact: what every showdown pays, for all hands and amounts, in terms of PaidSpec.v (who shares which pot), which determines it (C34_determined). The side pots of ShowSpec are paid when folded players are covered and ties are regular (regular_ties: in particular no ties, or tied players with equal amounts); with equal antes and solvent players the folded players are always covered (C34_solvent_partial); C34_refuted: a tied player may be paid from a side pot they are not in.
* **C35 Odd chips** (partial; PropSide.v): `C35_exact`, `C35_partial`, `C35_refuted`, `C35_stuck`, `C35_stuck_reached`. C35_exact: the exact seat that gets the odd chips, or the IndexError; C35_partial: as stated when the button is at seat 0; C35_refuted: wrong seat for another button; C35_stuck_reached: the step raises and the hand can never be finished. C34_exact extends C35_exact to irregular ties and uncovered folded players.
* **C36 Folded players win nothing** (partial; PropPaid.v, PropSide.v, PropSolvent.v): `C36_exact`, `C36_partial`, `C36_all_but_one`, `C36_covered`, `C36_no_showdown`, `C36_refuted`, `C36_refuted_antes`. C36_exact: what folded players get at every showdown. As stated for equal antes, solvent players and the button at seat 0 (C36_partial); for any button all folded seats but at most one; false otherwise: odd chips may go to a folded seat, a folded player with the largest ante takes chips back.
* **C37 Nobody loses more than they put in** (proved; PropShow.v): `C37_payout`. Every step that ends a hand.
* **C38 Stepping a finished hand is harmless** (partial; PropShow.v): `C38_state`, `C38_partial`, `C38_after_fold`, `C38_refuted`. The state never changes (C38_state) and the reported payouts are the same unless the hand ended by folding (C38_partial); after a hand ended by folding the repeated payouts differ (C38_refuted).
* **C39 A hand ends only by fold or showdown** (partial; PropLevel.v, PropRound.v): `C39_refuted`, `C39_exact`, `C39_partial`, `C39_equal_chips`. Refuted: players put all in by a blind who have not acted. Holds whenever everybody in the hand has acted on the street, and in every hand that everybody starts with the same number of chips (C39_equal_chips).
* **C40 API misuse raises the documented errors** (proved; PropReset.v): `C40_step_before_reset`, `C40_too_few`, `C40_failed_reset_corrupts_hand`.
* **C41 Reset** (proved; PropReset.v): `C41_reset`, `C41_cards`.
* **C42 Blind positions** (proved; PropReset.v): `C42_positions`.
* **C43 Observations hide the other players' cards** (proved; PropHidden.v): `C43_step`, `C43_run`, `C43_reset`. Two tables that differ only in their cards give the same replies as long as the player to act holds the same cards and sees the same board. C43_after_the_end shows why finished hands are excluded: the last observation shows the last seat's cards even if that seat folded.
* **C44 Text rendering hides the other players' cards** (partial; PropAscii.v): `C44_viewer`, `C44_dealer_partial`, `C44_dealer_folded`, `C44_dealer_refuted`. C44_viewer: for every pair of render configurations with the same open hands (that of the player to act while the configuration is not done, those of the players still in when it is) the text is the same. C44_dealer_partial: the same for the dealer while somebody in the hand has chips. C44_dealer_folded: the cards of folded players never matter. C44_dealer_refuted: when the blinds put everybody all in, the hand is in progress but drawn with all hands open.
* **C45 Win probabilities** (proved; PropWin.v): `C45_probabilities`, `C45_returns`, `C45_too_few_cards`. The probabilities are exact rationals won/total in the model; C77 is about the rounding of the final float divisions. C45_returns says when a result is returned, C45_too_few_cards when the call raises ZeroDivisionError.
* **C46 History accounts for every chip** (partial; PropBetting.v, PropExact.v): `C46_entry`, `C46_no_entry`, `C46_history_partial`, `C46_refuted`, `C46_exact`. The history records 0 for a player in debt although chips flow back; proved for non-negative stacks. C46_exact: in every hand the chips put in are the forced bets plus the recorded bets, minus the debt of each player who has acted.
* **C47 The recorded fold flag is truthful** (partial; PropBetting.v): `C47_refuted`, `C47_exact`. Refuted: negative bets that check, and small bets that fold. Exact value of the flag proved.
* **C48 Chips are conserved over a whole session** (partial; PropSession.v): `C48_exact`, `C48_partial`, `C48_between_hands`, `C48_refuted`. C48_exact: exactly the chips of folded players of hands that are cut short disappear; C48_partial: as stated when no hand is cut short; C48_refuted otherwise.
* **C49 Observations are snapshots** (partial; PropHeap.v): `C49_partial`, `C49_after_reset`, `C49_live`, `C49_when_returned`, `C49_refuted`. False as stated (C49_refuted): four of the lists in an observation are the dealer's own objects. Proved on a model with a store: the numbers and the hole cards never change, observations of earlier hands never change, and exactly what the four lists show while the hand goes on.
* **C50 Every player has one place at the ASCII table** (partial; PropAscii.v): `C50_seats`, `C50_table`, `C50_clockwise`, `C50_where`, `C50_never_fails`, `C50_dealer_partial`, `C50_dealer_before_showdown`, `C50_dealer_refuted`. Everything holds for the viewer: one place per player, each field once in the template, clockwise order, exact text of every field, no failure for any configuration. For the dealer, rendering raises exactly if the payouts cannot be computed (C50_dealer_partial), which happens (C50_dealer_refuted, the odd-chip defect of C35).
* **C51 JSON view is faithful** (proved; PropJson.v): `C51_convert`, `C51_jsonify`, `C51_lossless`. Every nesting: the converted value is the original with cards replaced by their strings; conversion is injective on what it keeps.
* **C52 Seats lie on the table edge** (proved; PropEdge.v): `C52_on_edge`, `C52_mod_one`, `C52_distinct`, `C52_whole_edge`, `C52_opposite`, `C52_mirror`, `C52_seats`, `C52_concentric`, `C52_extent`, `C52_rounded`. Over the real numbers (floating point rounding is not modelled); round(x, 2) is a parameter. Uses the axioms of the standard library's Reals.
* **C53 The table drawn after a hand shows its result** (partial; PropAscii.v, PropDrawn.v): `C53_partial`, `C53_message`, `C53_after_fold`, `C53_cut_short`, `C53_refuted`. Holds after a showdown (C53_partial); false after a hand that ends by folding, where the payouts are computed again from the emptied pot (C53_refuted): C53_after_fold says exactly what is drawn then, C53_cut_short what is drawn after a hand cut short (C39), still shown as in progress with the action on player 0.
* **C54 Observations belong to the caller** (partial; PropHeap.v, PropHeapPrograms.v): `C54_partial`, `C54_programs_partial`, `C54_live`, `C54_refuted`. False as stated (C54_refuted). Proved: changes to observations of earlier hands never reach the game, in whatever order a program makes calls and changes (C54_programs_partial); changes to those of the current hand are assignments to the dealer's attributes.
* **C55 Nothing is left on the table between hands** (proved; PropBetween.v): `C55_pot_empty`, `C55_last_observation`. C55_pot_empty for every reachable state; C55_last_observation for fair play (non-negative amounts).
* **C56 Numbers are written in decimal** (proved; PropText.v): `C56_plain`, `C56_commas`, `C56_injective`. About Python's str and format ',' as modelled; PropAscii.v says where each is used.
* **C57 Rendering shows the table in the way asked for and changes nothing** (partial; PropRender.v): `C57_config`, `C57_last_move`, `C57_game_unchanged`, `C57_first`, `C57_partial`, `C57_exact`, `C57_refuted`. False of the code in sessions with more than one mode (C57_refuted): the first viewer that could be opened is kept, and later modes, even unknown ones, are ignored. C57_exact says for all sessions what is shown; C57_partial proves the property for sessions that always ask for the same mode, C57_first for the first call. C57_config and C57_last_move: what is shown agrees with the game. C57_game_unchanged follows directly from the shape of the model, in which render does not return a game state.
* **C58 The drawing has a place for everything** (proved; PropSvg.v): `C58_elements`, `C58_positions`, `C58_numbers`. Seat positions are parameters (C52 is about them). C58_numbers: the numbers in identifiers are decimal numerals.
* **C59 The browser shows the configuration it got last** (partial; PropRender.v, PropSvg.v): `C59_page`, `C59_dealer`, `C59_game`, `C59_refuted`. C59_page proves it for all sequences of configurations whose last one has an entry for every player in its list of hands; C59_dealer and C59_game: that is so for every configuration of a dealer from the first hand on. False before the first hand (C59_refuted): the page shows 0 chips.
* **C60 All browsers catch up** (proved; PropRender.v): `C60_shows_last`, `C60_in_order`, `C60_arrives`, `C60_game`. Sending a message to all browsers is one event; messages to one browser are neither lost nor reordered. For the tables a page can show (see C59).
* **C61 The text of an evaluator gives the share of every hand class** (partial; PropShares.v): `C61_exact`, `C61_partial`, `C61_refuted`. False for hands of two cards with two or more suits (Leduc poker shows pairs as 1/3 of the hands instead of 1/5), for three suits with hands of four or five cards, and for decks with fewer ranks than cards in a hand; C61_exact says for exactly which decks the shares are right. Shares are exact fractions; C78 is about their rounding to four decimals.
* **C62 speed_test evaluates as many hands as asked** (partial; PropShares.v): `C62_succeeds`, `C62_exact`, `C62_partial`, `C62_refuted`. False: one deck is dealt out and never shuffled again, so that hands after the deck is used up are empty. True as long as the deck lasts.
* **C63 The program in the README ends and prints rewards that sum to zero** (partial; PropExample.v): `C63_any_program`, `C63_any_antes`, `C63_exact`, `C63_bets`, `C63_refuted`. False only in one point: a showdown with an odd chip can stop it with an IndexError (C63_refuted). It ends after less than 7266 bets, never fails otherwise, and the rewards sum to zero (C63_exact); the same for any way to choose bets and any ordinary configuration with even antes (C63_any_program).
* **C64 example.py shows and plays a hand to its end** (partial; PropExample.v): `C64_exact`, `C64_refuted`. Same exception as C63. If the browser view cannot be opened the error says so; otherwise the run is the one without drawing, and rewards sum to zero (C64_exact).
* **C65 The array dealer keeps all chips** (proved; PropNumpy.v): `C65_step`, `C65_bets`, `C65_reset`, `C65_payouts`. For all ordinary configurations and histories, with any showdown: the array dealer, unlike the list dealer, never loses chips.
* **C66 The array dealer pays side pots to the best eligible hands** (partial; PropNumpy.v, PropNumpyPaid.v): `C66_exact`, `C66_determined`, `C66_defined`, `C66_partial`, `C66_solvent`, `C66_refuted`. C66_exact: what every showdown of the array dealer pays, for all hands, folds and amounts, and which showdowns raise, in terms of NumpyPaidSpec.v, which determines it (C66_determined, C66_defined). The side pots of ShowSpec are paid if no folded player has put in more than everybody still in the hand; that holds in play without debts with equal antes (C66_solvent). False otherwise: such chips are shared by all seats, folded ones too (C66_refuted).
* **C67 The array dealer gives the odd chips to the first winner after the button** (partial; PropNumpy.v): `C67_exact`, `C67_partial`, `C67_refuted`. Proved while the attribute button is below the number of players. It is counted up without a limit, and later the last seat is taken for the button (C67_exact says who gets the chips, C67_refuted).
* **C68 The array dealer and the list dealer play the same game** (partial; PropNumpy.v, PropNumpySame.v): `C68_reset`, `C68_fields`, `C68_step`, `C68_showdown_partial`, `C68_hand`, `C68_refuted`. All resets agree up to the button counter (C68_reset); after every bet the cards, bets, streets and players in the hand agree (C68_fields); everything agrees before the showdown unless the list dealer cuts the hand short (C68_step) and at showdowns without the faults of C34-C36 (C68_showdown_partial). C68_hand: whole hands that everybody starts with the same number of chips go the same way at both dealers, up to the showdown, and with the button at the first seat to their end. C68_refuted: a hand that only the list dealer ends early.
* **C69 Every hand of the array dealer ends** (partial; PropNumpy.v, PropNumpyEnds.v): `C69_ends`, `C69_returns`, `C69_finite`, `C69_solvent`, `C69_refuted`. Every hand ends or raises at its showdown after finitely many bets (C69_finite); errors before the showdown are impossible (C69_returns). Without debts and with hands that can be evaluated it ends (C69_solvent; see C76 for when they can). False with debts: a showdown at which nobody in the hand has put in chips raises a ValueError (C69_refuted).
* **C70 Win probabilities of the array dealer** (proved; PropNumpyWin.v): `C70_probabilities`, `C70_agrees`. Quotients are pairs (wins, all wins), not floats. The random boards are an argument.
* **C71 Button, blinds and turns of the array dealer** (partial; PropNumpyWin.v): `C71_button`, `C71_positions`, `C71_next`, `C71_in_hand`, `C71_refuted`. All proved with the seat button mod players. Only the last part is false: the button shown is the number of hands since it was reset (C71_refuted).
* **C72 Steps after the end of a hand at the array dealer** (partial; PropNumpyAfter.v): `C72_state`, `C72_partial`, `C72_after_fold`, `C72_refuted`. The state never changes (C72_state). What is returned is the same after a showdown in which everybody left has put something in (C72_partial). After a hand that ended by folding the repeated payouts are a loss for everybody (C72_after_fold, C72_refuted).
* **C73 Printing the array dealer** (partial; PropNumpyAfter.v): `C73_exact`, `C73_partial`, `C73_same`, `C73_refuted`. False as stated: from the hand on in which the button counter reaches the number of players the dealer cannot be printed (C73_refuted). Exact condition in C73_exact; otherwise the text is that of the dealer on lists (C73_same).
* **C74 Numbers of the array dealer stay within the chips on the table** (partial; PropNumpyAfter.v, PropNumpyRound.v): `C74_state`, `C74_payouts`, `C74_width`, `C74_limits`, `C74_refuted`. Proved for tables without debts (nobody's forced bets exceed the stack); false with debts (C74_refuted). C74_limits bounds the observed limits and the values computed on the way to them: the call, the pot-limit raise (at most three times the chips of the table) and the largest raise.
* **C75 No card is dealt twice by the array dealer** (proved; PropNumpyCards.v): `C75_no_card_twice`, `C75_hand`, `C75_deal`, `C75_board`. C75_board needs a deck with enough cards.
* **C76 At the array dealer every hand without debts can be played to its end** (proved; PropNumpyEnds.v): `C76_returns`, `C76_ends`, `C76_any_program`, `C76_readme`. Histories: np_game (fair play without debts, distinct cards in tricks). Configurations: playable for single steps, ordinary for programs; all shipped ones are.
* **C77 Win probabilities as floats** (proved; PropFloat.v): `C77_rounded`, `C77_rounded_array`, `C77_determined`, `C77_range`, `C77_order`, `C77_sum`, `C77_faithful`, `C77_dealt`. floats as their exact rational values; the division is proved to be IEEE 754 rounding to nearest, ties to even (FloatSpec.v)
* **C78 The percentages in the text of an evaluator are correctly rounded** (proved; PropPercent.v): `C78_text`, `C78_true`, `C78_readable`. domain: decks with at least as many cards as a hand (the domain of the evaluator's properties); the true percentages are shown for the decks of C61_exact
* **C79 Observations of the array dealer are snapshots** (partial; PropNumpyHeap.v): `C79_partial`, `C79_live`, `C79_after_reset`, `C79_when_returned`, `C79_refuted`. False as stated (C79_refuted): community_cards of an observation is the dealer's own list. Proved: nothing else in an observation ever changes; until the next reset community_cards shows the current board; after it nothing changes.
* **C80 Observations of the array dealer belong to the caller** (partial; PropNumpyHeap.v): `C80_partial`, `C80_live`, `C80_refuted`. False as stated (C80_refuted): the two lists of cards of the current hand are the dealer's own. Proved for all programs that write into the other lists of any observation and into all lists of observations of earlier hands.
* **C81 Operators of cards** (proved; PropCardOps.v): `C81_fields`, `C81_operators`, `C81_shifts`, `C81_equality`, `C81_other_objects`, `C81_membership`, `C81_same_suit`, `C81_ranks`, `C81_product`, `C81_trick_cards`, `C81_trick_others`. Operands are cards, integers, or objects that define none of the operators.
* **C82 The value of a chip does not matter** (proved; PropScale.v): `C82_dealer`, `C82_reset`, `C82_step`, `C82_session`, `C82_odd_chips`. The proviso about odd chips is stated with the pots of PaidSpec.v; C82_odd_chips shows that it is needed. Steps are for tables in fair play.
* **C83 The numbers of the seats do not matter** (proved; PropSeats.v): `C83_seats`, `C83_step`, `C83_hand`, `C83_reset`, `C83_deal`, `C83_win`, `C83_odd_chips`. rotating all players, the button and the turn commutes with bets, with resets that move the button and with winning probabilities; C83_odd_chips shows that the exception for showdowns is needed
* **C84 A better hand never pays less** (partial; PropBetter.v): `C84_partial`, `C84_hand_partial`, `C84_folded`, `C84_refuted`. Proved for one bet and for whole hands (C84_partial, C84_hand_partial) if the side pots of both showdowns can be divided and the code pays them as specified (covered folds, regular ties). Missing: showdowns with odd chips, for which the claim is false of the code (C84_refuted: the odd chip goes to the wrong seat). Folded players' cards: C84_folded, without conditions on the showdown.
* **C85 Texts tell objects apart** (proved; PropRepr.v): `C85_card`, `C85_not_read`, `C85_deck`, `C85_deck_cards`, `C85_deck_length`, `C85_binary`, `C85_repr_card`, `C85_repr_deck`, `C85_repr_evaluator`, `C85_repr_dealer`, `C85_repr_svg`. Cards are those the constructor makes (C81's a_card); ids are arbitrary integers.
* **C86 speed_test returns the mean time of an evaluation** (proved; PropSpeed.v): `C86_mean`, `C86_bounds`, `C86_counts`, `C86_main`. Exact fractions instead of floats. What is evaluated in the loop is the subject of C62 (mostly empty hands).
* **C87 Nobody wins more from another player than they put in themselves** (partial; PropCover.v): `C87_partial`, `C87_refuted`, `C87_array_partial`, `C87_array_solvent`, `C87_array_refuted`. The full claim is false of both dealers (C87_refuted, C87_array_refuted). C87_partial: list dealer, covered folds and regular ties; C87_array_partial: array dealer, covered folds; C87_array_solvent: array dealer, no debts and equal antes, no other condition. In all three the odd chips of the side pots may come on top for one player.
* **C88 The array dealer hides the other players' cards** (proved; PropNumpyHidden.v): `C88_step`, `C88_run`, `C88_reset`, `C88_after_the_end`. While a hand is in progress; once it is over the observation shows the cards of the last seat (C88_after_the_end).
* **C89 At the array dealer a better hand never pays less** (partial; PropNumpyBetter.v): `C89_partial`, `C89_hand_partial`, `C89_folded`, `C89_refuted`. For side pots that can be divided, with any ties; false with odd chips (C89_refuted). C89_folded holds without that condition.
* **C90 The value of a chip does not matter at the array dealer** (proved; PropNumpyScale.v): `C90_reset`, `C90_step`, `C90_session`, `C90_odd_chips`, `C90_odd_error`. The constructor is shared with the list dealer (C82_dealer). The proviso about odd chips is stated with the pots of NumpyPaidSpec.v; C90_odd_chips and C90_odd_error show that it is needed. Replies are compared for hands in progress; a step after the end of a hand changes nothing.
* **C91 At the array dealer only the order of the seats matters, not their numbers** (proved; PropNumpySeats.v): `C91_step`, `C91_hand`, `C91_reset`, `C91_win`, `C91_refuted`. Steps and hands for tables whose button counter is a seat; C91_refuted shows what happens otherwise. Resets compare the counters of the button as seats. Observations after the end of a hand show the cards of the last seat, which is another player after the move (t_out).
* **C92 The server process behind a graphic viewer ends with the viewer** (proved; PropViewer.v): `C92_environment`, `C92_open`, `C92_close`, `C92_silence`, `C92_lost`, `C92_seen`, `C92_failed`, `C92_leak`, `C92_refuted`, `C92_pile_up`, `C92_one`, `C92_cut`, `C92_cut_refuted`. The wishes that a failed opening leaves no process, and that an interrupted close can be repeated, are refuted; the exact conditions are proved.
* **C93 At the array dealer bets are read against the observed limits** (partial; PropNumpyBets.v, PropNumpyRound.v): `C93_limits`, `C93_exact`, `C93_nearest_partial`, `C93_nearest_refuted`, `C93_legal`, `C93_debt`, `C93_cap_partial`, `C93_cap_refuted`, `C93_all_raises`. Limits, the number taken and folding exactly; C93_debt: a player in debt takes the debt back and folds exactly on a negative bet. Nearest legal amount: false without a big blind or fixed raises, or with an interval turned inside out (C93_nearest_refuted). The cap counts full raises in games with a big blind (C93_cap_partial); false for all raises (C93_cap_refuted), of which there are at most as many as configured plus one per player with chips, if the raise rule of the street suits the raises before it (C93_all_raises).
* **C94 The history of the array dealer accounts for the hand** (partial; PropNumpyBets.v): `C94_entry`, `C94_grows`, `C94_exact`, `C94_refuted`. Exact but for players in debt after the blinds, who take the debt back from the pot at their first turn without an entry (C94_exact says how many chips; C94_refuted).
* **C95 The course of a hand at the array dealer** (proved; PropNumpyRound.v): `C95_settled`, `C95_board`, `C95_out`, `C95_others`, `C95_last`. The board clause holds as long as the deck has cards for the streets reached (as C23 for the list dealer).
* **C96 Every order of the deck and every deal is equally likely** (proved; PropShuffle.v): `C96_orders`, `C96_tricked`, `C96_deal`, `C96_seat`, `C96_array_deal`, `C96_array_seat`. Exactly one list of draws of random.shuffle (one number between 0 and i for each index i) for each order; the number of draws that give a deal, or a hand to a seat, depends only on the number of cards. That the numbers drawn are uniform is an assumption about Python's random module.
* **C97 Over one round of the table everybody posts the same** (partial; PropOrbit.v): `C97_round_partial`, `C97_array_round_partial`, `C97_refuted`. Proved for rounds in which everybody has chips and more than any ante, at both dealers. Missing: rounds in which somebody is out of the game, for which it is false of the code (C97_refuted): seats post different totals.
* **C98 A player without chips stays out** (partial; PropOut.v): `C98_partial`, `C98_at_most_one`, `C98_refuted`, `C98_array_partial`, `C98_array_refuted`. False as stated: the list dealer can give the odd chips of a showdown to an empty seat, and with unequal antes the array dealer shares unmatched chips of a folded player with empty seats. Proved without debts and with equal antes: at the array dealer for all sessions, at the list dealer for sessions whose hands end without showdown or with the button at seat 0; elsewhere one bet brings back at most one player (C98_at_most_one).
* **C99 No seat is favoured by the deal** (proved; PropSeatFair.v): `C99_exchange`, `C99_best`, `C99_array_exchange`, `C99_array_best`. For decks that are not tricked, counting the draws of random.shuffle as in C96.
