{"claims": [
{"property": "C01", "status": "proved", "theorems": ["C01_parsing", "C01_layout", "C01_equality"], "note": ""},
{"property": "C02", "status": "proved", "theorems": ["C02_deck_contents"], "note": ""},
{"property": "C03", "status": "proved", "theorems": ["C03_draw"], "note": ""},
{"property": "C04", "status": "proved", "theorems": ["C04_shuffle", "C04_reachable"], "note": ""},
{"property": "C05", "status": "partial", "theorems": ["C05_trick_refuted", "C05_trick_partial", "C05_trick_bad_card", "C05_untrick", "C05_exact"], "note": "False of the code when every card of the deck is named; proved for all shorter lists. C05_exact says for every list of cards of the deck, repeated or not, what every later shuffle gives: the list followed by a permutation of the other cards, or, if there are none, what the untricked deck gives."},
{"property": "C06", "status": "proved", "theorems": ["C06_histories", "C06_repeated_trick_duplicates"], "note": ""},
{"property": "C07", "status": "proved", "theorems": ["C07_construction", "C07_shipped"], "note": "The set of good parameters is `constructible` (EvalSpec.v); `key_error` says which failures are KeyError."},
{"property": "C08", "status": "partial", "theorems": ["C08_every_hand_has_a_rank_refuted", "C08_default_order", "C08_every_hand_has_a_rank_partial", "C08_exact", "C16_repetition_harm"], "note": "Proved in full for the default order. C08_exact: for orders without repetitions it fails exactly for a one-suit deck with as many ranks as cards in a hand and flushes ranked, where the only hand raises KeyError. Orders with repetitions are accepted and can give ranks beyond max_rank (C16_repetition_harm)."},
{"property": "C09", "status": "partial", "theorems": ["C09_ranking_refuted", "C09_ranking_partial", "C09_tight_decks", "C09_tight_suited", "C09_standard_deck"], "note": "False when the deck has as many ranks as a hand has cards (straight flushes tie with straights); exact behaviour proved there, and the full statement for every other deck."},
{"property": "C10", "status": "partial", "theorems": ["C10_rank_class_of_hand_refuted", "C10_rank_class_of_hand_partial", "C10_domain", "C10_intervals", "C10_tight_suited"], "note": "Class names false in the decks of C09, where the class reported is that of the same ranks in mixed suits (C10_tight_suited); domain and interval order proved for all."},
{"property": "C100", "status": "proved", "theorems": ["C100_hand", "C100_reset", "C100_array_hand", "C100_array_reset"], "note": "Both dealers. alike relates two tables with the same play and corresponding cards; C100_example and C100_array_example show two such tables with different hands played to a showdown."},
{"property": "C101", "status": "proved", "theorems": ["C101_sessions", "C101_fresh", "C101_array_sessions", "C101_array_fresh"], "note": "Both dealers. If the reset raises, the answer is the same too, but the table keeps what it had (C40). C101_example and C101_array_example show two sessions with different pasts."},
{"property": "C102", "status": "partial", "theorems": ["C102_partial", "C102_refuted", "C102_array_partial", "C102_array_solvent"], "note": "Array dealer: proved when no folded player has put in more than everybody in the hand, and without that condition if nobody owes chips and the antes are equal. List dealer: false when a player tied with two others has put in more (C102_refuted: equal hands and bets get 13 and 24 chips); proved for regular ties."},
{"property": "C103", "status": "proved", "theorems": ["C103_list", "C103_array"], "note": "list: win_probabilities at a reachable table, against any table whose hands, board and deck hold the same cards up to order and suit names. array: the same for the array dealer, with corresponding random boards when it draws them. Both speak of calls that give numbers; which error a failing call raises is not compared."},
{"property": "C104", "status": "proved", "theorems": ["C104_order", "C104_dead", "C104_sure", "C104_array_order", "C104_array_dead", "C104_array_sure"], "note": "order: as good on every completion gives at least the same win probability (same denominator). dead: beaten on every completion gives 0. sure: better than everybody on every completion, or alone, gives 1 and 0 for everybody else. array_*: the same at the array dealer, over completions and drawn boards."},
{"property": "C105", "status": "proved", "theorems": ["C105_fold", "C105_above", "C105_whole", "C105_array_fold", "C105_array_above", "C105_array_whole"], "note": "fold: any two negative bets give the same reply and table. above: any two bets that round to at least call, min_raise and max_raise as observed. whole: a float that rounds to an int of the same sign does what the int does. array_*: the same at the array dealer; negative bets there at fairly reached tables."},
{"property": "C11", "status": "proved", "theorems": ["C11_best_hand", "C11_any_cards", "C11_best_unique", "C11_bad_mandatory"], "note": ""},
{"property": "C12", "status": "proved", "theorems": ["C12_order_irrelevant"], "note": ""},
{"property": "C13", "status": "proved", "theorems": ["C13_extra_community", "C13_extra_hole", "C13_deck_cards"], "note": ""},
{"property": "C14", "status": "proved", "theorems": ["C14_lookup", "C14_evaluate"], "note": ""},
{"property": "C15", "status": "partial", "theorems": ["C15_rarity_refuted", "C15_rarity_partial", "C15_exact", "C15_exact_hands"], "note": "False e.g. for 3 suits, 13 ranks (three of a kind above straight). C15_exact_hands: for every evaluator with the default order, hands of rarer classes never lose to those of more frequent classes exactly if the deck is not in rarity_exception; C15_exact says the same of the order of the classes."},
{"property": "C16", "status": "partial", "theorems": ["C16_accepted", "C16_missing", "C16_unknown", "C16_honoured_partial", "C16_repetition_refuted", "C16_repetition_harm"], "note": "Orders without repetitions are honoured. Repeated class strings are accepted (C16_repetition_refuted), and then ranks are wrong: with 'sf' named twice four aces lose to seven high and get_rank_class raises (C16_repetition_harm)."},
{"property": "C17", "status": "proved", "theorems": ["C17_wrong_length", "C17_bad_raise", "C17_expanded", "C17_success", "C17_shipped"], "note": ""},
{"property": "C18", "status": "proved", "theorems": ["C18_betting", "C18_pot", "C18_many_bets"], "note": "Every bet (any int or float) on every reachable state."},
{"property": "C19", "status": "partial", "theorems": ["C19_exact", "C19_partial", "C19_acted", "C19_equal_chips", "C19_refuted"], "note": "False as stated: when every player left is all in but somebody has not acted, the hand is cut short, all are refunded and the chips of folded players disappear (C19_refuted). C19_exact gives the exact amount; C19_partial: conserved whenever the hand is not cut short; C19_equal_chips: conserved in every hand that everybody starts with the same number of chips, more than any ante and blind."},
{"property": "C20", "status": "partial", "theorems": ["C20_exact", "C20_partial", "C20_equal_chips", "C20_refuted"], "note": "False as stated for hands that are cut short (C20_refuted); C20_exact gives the exact sum; C20_partial: zero whenever the hand is not cut short; C20_equal_chips: zero in every hand that everybody starts with the same number of chips."},
{"property": "C21", "status": "partial", "theorems": ["C21_step", "C21_reset", "C21_partial", "C21_refuted"], "note": "No step ever makes a stack negative (C21_step), and no reset does when everybody dealt in can pay (C21_reset, C21_partial); C21_refuted: a reset takes the whole blind or ante from a shorter stack."},
{"property": "C22", "status": "partial", "theorems": ["C22_refuted", "C22_pot_limit_refuted", "C22_exact", "C22_rounding_partial", "C22_interval", "C22_debt"], "note": "C22_exact: what is taken for every bet that can be rounded, at every table, for players who are not in debt; C22_debt: a player in debt takes the debt back from the pot and folds exactly on a negative bet. The claim holds with a big blind or a fixed raise size and a raise interval that is not inside out (C22_rounding_partial; C22_interval: it never is in no-limit and fixed-limit games). False otherwise (C22_refuted, C22_pot_limit_refuted)."},
{"property": "C23", "status": "partial", "theorems": ["C23_call", "C23_raise_partial", "C23_exact", "C23_refuted"], "note": "Call half proved in full for players who are not in debt. Raise half: proved with a big blind or a fixed raise size (C23_raise_partial), false without (C23_refuted); C23_exact says which bets inside the interval are taken as they are at every table."},
{"property": "C24", "status": "partial", "theorems": ["C24_bounds", "C24_call", "C24_fixed_limit", "C24_pot_limit", "C24_largest_raise", "C24_largest_raise_start", "C24_min_raise_partial", "C24_min_raise_refuted", "C24_min_raise_exact"], "note": "All clauses proved except 'an allowed raise is at least the largest raise', which is refuted; C24_min_raise_exact: it fails exactly on streets with a fixed raise size below the largest raise of the hand."},
{"property": "C25", "status": "partial", "theorems": ["C25_cap_partial", "C25_other_raises_all_in", "C25_capped", "C25_counter", "C25_refuted", "C25_all_raises"], "note": "Refuted: with a fixed raise size below the big blind no raise is counted, five raises pass a cap of 1 (C25_refuted). Full raises (at least the largest raise so far) are capped when there is a big blind (C25_cap_partial); C25_other_raises_all_in says when the remaining raises are all-in bets. C25_all_raises: if the raise rule of the street fits the raises made before, at most cap raises plus one short all-in raise per player with chips are made."},
{"property": "C26", "status": "proved", "theorems": ["C26_fold_exactly", "C26_below_call", "C26_nothing_owed", "C26_stays_out"], "note": ""},
{"property": "C27", "status": "proved", "theorems": ["C27_others_untouched"], "note": ""},
{"property": "C28", "status": "proved", "theorems": ["C28_settled", "C28_unchanged"], "note": ""},
{"property": "C29", "status": "proved", "theorems": ["C29_grow", "C29_board"], "note": ""},
{"property": "C30", "status": "proved", "theorems": ["C30_no_card_twice"], "note": ""},
{"property": "C31", "status": "proved", "theorems": ["C31_next", "C31_in_hand", "C31_unique", "C42_positions"], "note": ""},
{"property": "C32", "status": "partial", "theorems": ["C32_partial", "C32_exact", "C32_refuted"], "note": "Every hand in fair play is over after an explicit number of bets, computed from the state, if no step raises (C32_partial). With finite bets only, it is over by then or stands at a showdown that cannot be paid out (C32_exact). Such showdowns exist, so the unconditional claim is false of the code (C32_refuted)."},
{"property": "C33", "status": "proved", "theorems": ["C33_last_player"], "note": ""},
{"property": "C34", "status": "partial", "theorems": ["C34_exact", "C34_determined", "C34_partial", "C34_solvent_partial", "C34_refuted"], "note": "C34_exact: what every showdown pays, for all hands and amounts, in terms of PaidSpec.v (who shares which pot), which determines it (C34_determined). The side pots of ShowSpec are paid when folded players are covered and ties are regular (regular_ties: in particular no ties, or tied players with equal amounts); with equal antes and solvent players the folded players are always covered (C34_solvent_partial); C34_refuted: a tied player may be paid from a side pot they are not in."},
{"property": "C35", "status": "partial", "theorems": ["C35_exact", "C35_partial", "C35_refuted", "C35_stuck", "C35_stuck_reached"], "note": "C35_exact: the exact seat that gets the odd chips, or the IndexError; C35_partial: as stated when the button is at seat 0; C35_refuted: wrong seat for another button; C35_stuck_reached: the step raises and the hand can never be finished. C34_exact extends C35_exact to irregular ties and uncovered folded players."},
{"property": "C36", "status": "partial", "theorems": ["C36_exact", "C36_partial", "C36_all_but_one", "C36_covered", "C36_no_showdown", "C36_refuted", "C36_refuted_antes"], "note": "C36_exact: what folded players get at every showdown. As stated for equal antes, solvent players and the button at seat 0 (C36_partial); for any button all folded seats but at most one; false otherwise: odd chips may go to a folded seat, a folded player with the largest ante takes chips back."},
{"property": "C37", "status": "proved", "theorems": ["C37_payout"], "note": "Every step that ends a hand."},
{"property": "C38", "status": "partial", "theorems": ["C38_state", "C38_partial", "C38_after_fold", "C38_refuted"], "note": "The state never changes (C38_state) and the reported payouts are the same unless the hand ended by folding (C38_partial); after a hand ended by folding the repeated payouts differ (C38_refuted)."},
{"property": "C39", "status": "partial", "theorems": ["C39_refuted", "C39_exact", "C39_partial", "C39_equal_chips"], "note": "Refuted: players put all in by a blind who have not acted. Holds whenever everybody in the hand has acted on the street, and in every hand that everybody starts with the same number of chips (C39_equal_chips)."},
{"property": "C40", "status": "proved", "theorems": ["C40_step_before_reset", "C40_too_few", "C40_failed_reset_corrupts_hand"], "note": ""},
{"property": "C41", "status": "proved", "theorems": ["C41_reset", "C41_cards"], "note": ""},
{"property": "C42", "status": "proved", "theorems": ["C42_positions"], "note": ""},
{"property": "C43", "status": "proved", "theorems": ["C43_step", "C43_run", "C43_reset"], "note": "Two tables that differ only in their cards give the same replies as long as the player to act holds the same cards and sees the same board. C43_after_the_end shows why finished hands are excluded: the last observation shows the last seat's cards even if that seat folded."},
{"property": "C44", "status": "partial", "theorems": ["C44_viewer", "C44_dealer_partial", "C44_dealer_folded", "C44_dealer_refuted"], "note": "C44_viewer: for every pair of render configurations with the same open hands (that of the player to act while the configuration is not done, those of the players still in when it is) the text is the same. C44_dealer_partial: the same for the dealer while somebody in the hand has chips. C44_dealer_folded: the cards of folded players never matter. C44_dealer_refuted: when the blinds put everybody all in, the hand is in progress but drawn with all hands open."},
{"property": "C45", "status": "proved", "theorems": ["C45_probabilities", "C45_returns", "C45_too_few_cards"], "note": "The probabilities are exact rationals won/total in the model; C77 is about the rounding of the final float divisions. C45_returns says when a result is returned, C45_too_few_cards when the call raises ZeroDivisionError."},
{"property": "C46", "status": "partial", "theorems": ["C46_entry", "C46_no_entry", "C46_history_partial", "C46_refuted", "C46_exact"], "note": "The history records 0 for a player in debt although chips flow back; proved for non-negative stacks. C46_exact: in every hand the chips put in are the forced bets plus the recorded bets, minus the debt of each player who has acted."},
{"property": "C47", "status": "partial", "theorems": ["C47_refuted", "C47_exact"], "note": "Refuted: negative bets that check, and small bets that fold. Exact value of the flag proved."},
{"property": "C48", "status": "partial", "theorems": ["C48_exact", "C48_partial", "C48_between_hands", "C48_refuted"], "note": "C48_exact: exactly the chips of folded players of hands that are cut short disappear; C48_partial: as stated when no hand is cut short; C48_refuted otherwise."},
{"property": "C49", "status": "partial", "theorems": ["C49_partial", "C49_after_reset", "C49_live", "C49_when_returned", "C49_refuted"], "note": "False as stated (C49_refuted): four of the lists in an observation are the dealer's own objects. Proved on a model with a store: the numbers and the hole cards never change, observations of earlier hands never change, and exactly what the four lists show while the hand goes on."},
{"property": "C50", "status": "partial", "theorems": ["C50_seats", "C50_table", "C50_clockwise", "C50_where", "C50_never_fails", "C50_dealer_partial", "C50_dealer_before_showdown", "C50_dealer_refuted"], "note": "Everything holds for the viewer: one place per player, each field once in the template, clockwise order, exact text of every field, no failure for any configuration. For the dealer, rendering raises exactly if the payouts cannot be computed (C50_dealer_partial), which happens (C50_dealer_refuted, the odd-chip defect of C35)."},
{"property": "C51", "status": "proved", "theorems": ["C51_convert", "C51_jsonify", "C51_lossless"], "note": "Every nesting: the converted value is the original with cards replaced by their strings; conversion is injective on what it keeps."},
{"property": "C52", "status": "proved", "theorems": ["C52_on_edge", "C52_mod_one", "C52_distinct", "C52_whole_edge", "C52_opposite", "C52_mirror", "C52_seats", "C52_concentric", "C52_extent", "C52_rounded"], "note": "Over the real numbers (floating point rounding is not modelled); round(x, 2) is a parameter. Uses the axioms of the standard library's Reals."},
{"property": "C53", "status": "partial", "theorems": ["C53_partial", "C53_message", "C53_after_fold", "C53_cut_short", "C53_refuted"], "note": "Holds after a showdown (C53_partial); false after a hand that ends by folding, where the payouts are computed again from the emptied pot (C53_refuted): C53_after_fold says exactly what is drawn then, C53_cut_short what is drawn after a hand cut short (C39), still shown as in progress with the action on player 0."},
{"property": "C54", "status": "partial", "theorems": ["C54_partial", "C54_programs_partial", "C54_live", "C54_refuted"], "note": "False as stated (C54_refuted). Proved: changes to observations of earlier hands never reach the game, in whatever order a program makes calls and changes (C54_programs_partial); changes to those of the current hand are assignments to the dealer's attributes."},
{"property": "C55", "status": "proved", "theorems": ["C55_pot_empty", "C55_last_observation"], "note": "C55_pot_empty for every reachable state; C55_last_observation for fair play (non-negative amounts)."},
{"property": "C56", "status": "proved", "theorems": ["C56_plain", "C56_commas", "C56_injective"], "note": "About Python's str and format ',' as modelled; PropAscii.v says where each is used."},
{"property": "C57", "status": "partial", "theorems": ["C57_config", "C57_last_move", "C57_game_unchanged", "C57_first", "C57_partial", "C57_exact", "C57_refuted"], "note": "False of the code in sessions with more than one mode (C57_refuted): the first viewer that could be opened is kept, and later modes, even unknown ones, are ignored. C57_exact says for all sessions what is shown; C57_partial proves the property for sessions that always ask for the same mode, C57_first for the first call. C57_config and C57_last_move: what is shown agrees with the game. C57_game_unchanged follows directly from the shape of the model, in which render does not return a game state."},
{"property": "C58", "status": "proved", "theorems": ["C58_elements", "C58_positions", "C58_numbers"], "note": "Seat positions are parameters (C52 is about them). C58_numbers: the numbers in identifiers are decimal numerals."},
{"property": "C59", "status": "partial", "theorems": ["C59_page", "C59_dealer", "C59_game", "C59_refuted"], "note": "C59_page proves it for all sequences of configurations whose last one has an entry for every player in its list of hands; C59_dealer and C59_game: that is so for every configuration of a dealer from the first hand on. False before the first hand (C59_refuted): the page shows 0 chips."},
{"property": "C60", "status": "proved", "theorems": ["C60_shows_last", "C60_in_order", "C60_arrives", "C60_game"], "note": "Sending a message to all browsers is one event; messages to one browser are neither lost nor reordered. For the tables a page can show (see C59)."},
{"property": "C61", "status": "partial", "theorems": ["C61_exact", "C61_partial", "C61_refuted"], "note": "False for hands of two cards with two or more suits (Leduc poker shows pairs as 1/3 of the hands instead of 1/5), for three suits with hands of four or five cards, and for decks with fewer ranks than cards in a hand; C61_exact says for exactly which decks the shares are right. Shares are exact fractions; C78 is about their rounding to four decimals."},
{"property": "C62", "status": "partial", "theorems": ["C62_succeeds", "C62_exact", "C62_partial", "C62_refuted"], "note": "False: one deck is dealt out and never shuffled again, so that hands after the deck is used up are empty. True as long as the deck lasts."},
{"property": "C63", "status": "partial", "theorems": ["C63_any_program", "C63_any_antes", "C63_exact", "C63_bets", "C63_refuted"], "note": "False only in one point: a showdown with an odd chip can stop it with an IndexError (C63_refuted). It ends after less than 7266 bets, never fails otherwise, and the rewards sum to zero (C63_exact); the same for any way to choose bets and any ordinary configuration with even antes (C63_any_program)."},
{"property": "C64", "status": "partial", "theorems": ["C64_exact", "C64_refuted"], "note": "Same exception as C63. If the browser view cannot be opened the error says so; otherwise the run is the one without drawing, and rewards sum to zero (C64_exact)."},
{"property": "C65", "status": "proved", "theorems": ["C65_step", "C65_bets", "C65_reset", "C65_payouts"], "note": "For all ordinary configurations and histories, with any showdown: the array dealer, unlike the list dealer, never loses chips."},
{"property": "C66", "status": "partial", "theorems": ["C66_exact", "C66_determined", "C66_defined", "C66_partial", "C66_solvent", "C66_refuted"], "note": "C66_exact: what every showdown of the array dealer pays, for all hands, folds and amounts, and which showdowns raise, in terms of NumpyPaidSpec.v, which determines it (C66_determined, C66_defined). The side pots of ShowSpec are paid if no folded player has put in more than everybody still in the hand; that holds in play without debts with equal antes (C66_solvent). False otherwise: such chips are shared by all seats, folded ones too (C66_refuted)."},
{"property": "C67", "status": "partial", "theorems": ["C67_exact", "C67_partial", "C67_refuted"], "note": "Proved while the attribute button is below the number of players. It is counted up without a limit, and later the last seat is taken for the button (C67_exact says who gets the chips, C67_refuted)."},
{"property": "C68", "status": "partial", "theorems": ["C68_reset", "C68_fields", "C68_step", "C68_showdown_partial", "C68_hand", "C68_refuted"], "note": "All resets agree up to the button counter (C68_reset); after every bet the cards, bets, streets and players in the hand agree (C68_fields); everything agrees before the showdown unless the list dealer cuts the hand short (C68_step) and at showdowns without the faults of C34-C36 (C68_showdown_partial). C68_hand: whole hands that everybody starts with the same number of chips go the same way at both dealers, up to the showdown, and with the button at the first seat to their end. C68_refuted: a hand that only the list dealer ends early."},
{"property": "C69", "status": "partial", "theorems": ["C69_ends", "C69_returns", "C69_finite", "C69_solvent", "C69_refuted"], "note": "Every hand ends or raises at its showdown after finitely many bets (C69_finite); errors before the showdown are impossible (C69_returns). Without debts and with hands that can be evaluated it ends (C69_solvent; see C76 for when they can). False with debts: a showdown at which nobody in the hand has put in chips raises a ValueError (C69_refuted)."},
{"property": "C70", "status": "proved", "theorems": ["C70_probabilities", "C70_agrees"], "note": "Quotients are pairs (wins, all wins), not floats. The random boards are an argument."},
{"property": "C71", "status": "partial", "theorems": ["C71_button", "C71_positions", "C71_next", "C71_in_hand", "C71_refuted"], "note": "All proved with the seat button mod players. Only the last part is false: the button shown is the number of hands since it was reset (C71_refuted)."},
{"property": "C72", "status": "partial", "theorems": ["C72_state", "C72_partial", "C72_after_fold", "C72_refuted"], "note": "The state never changes (C72_state). What is returned is the same after a showdown in which everybody left has put something in (C72_partial). After a hand that ended by folding the repeated payouts are a loss for everybody (C72_after_fold, C72_refuted)."},
{"property": "C73", "status": "partial", "theorems": ["C73_exact", "C73_partial", "C73_same", "C73_refuted"], "note": "False as stated: from the hand on in which the button counter reaches the number of players the dealer cannot be printed (C73_refuted). Exact condition in C73_exact; otherwise the text is that of the dealer on lists (C73_same)."},
{"property": "C74", "status": "partial", "theorems": ["C74_state", "C74_payouts", "C74_width", "C74_limits", "C74_refuted"], "note": "Proved for tables without debts (nobody's forced bets exceed the stack); false with debts (C74_refuted). C74_limits bounds the observed limits and the values computed on the way to them: the call, the pot-limit raise (at most three times the chips of the table) and the largest raise."},
{"property": "C75", "status": "proved", "theorems": ["C75_no_card_twice", "C75_hand", "C75_deal", "C75_board"], "note": "C75_board needs a deck with enough cards."},
{"property": "C76", "status": "proved", "theorems": ["C76_returns", "C76_ends", "C76_any_program", "C76_readme"], "note": "Histories: np_game (fair play without debts, distinct cards in tricks). Configurations: playable for single steps, ordinary for programs; all shipped ones are."},
{"property": "C77", "status": "proved", "theorems": ["C77_rounded", "C77_rounded_array", "C77_determined", "C77_range", "C77_order", "C77_sum", "C77_faithful", "C77_dealt"], "note": "floats as their exact rational values; the division is proved to be IEEE 754 rounding to nearest, ties to even (FloatSpec.v)"},
{"property": "C78", "status": "proved", "theorems": ["C78_text", "C78_true", "C78_readable"], "note": "domain: decks with at least as many cards as a hand (the domain of the evaluator's properties); the true percentages are shown for the decks of C61_exact"},
{"property": "C79", "status": "partial", "theorems": ["C79_partial", "C79_live", "C79_after_reset", "C79_when_returned", "C79_refuted"], "note": "False as stated (C79_refuted): community_cards of an observation is the dealer's own list. Proved: nothing else in an observation ever changes; until the next reset community_cards shows the current board; after it nothing changes."},
{"property": "C80", "status": "partial", "theorems": ["C80_partial", "C80_live", "C80_refuted"], "note": "False as stated (C80_refuted): the two lists of cards of the current hand are the dealer's own. Proved for all programs that write into the other lists of any observation and into all lists of observations of earlier hands."},
{"property": "C81", "status": "proved", "theorems": ["C81_fields", "C81_operators", "C81_shifts", "C81_equality", "C81_other_objects", "C81_membership", "C81_same_suit", "C81_ranks", "C81_product", "C81_trick_cards", "C81_trick_others"], "note": "Operands are cards, integers, or objects that define none of the operators."},
{"property": "C82", "status": "proved", "theorems": ["C82_dealer", "C82_reset", "C82_step", "C82_session", "C82_odd_chips"], "note": "The proviso about odd chips is stated with the pots of PaidSpec.v; C82_odd_chips shows that it is needed. Steps are for tables in fair play."},
{"property": "C83", "status": "proved", "theorems": ["C83_seats", "C83_step", "C83_hand", "C83_reset", "C83_deal", "C83_win", "C83_odd_chips"], "note": "rotating all players, the button and the turn commutes with bets, with resets that move the button and with winning probabilities; C83_odd_chips shows that the exception for showdowns is needed"},
{"property": "C84", "status": "partial", "theorems": ["C84_partial", "C84_hand_partial", "C84_folded", "C84_refuted"], "note": "Proved for one bet and for whole hands (C84_partial, C84_hand_partial) if the side pots of both showdowns can be divided and the code pays them as specified (covered folds, regular ties). Missing: showdowns with odd chips, for which the claim is false of the code (C84_refuted: the odd chip goes to the wrong seat). Folded players' cards: C84_folded, without conditions on the showdown."},
{"property": "C85", "status": "proved", "theorems": ["C85_card", "C85_not_read", "C85_deck", "C85_deck_cards", "C85_deck_length", "C85_binary", "C85_repr_card", "C85_repr_deck", "C85_repr_evaluator", "C85_repr_dealer", "C85_repr_svg"], "note": "Cards are those the constructor makes (C81's a_card); ids are arbitrary integers."},
{"property": "C86", "status": "proved", "theorems": ["C86_mean", "C86_bounds", "C86_counts", "C86_main"], "note": "Exact fractions instead of floats. What is evaluated in the loop is the subject of C62 (mostly empty hands)."},
{"property": "C87", "status": "partial", "theorems": ["C87_partial", "C87_refuted", "C87_array_partial", "C87_array_solvent", "C87_array_refuted"], "note": "The full claim is false of both dealers (C87_refuted, C87_array_refuted). C87_partial: list dealer, covered folds and regular ties; C87_array_partial: array dealer, covered folds; C87_array_solvent: array dealer, no debts and equal antes, no other condition. In all three the odd chips of the side pots may come on top for one player."},
{"property": "C88", "status": "proved", "theorems": ["C88_step", "C88_run", "C88_reset", "C88_after_the_end"], "note": "While a hand is in progress; once it is over the observation shows the cards of the last seat (C88_after_the_end)."},
{"property": "C89", "status": "partial", "theorems": ["C89_partial", "C89_hand_partial", "C89_folded", "C89_refuted"], "note": "For side pots that can be divided, with any ties; false with odd chips (C89_refuted). C89_folded holds without that condition."},
{"property": "C90", "status": "proved", "theorems": ["C90_reset", "C90_step", "C90_session", "C90_odd_chips", "C90_odd_error"], "note": "The constructor is shared with the list dealer (C82_dealer). The proviso about odd chips is stated with the pots of NumpyPaidSpec.v; C90_odd_chips and C90_odd_error show that it is needed. Replies are compared for hands in progress; a step after the end of a hand changes nothing."},
{"property": "C91", "status": "proved", "theorems": ["C91_step", "C91_hand", "C91_reset", "C91_win", "C91_refuted"], "note": "Steps and hands for tables whose button counter is a seat; C91_refuted shows what happens otherwise. Resets compare the counters of the button as seats. Observations after the end of a hand show the cards of the last seat, which is another player after the move (t_out)."},
{"property": "C92", "status": "proved", "theorems": ["C92_environment", "C92_open", "C92_close", "C92_silence", "C92_lost", "C92_seen", "C92_failed", "C92_leak", "C92_refuted", "C92_pile_up", "C92_one", "C92_cut", "C92_cut_refuted"], "note": "The wishes that a failed opening leaves no process, and that an interrupted close can be repeated, are refuted; the exact conditions are proved."},
{"property": "C93", "status": "partial", "theorems": ["C93_limits", "C93_exact", "C93_nearest_partial", "C93_nearest_refuted", "C93_legal", "C93_debt", "C93_cap_partial", "C93_cap_refuted", "C93_all_raises"], "note": "Limits, the number taken and folding exactly; C93_debt: a player in debt takes the debt back and folds exactly on a negative bet. Nearest legal amount: false without a big blind or fixed raises, or with an interval turned inside out (C93_nearest_refuted). The cap counts full raises in games with a big blind (C93_cap_partial); false for all raises (C93_cap_refuted), of which there are at most as many as configured plus one per player with chips, if the raise rule of the street suits the raises before it (C93_all_raises)."},
{"property": "C94", "status": "partial", "theorems": ["C94_entry", "C94_grows", "C94_exact", "C94_refuted"], "note": "Exact but for players in debt after the blinds, who take the debt back from the pot at their first turn without an entry (C94_exact says how many chips; C94_refuted)."},
{"property": "C95", "status": "proved", "theorems": ["C95_settled", "C95_board", "C95_out", "C95_others", "C95_last"], "note": "The board clause holds as long as the deck has cards for the streets reached (as C23 for the list dealer)."},
{"property": "C96", "status": "proved", "theorems": ["C96_orders", "C96_tricked", "C96_deal", "C96_seat", "C96_array_deal", "C96_array_seat"], "note": "Exactly one list of draws of random.shuffle (one number between 0 and i for each index i) for each order; the number of draws that give a deal, or a hand to a seat, depends only on the number of cards. That the numbers drawn are uniform is an assumption about Python's random module."},
{"property": "C97", "status": "partial", "theorems": ["C97_round_partial", "C97_array_round_partial", "C97_refuted"], "note": "Proved for rounds in which everybody has chips and more than any ante, at both dealers. Missing: rounds in which somebody is out of the game, for which it is false of the code (C97_refuted): seats post different totals."},
{"property": "C98", "status": "partial", "theorems": ["C98_partial", "C98_at_most_one", "C98_refuted", "C98_array_partial", "C98_array_refuted"], "note": "False as stated: the list dealer can give the odd chips of a showdown to an empty seat, and with unequal antes the array dealer shares unmatched chips of a folded player with empty seats. Proved without debts and with equal antes: at the array dealer for all sessions, at the list dealer for sessions whose hands end without showdown or with the button at seat 0; elsewhere one bet brings back at most one player (C98_at_most_one)."},
{"property": "C99", "status": "proved", "theorems": ["C99_exchange", "C99_best", "C99_array_exchange", "C99_array_best"], "note": "For decks that are not tricked, counting the draws of random.shuffle as in C96."}
]}
