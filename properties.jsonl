{"id": "C01", "title": "Card parsing and bit layout", "statement": "Card(s) succeeds exactly when the first character is a rank symbol and the second a suit symbol (either case); a bad rank raises InvalidRankError (also when the suit is bad as well), a good rank with a bad suit InvalidSuitError, a string shorter than two characters IndexError. On success int(card) has exactly the documented layout: the low byte is the prime of the rank, bits 8-11 the rank index, bits 12-15 a one-hot suit, bits 16-28 a one-hot rank, nothing else; str(card) is the upper-case rank symbol followed by the suit glyph. Two cards compare equal iff they have the same rank and suit.", "quantifier": "every string (sequence of Unicode code points)", "why_tests_cant": "the input is an arbitrary string; tests use a handful of literals", "anchors": ["clubs/poker/card.py:Card.__init__", "clubs/poker/card.py:Card.__eq__", "clubs/poker/card.py:Card.__int__"]}
{"id": "C02", "title": "Deck contents", "statement": "Deck(num_suits, num_ranks) raises InvalidRankError iff num_ranks is outside 1..13, otherwise InvalidSuitError iff num_suits is outside 1..4, otherwise the freshly built deck holds exactly num_suits*num_ranks distinct cards: every combination of the num_ranks highest ranks with the first num_suits suits of S,H,D,C, in some order.", "quantifier": "all integer pairs and all outcomes of the random shuffle", "why_tests_cant": "all 52 valid sizes, all invalid integers, all shuffles", "anchors": ["clubs/poker/card.py:Deck.__init__", "clubs/poker/card.py:Deck.shuffle"]}
{"id": "C03", "title": "Drawing cards", "statement": "deck.draw(n) returns the first min(max(n,0), len(deck)) cards of the deck in order and removes exactly those; the remaining order is unchanged; it never fails.", "quantifier": "every deck state and every integer n", "why_tests_cant": "unbounded deck states and n, including n larger than the deck and negative n", "anchors": ["clubs/poker/card.py:Deck.draw"]}
{"id": "C04", "title": "Shuffle restores a full deck", "statement": "After shuffle() an untricked deck contains every card of the full deck exactly once, whatever had been drawn before, and every ordering is a possible outcome.", "quantifier": "every deck state, every random outcome", "why_tests_cant": "52! orderings", "anchors": ["clubs/poker/card.py:Deck.shuffle"]}
{"id": "C05", "title": "Tricking a deck", "statement": "After deck.trick(cards).shuffle() the next draws return exactly the given cards in the given order, followed by the other cards of the deck, each exactly once, in some order; this holds for every later shuffle until untrick(). A card outside the deck raises ValueError and leaves the deck unchanged.", "quantifier": "every list of distinct cards of the deck, every deck state, every random outcome", "why_tests_cant": "the claim ranges over all card lists (including the full deck) and shuffles", "anchors": ["clubs/poker/card.py:Deck.trick", "clubs/poker/card.py:Deck.shuffle", "clubs/poker/card.py:Deck.untrick"]}
{"id": "C06", "title": "No card duplicated by any deck history", "statement": "Whatever sequence of draw, shuffle, trick (with distinct cards) and untrick is applied to a deck, the deck never holds a card twice and never holds a card outside the full deck; cards drawn since the last shuffle together with the remaining cards are exactly the full deck.", "quantifier": "all finite histories of deck operations and random outcomes", "why_tests_cant": "histories are unbounded", "anchors": ["clubs/poker/card.py:Deck"]}
{"id": "C07", "title": "Evaluator construction domain", "statement": "For every deck size (1-4 suits, 1-13 ranks), hand size 1-5 and either low-end-straight setting, without custom order, building the evaluator either succeeds or raises a Python error, and it succeeds exactly on an explicitly described set of parameters that contains every shipped configuration; hand sizes outside 1..5 raise InvalidHandSizeError.", "quantifier": "all 4*13*5*2 parameter combinations and all other hand sizes", "why_tests_cant": "only a few combinations are ever built in tests; the failing ones hide in corners", "anchors": ["clubs/poker/evaluator.py:Evaluator.__init__", "clubs/poker/evaluator.py:LookupTable.__init__", "clubs/poker/evaluator.py:_ncr"]}
{"id": "C08", "title": "Every hand has a rank", "statement": "For every successfully built evaluator and every hand of cards_for_hand distinct cards of its deck, lookup returns an integer between 0 and max_rank; no hand raises KeyError.", "quantifier": "all evaluator parameters (with or without custom order) and all hands of the deck", "why_tests_cant": "2,598,960 hands for the standard deck alone, times hundreds of decks", "anchors": ["clubs/poker/evaluator.py:LookupTable.lookup", "clubs/poker/evaluator.py:LookupTable._flushes", "clubs/poker/evaluator.py:LookupTable._multiples"]}
{"id": "C09", "title": "Hand ranking agrees with the rules of poker", "statement": "For every successfully built evaluator, one hand gets a smaller rank than another iff it beats it under the rules of poker: a better class (in the evaluator's class order) wins; inside a class hands compare by the ranks of their quads/trips/pairs and then kickers, straights by their top card with the ace-low straight lowest; two hands get the same rank iff they tie under those rules.", "quantifier": "all evaluator parameters, all pairs of hands", "why_tests_cant": "pairs of millions of hands; tests compare a few dozen pairs", "anchors": ["clubs/poker/evaluator.py:LookupTable", "clubs/poker/evaluator.py:LookupTable.lookup"]}
{"id": "C10", "title": "Rank class names", "statement": "get_rank_class(lookup(hand)) is the poker class of the hand for every hand; get_rank_class raises InvalidHandRankError exactly for integers below 0 or above max_rank; better classes own smaller rank intervals.", "quantifier": "all evaluators, all hands, all integers", "why_tests_cant": "all hands and all integers", "anchors": ["clubs/poker/evaluator.py:Evaluator.get_rank_class"]}
{"id": "C11", "title": "Evaluation picks the best admissible hand", "statement": "evaluate(hole, community) is the smallest rank among all hands made of cards_for_hand of the given cards; when mandatory_hole_cards=m>0, among all hands made of exactly m hole cards and cards_for_hand-m community cards; when no such hand exists the result is max_rank.", "quantifier": "all evaluators and all hole/community card lists", "why_tests_cant": "all card lists of all lengths", "anchors": ["clubs/poker/evaluator.py:Evaluator.evaluate"]}
{"id": "C12", "title": "Evaluation ignores card order", "statement": "Reordering the hole cards among themselves or the community cards among themselves never changes evaluate's result.", "quantifier": "all evaluators, all card lists, all permutations", "why_tests_cant": "permutations of arbitrary lists", "anchors": ["clubs/poker/evaluator.py:Evaluator.evaluate", "clubs/poker/evaluator.py:LookupTable.lookup"]}
{"id": "C13", "title": "Extra community cards never hurt", "statement": "Adding community cards never makes the evaluated hand worse (the rank never increases); with no mandatory hole cards the same holds for extra hole cards.", "quantifier": "all evaluators, all hole and community lists and extensions", "why_tests_cant": "unbounded lists", "anchors": ["clubs/poker/evaluator.py:Evaluator.evaluate"]}
{"id": "C14", "title": "Suits are interchangeable", "statement": "Renaming the suits of all cards by any permutation of the four suits never changes lookup or evaluate.", "quantifier": "all evaluators, hands and suit permutations", "why_tests_cant": "all hands times all renamings", "anchors": ["clubs/poker/evaluator.py:LookupTable.lookup"]}
{"id": "C15", "title": "Classes ordered by rarity", "statement": "Without custom order, a hand class that occurs in fewer of the possible hands of the deck never ranks below a class that occurs in more of them.", "quantifier": "all deck sizes, hand sizes and straight settings for which the evaluator can be built", "why_tests_cant": "needs the exact number of hands per class for every deck", "anchors": ["clubs/poker/evaluator.py:LookupTable._three_of_a_kind", "clubs/poker/evaluator.py:LookupTable._high_card", "clubs/poker/evaluator.py:LookupTable.__init__"]}
{"id": "C16", "title": "Custom order is honoured and validated", "statement": "With a custom order, LookupTable either raises or ranks classes exactly in the given order; every list that is not a permutation of the nine class strings is rejected with an error.", "quantifier": "all lists of strings, all deck parameters", "why_tests_cant": "arbitrary lists of strings", "anchors": ["clubs/poker/evaluator.py:LookupTable.__init__"]}
{"id": "C17", "title": "Configuration validation", "statement": "Dealer(...) raises InvalidConfigError when blinds, antes, raise_sizes, num_raises or num_community_cards is a list of the wrong length, InvalidRaiseSizeError for a raise size other than an int, 'pot' or 'inf'; a scalar is expanded to a list of that value of the right length and a right-length list is kept as is.", "quantifier": "all scalar-or-list argument values and lengths", "why_tests_cant": "arbitrary lists", "anchors": ["clubs/poker/engine.py:Dealer.__init__"]}
{"id": "C18", "title": "Chips are conserved while betting", "statement": "During a hand, no bet whatsoever (any int or float) changes sum(stacks)+pot as long as the hand goes on; the pot always equals the sum of what the players put in during the hand.", "quantifier": "every configuration, initial stacks, shuffle, and sequence of bets", "why_tests_cant": "all bet sequences", "anchors": ["clubs/poker/engine.py:Dealer.step", "clubs/poker/engine.py:Dealer._collect_bet"]}
{"id": "C19", "title": "Chips are conserved when a hand ends", "statement": "When a step ends the hand, the sum of the stacks afterwards equals the sum of stacks plus pot before the step.", "quantifier": "every configuration, hand and bet sequence", "why_tests_cant": "depends on every way a hand can end", "anchors": ["clubs/poker/engine.py:Dealer.step", "clubs/poker/engine.py:Dealer._done", "clubs/poker/engine.py:Dealer._payouts"]}
{"id": "C20", "title": "Payouts of a finished hand sum to zero", "statement": "When a step ends the hand, the returned payouts sum to zero.", "quantifier": "every configuration, hand and bet sequence", "why_tests_cant": "depends on every way a hand can end", "anchors": ["clubs/poker/engine.py:Dealer._payouts", "clubs/poker/engine.py:Dealer._eval_round"]}
{"id": "C21", "title": "Stacks never go negative", "statement": "No sequence of resets and steps ever makes a stack negative.", "quantifier": "all configurations, stacks, histories", "why_tests_cant": "histories are unbounded", "anchors": ["clubs/poker/engine.py:Dealer._collect_multiple_bets", "clubs/poker/engine.py:Dealer._collect_bet"]}
{"id": "C22", "title": "A bet is rounded to the nearest legal bet", "statement": "step commits a legal amount nearest to the requested one (legal: 0, the call amount, or anything between min_raise and max_raise of the last observation), preferring the smaller amount on ties; floats are first rounded half-to-even.", "quantifier": "all bets (ints, finite floats), all observations", "why_tests_cant": "continuous input, all states", "anchors": ["clubs/poker/engine.py:Dealer._clean_bet", "clubs/poker/engine.py:Dealer.step", "clubs/poker/engine.py:argmin"]}
{"id": "C23", "title": "Legal bets are taken as they are", "statement": "If a player bets exactly the observed call amount, exactly that many chips leave their stack and they stay in the hand; if they bet an integer between the observed min_raise and max_raise, exactly that many chips leave their stack.", "quantifier": "all reachable observations and bets", "why_tests_cant": "all reachable states", "anchors": ["clubs/poker/engine.py:Dealer.step", "clubs/poker/engine.py:Dealer._bet_sizes", "clubs/poker/engine.py:Dealer._clean_bet"]}
{"id": "C24", "title": "Bet limits are sane", "statement": "Observed call, min_raise and max_raise never exceed the acting player's stack and are never negative; in fixed-limit games an allowed raise is exactly the street's raise size on top of the call (or the whole stack if smaller), in pot-limit games at most pot plus twice the call; when a raise is allowed it is at least the largest raise of the hand.", "quantifier": "all reachable states", "why_tests_cant": "all reachable states", "anchors": ["clubs/poker/engine.py:Dealer._bet_sizes"]}
{"id": "C25", "title": "Number of raises per street is capped", "statement": "On no street are more than num_raises raises made; once the cap is reached the acting player can only fold, check or call.", "quantifier": "all configurations and bet sequences", "why_tests_cant": "bet sequences are unbounded", "anchors": ["clubs/poker/engine.py:Dealer._bet_sizes", "clubs/poker/engine.py:Dealer.step"]}
{"id": "C26", "title": "Folding", "statement": "A player leaves the hand exactly when it is their turn, they owe a non-zero call, and they bet a negative amount or an amount rounded below the call; a folded player stays out for the rest of the hand and commits no more chips; a player who owes nothing never folds.", "quantifier": "all states and bets", "why_tests_cant": "all bets and continuations", "anchors": ["clubs/poker/engine.py:Dealer.step"]}
{"id": "C27", "title": "Only the acting player's chips move", "statement": "A step that does not end the hand changes the stack and commitment of no player other than the one whose turn it was; nobody else is folded.", "quantifier": "all states and bets", "why_tests_cant": "all reachable states", "anchors": ["clubs/poker/engine.py:Dealer.step"]}
{"id": "C28", "title": "A street ends only when betting is settled", "statement": "The street number increases only after every player still in the hand has acted on it and has matched the largest commitment of the street or is all in; otherwise it stays the same and no community card is dealt.", "quantifier": "all states and bets", "why_tests_cant": "all bet sequences", "anchors": ["clubs/poker/engine.py:Dealer._all_agreed", "clubs/poker/engine.py:Dealer.step"]}
{"id": "C29", "title": "Community cards follow the street", "statement": "While a hand is being played, the number of community cards equals the sum of num_community_cards over the streets reached (as far as the deck reaches), and cards already on the table never change or disappear.", "quantifier": "all configurations, shuffles, bet sequences", "why_tests_cant": "all histories", "anchors": ["clubs/poker/engine.py:Dealer.step", "clubs/poker/engine.py:Dealer.reset"]}
{"id": "C30", "title": "No card is dealt twice", "statement": "At every point of every hand the community cards, all hole cards and the remaining deck together are exactly the full deck, each card once (for decks not tricked with repeated cards).", "quantifier": "all configurations, shuffles and histories", "why_tests_cant": "all histories", "anchors": ["clubs/poker/engine.py:Dealer.reset", "clubs/poker/engine.py:Dealer.step", "clubs/poker/card.py:Deck"]}
{"id": "C31", "title": "Turn order", "statement": "After each step that does not close the street the turn goes to the next player clockwise who is still in the hand; after each street change it goes to the first player still in the hand left of the button; whenever a hand is in progress the player to act is in the hand.", "quantifier": "all states and bets", "why_tests_cant": "all seat/fold patterns", "anchors": ["clubs/poker/engine.py:Dealer._move_action", "clubs/poker/engine.py:Dealer.step"]}
{"id": "C32", "title": "Every hand terminates", "statement": "From any hand in progress, every sequence of bets long enough (a bound depending on the state only) ends the hand.", "quantifier": "all configurations, stacks and infinite bet sequences", "why_tests_cant": "infinite behaviours", "anchors": ["clubs/poker/engine.py:Dealer.step", "clubs/poker/engine.py:Dealer._all_agreed"]}
{"id": "C33", "title": "Last player standing takes the pot", "statement": "When all but one player have folded, the hand ends at that step, the remaining player's stack grows by the whole pot and every other player loses exactly what they had put in.", "quantifier": "all states and bets", "why_tests_cant": "all histories", "anchors": ["clubs/poker/engine.py:Dealer._payouts", "clubs/poker/engine.py:Dealer.step"]}
{"id": "C34", "title": "Showdown side pots", "statement": "At showdown every chip level of the pot is shared equally, up to indivisible remainders, among the best hands of the players still in the hand who committed at least that much; nobody wins from an opponent more than they themselves committed.", "quantifier": "all commitments, hand strengths and tie patterns", "why_tests_cant": "all side-pot structures", "anchors": ["clubs/poker/engine.py:Dealer._eval_round"]}
{"id": "C35", "title": "Odd chips", "statement": "Chips left over from uneven splits at showdown all go to the first winning player left of the button.", "quantifier": "all showdowns and button positions", "why_tests_cant": "all button positions and tie patterns", "anchors": ["clubs/poker/engine.py:Dealer._eval_round"]}
{"id": "C36", "title": "Folded players win nothing", "statement": "When a hand ends, a player who folded (or was not in the hand) has payout exactly minus what they had put in.", "quantifier": "all hands", "why_tests_cant": "all histories", "anchors": ["clubs/poker/engine.py:Dealer._eval_round", "clubs/poker/engine.py:Dealer._payouts"]}
{"id": "C37", "title": "Nobody loses more than they put in", "statement": "When a hand ends, every payout is at least minus the amount the player put in, so final stacks are non-negative if the stacks during the hand were.", "quantifier": "all hands", "why_tests_cant": "all histories", "anchors": ["clubs/poker/engine.py:Dealer._payouts", "clubs/poker/engine.py:Dealer._eval_round"]}
{"id": "C38", "title": "Stepping a finished hand is harmless", "statement": "After a hand has ended, further step calls change nothing and return the same payouts and done flags again.", "quantifier": "all finished hands, all bets", "why_tests_cant": "all histories", "anchors": ["clubs/poker/engine.py:Dealer.step", "clubs/poker/engine.py:Dealer._payouts"]}
{"id": "C39", "title": "A hand ends only by fold or showdown", "statement": "A hand ends only when at most one player is left or all streets have been played.", "quantifier": "all histories", "why_tests_cant": "all histories", "anchors": ["clubs/poker/engine.py:Dealer._done", "clubs/poker/engine.py:Dealer.step"]}
{"id": "C40", "title": "API misuse raises the documented errors", "statement": "step before the first reset raises TableResetError; reset without reset_stacks raises TooFewActivePlayersError exactly when fewer than two players have chips.", "quantifier": "all configurations, all states, all bets", "why_tests_cant": "all states", "anchors": ["clubs/poker/engine.py:Dealer.step", "clubs/poker/engine.py:Dealer.reset"]}
{"id": "C41", "title": "Reset", "statement": "reset moves the button one seat (or to seat 0), makes exactly the players with chips active (everyone with reset_stacks), deals num_hole_cards to every seat, collects antes and blinds from active players only, clears the hand history, and gives the turn to an active player; the new pot plus all stacks equals the stacks before (or num_players*start_stack).", "quantifier": "all states (also mid-hand), configurations, shuffles", "why_tests_cant": "all states", "anchors": ["clubs/poker/engine.py:Dealer.reset", "clubs/poker/engine.py:Dealer._collect_multiple_bets"]}
{"id": "C42", "title": "Blind positions", "statement": "Blinds and antes are charged clockwise starting from the button when there are two seats and from the first active player left of the button otherwise; a seat without chips is skipped without shifting the others.", "quantifier": "all configurations, buttons and active patterns", "why_tests_cant": "all seat patterns", "anchors": ["clubs/poker/engine.py:Dealer.reset", "clubs/poker/engine.py:Dealer._collect_multiple_bets"]}
{"id": "C43", "title": "Observations hide the other players' cards", "statement": "While the hand is in progress, the observation returned by reset or step does not depend on the other players' hole cards or on the undealt cards.", "quantifier": "all pairs of states differing only in hidden cards", "why_tests_cant": "a two-run (hyper-)property", "anchors": ["clubs/poker/engine.py:Dealer._observation"]}
{"id": "C44", "title": "Text rendering hides the other players' cards", "statement": "While the hand is in progress the ASCII table does not depend on the hole cards of players other than the one to act; at the end it does not depend on the hole cards of folded players.", "quantifier": "all pairs of render configurations", "why_tests_cant": "a two-run property", "anchors": ["clubs/render/ascii_viewer.py:ASCIIViewer._parse_players", "clubs/render/ascii_viewer.py:ASCIIViewer._parse_string"]}
{"id": "C45", "title": "Win probabilities", "statement": "win_probabilities, when it returns, gives non-negative numbers summing to one, zero for every folded player (when someone is in the hand), proportional to the number of completions of the board on which the player's hand is among the best.", "quantifier": "all states of a hand", "why_tests_cant": "all boards", "anchors": ["clubs/poker/engine.py:Dealer.win_probabilities"]}
{"id": "C46", "title": "History accounts for every chip", "statement": "During a hand each player's total commitment equals their forced bets plus the sum of their bets recorded in the history; the history grows by exactly one entry per step, naming the player whose turn it was.", "quantifier": "all bet sequences", "why_tests_cant": "all histories", "anchors": ["clubs/poker/engine.py:Dealer.step", "clubs/poker/engine.py:Dealer.history"]}
{"id": "C47", "title": "The recorded fold flag is truthful", "statement": "The fold flag of the history entry (also used by the renderers) is true exactly when the step folded the player.", "quantifier": "all states and bets", "why_tests_cant": "all states and bets", "anchors": ["clubs/poker/engine.py:Dealer.step", "clubs/render/ascii_viewer.py:_parse_action_string"]}
{"id": "C48", "title": "Chips are conserved over a whole session", "statement": "Over any number of hands, each played to its end and reset without reset_stacks, the total number of chips on the table never changes.", "quantifier": "all sessions", "why_tests_cant": "unbounded sessions", "anchors": ["clubs/poker/engine.py:Dealer.reset", "clubs/poker/engine.py:Dealer.step"]}
{"id": "C49", "title": "Observations are snapshots", "statement": "An observation already returned is not changed by later calls to step or reset.", "quantifier": "all histories and all earlier observations", "why_tests_cant": "aliasing over all histories", "anchors": ["clubs/poker/engine.py:Dealer._observation", "clubs/poker/engine.py:Dealer._collect_bet", "clubs/poker/engine.py:Dealer.step"]}
{"id": "C50", "title": "Every player has one place at the ASCII table", "statement": "For 2 to 10 players the ASCII table shows every player exactly once, in a slot of their own, with the players in clockwise order; rendering a table never fails.", "quantifier": "all player counts and render configurations", "why_tests_cant": "all configurations", "anchors": ["clubs/render/ascii_viewer.py:ASCIIViewer.POS_DICT", "clubs/render/ascii_viewer.py:ASCIIViewer._parse_string", "clubs/render/ascii_table.txt"]}
{"id": "C51", "title": "JSON view is faithful", "statement": "The configuration sent to the browser equals the render configuration with every card replaced by its string, in the same nesting and order.", "quantifier": "all render configurations", "why_tests_cant": "arbitrary nested lists", "anchors": ["clubs/render/graphic.py:_convert_hands", "clubs/render/graphic.py:_jsonify"]}
{"id": "C52", "title": "Seats lie on the table edge", "statement": "The seat positions computed for the graphical table lie on the boundary of the rounded rectangle for every fraction of the perimeter, and depend on the fraction only modulo one.", "quantifier": "all rectangles with width >= height > 0 and all real fractions", "why_tests_cant": "continuous input", "anchors": ["clubs/render/graphic.py:_RoundedRectangle.edge"]}
{"id": "C53", "title": "The table drawn after a hand shows its result", "statement": "When a hand is over, the text table shows next to every player the payout which the last step returned for them, and names below the table exactly the players who won and how much.", "quantifier": "all histories that end a hand, all further renderings", "why_tests_cant": "all histories and all ways a hand can end", "anchors": ["clubs/poker/engine.py:Dealer._render_config", "clubs/render/ascii_viewer.py:ASCIIViewer._parse_string", "clubs/render/ascii_viewer.py:_parse_win_string"]}
{"id": "C54", "title": "Observations belong to the caller", "statement": "Changing the lists of an observation already returned changes nothing in the dealer: the stacks, the players in the hand, the bets and the cards of the game stay what they were.", "quantifier": "all histories, all observations returned, all element assignments to their lists", "why_tests_cant": "aliasing over all histories", "anchors": ["clubs/poker/engine.py:Dealer._observation", "clubs/poker/engine.py:Dealer.step", "clubs/poker/engine.py:Dealer.reset"]}
{"id": "C55", "title": "Nothing is left on the table between hands", "statement": "Whenever no hand is in progress the pot is empty and all chips are in the stacks. The step that ends a hand reports every player as done, and its observation shows nobody to act, nothing to call, no possible raise, an empty pot and the stacks including the winnings.", "quantifier": "all histories of calls, all bets that end a hand", "why_tests_cant": "all histories", "anchors": ["clubs/poker/engine.py:Dealer.step", "clubs/poker/engine.py:Dealer.reset"]}
{"id": "C56", "title": "Numbers are written in decimal", "statement": "Chip counts and seat numbers on the text table are decimal numerals: most significant digit first, no leading zeros, a minus sign exactly for negative numbers. In the pot, the stacks and the bets every three digits from the right are separated by a comma and there is no other comma. Different numbers are never written alike.", "quantifier": "all integers, of any size and sign", "why_tests_cant": "infinitely many integers; grouping must be right at every length", "anchors": ["clubs/render/ascii_viewer.py:ASCIIViewer.render", "clubs/render/ascii_viewer.py:ASCIIViewer._parse_action_string", "clubs/render/ascii_viewer.py:ASCIIViewer._parse_win_string"]}
{"id": "C57", "title": "Rendering shows the table in the way asked for and changes nothing", "statement": "At every moment of a session render(mode) with mode 'ascii' prints the text table and with mode 'human' sends the table to the browsers; any other mode raises InvalidRenderModeError, missing packages raise MissingImportsError and a server that does not start raises RenderInitializationError. What is shown describes the game at that moment: it agrees with the observation, and the last move, the all-in marks and the payouts are those of the game. Rendering, successful or not, never changes the course of the game.", "quantifier": "all sessions mixing calls of reset, step and render, all modes, all environments", "why_tests_cant": "all sessions; the viewer is kept between calls, so a call can depend on every earlier one", "anchors": ["clubs/poker/engine.py:Dealer.render", "clubs/poker/engine.py:Dealer._render_config", "clubs/poker/engine.py:Dealer.__str__", "clubs/render/graphic.py:GraphicViewer"]}
{"id": "C58", "title": "The drawing has a place for everything", "statement": "For every number of players, hole cards and board cards, the SVG image of the table contains for each player one box with a background, a chip count and one place for each hole card, one place for the bet with a dealer button, and one board with the pot, the deck and one place per board card, and no place for further players or cards. No two elements of the image have the same identifier. The box of a player is centred at the player's seat; the cards of a hand lie next to each other in their order, inside the box; the board is in the middle of the table with its cards next to each other beside the deck.", "quantifier": "all numbers of players, hole cards and board cards, all seat positions", "why_tests_cant": "all table sizes; an identifier clash (such as card 1-11 and 11-1) shows only at particular sizes", "anchors": ["clubs/render/graphic.py:_SVGPoker", "clubs/render/graphic.py:_SVGElement", "clubs/render/resources/static/images"]}
{"id": "C59", "title": "The browser shows the configuration it got last", "statement": "After a page received any sequence of configurations (including empty ones), it shows the last one: every player's stack and bet, the hole cards of the players who are in the hand and only the backs of the other cards, the board, the pot, the dealer button, and whose turn it is. Nothing of earlier configurations is left. This holds for the configurations a dealer hands to its viewer at every moment of its life.", "quantifier": "all table sizes, all sequences of configurations of that size", "why_tests_cant": "the page is updated in place, so what it shows could depend on every earlier message", "anchors": ["clubs/render/resources/static/parse_config.js", "clubs/render/graphic.py:_SVGPoker", "clubs/render/graphic.py:_jsonify"]}
{"id": "C60", "title": "All browsers catch up", "statement": "Whatever the order in which tables are rendered, browsers connect and leave, and messages are read, sent and handled: as soon as nothing is on its way any more, every open page shows the table rendered last. No page ever goes back to an older table. Messages on their way do arrive: after a number of further events that can be computed from what is on its way, in whatever order, nothing is on its way.", "quantifier": "all interleavings of rendering, the server's threads and any number of browsers", "why_tests_cant": "all schedules; a browser may connect between the reading and the sending of a table", "anchors": ["clubs/render/graphic.py:GraphicViewer._run_flask", "clubs/render/graphic.py:GraphicViewer.render", "clubs/render/resources/static/parse_config.js"]}
{"id": "C61", "title": "The text of an evaluator gives the share of every hand class", "statement": "The text of an evaluator lists the hand classes from the best to the worst, each with the share of the hands of the deck that are in this class.", "quantifier": "all decks with 1-4 suits and 1-13 ranks, hand sizes 1-5, orders", "why_tests_cant": "the shares come from counting formulas that must agree with the number of hands for every deck", "anchors": ["clubs/poker/evaluator.py:Evaluator.__init__", "clubs/poker/evaluator.py:Evaluator.__str__"]}
{"id": "C62", "title": "speed_test evaluates as many hands as asked", "statement": "speed_test(n) evaluates n hands, each with two hole cards and five community cards, and never fails for n other than 0.", "quantifier": "all evaluators, all n, all shuffles", "why_tests_cant": "the result is a time; what was evaluated is not visible, and depends on the shuffle and n", "anchors": ["clubs/poker/evaluator.py:Evaluator.speed_test"]}
{"id": "C63", "title": "The program in the README ends and prints rewards that sum to zero", "statement": "The README's program (deal a hand of six-player no-limit hold'em, then fold, call or raise by a random legal amount until all are done) never raises an error, ends after finitely many bets, and prints one reward per player; each reward is the change of that player's stack, and together they sum to zero.", "quantifier": "all shuffles, all random choices; also any other way to choose bets and any ordinary configuration", "why_tests_cant": "the program is random: a run shows one hand, the claim is about all decks and all sequences of choices", "anchors": ["README.md", "clubs/poker/engine.py:Dealer.reset", "clubs/poker/engine.py:Dealer.step", "clubs/configs.py:NO_LIMIT_HOLDEM_SIX_PLAYER"]}
{"id": "C64", "title": "example.py shows and plays a hand to its end", "statement": "example.py deals a hand of nine-player no-limit hold'em, draws the table in the browser after every bet and prints rewards that sum to zero; drawing does not influence the game; if the browser view cannot be opened it says so with its own error.", "quantifier": "all shuffles, all random choices, all environments (packages missing, server not starting)", "why_tests_cant": "the program is random and needs a browser; the claim is about all decks and choices", "anchors": ["example.py:main", "clubs/poker/engine.py:Dealer.render"]}
{"id": "C65", "title": "The array dealer keeps all chips", "statement": "With the dealer of engine_numpy.py no chips appear or disappear: stacks plus pot stay the same with every bet; the payouts at the end of a hand sum to zero, nobody loses more than they put in, stacks change by the payouts and do not become negative.", "quantifier": "all ordinary configurations, histories of resets and bets, decks, ties", "why_tests_cant": "the payouts depend on cards, on who is all in for how much and on ties in any combination", "anchors": ["engine_numpy.py:Dealer.step", "engine_numpy.py:Dealer._payouts", "engine_numpy.py:Dealer._eval_round"]}
{"id": "C66", "title": "The array dealer pays side pots to the best eligible hands", "statement": "At a showdown of the array dealer every side pot is shared equally by the best hands among those who paid for it; folded players get nothing.", "quantifier": "all showdowns", "why_tests_cant": "side pots nest to any depth, with ties between any of them", "anchors": ["engine_numpy.py:Dealer._eval_round", "engine_numpy.py:Dealer._payouts"]}
{"id": "C67", "title": "The array dealer gives the odd chips to the first winner after the button", "statement": "The chips that cannot be shared equally go to the winner sitting first clockwise after the button.", "quantifier": "all showdowns of all hands of a session", "why_tests_cant": "it depends on where the button is after any number of hands", "anchors": ["engine_numpy.py:Dealer._eval_round", "engine_numpy.py:Dealer.reset"]}
{"id": "C68", "title": "The array dealer and the list dealer play the same game", "statement": "The dealer on arrays and the dealer on lists, given the same table, deck, bets and options, reach the same table and return the same observations, payouts and flags.", "quantifier": "all configurations, states and bets", "why_tests_cant": "the two programs differ in how they deal out pots, when they end a hand, how they round bets and how they count the button", "anchors": ["engine_numpy.py:Dealer", "clubs/poker/engine.py:Dealer"]}
{"id": "C69", "title": "Every hand of the array dealer ends", "statement": "A hand at the array dealer is over exactly when one player is left or the last street is done; it is over after finitely many bets, and no step with a number raises an error.", "quantifier": "all configurations, states, sequences of bets", "why_tests_cant": "there is no bound on stacks and raises; the claim is about all sequences of bets", "anchors": ["engine_numpy.py:Dealer.step", "engine_numpy.py:Dealer._done"]}
{"id": "C70", "title": "Win probabilities of the array dealer", "statement": "The win probabilities of the array dealer are the shares of wins over all ways to complete the board if there are fewer than 1000 of them, and over the given number of random boards otherwise; folded players have none, the shares sum to one, and below 1000 boards they are those of the list dealer.", "quantifier": "all configurations, states, random samples", "why_tests_cant": "the claim is about all boards and all samples", "anchors": ["engine_numpy.py:Dealer.win_probabilities"]}
{"id": "C71", "title": "Button, blinds and turns of the array dealer", "statement": "At the array dealer the button moves on by one seat with every hand; antes and blinds are posted clockwise from it; the turn passes to the next player in the hand and starts after the button on every street; the button shown to the players is a seat number.", "quantifier": "all configurations and histories", "why_tests_cant": "the button is a counter over a whole session and the seats that are skipped depend on who has folded", "anchors": ["engine_numpy.py:Dealer.reset", "engine_numpy.py:Dealer._move_action", "engine_numpy.py:Dealer._collect_multiple_bets"]}
{"id": "C72", "title": "Steps after the end of a hand at the array dealer", "statement": "Once a hand is over, further calls of step on the array dealer change nothing and return the same observation, payouts and done flags as the step that ended the hand.", "quantifier": "all configurations, histories, and sequences of further bets", "why_tests_cant": "the payouts are computed again from a pot that is now empty; whether they come out the same depends on how the hand ended and on what everybody put in", "anchors": ["engine_numpy.py:Dealer.step", "engine_numpy.py:Dealer._payouts", "engine_numpy.py:Dealer._eval_round"]}
{"id": "C73", "title": "Printing the array dealer", "statement": "str() of the array dealer always gives the text of the table, in every state a session can reach, and the text is the same as that of the dealer on lists.", "quantifier": "all configurations and histories", "why_tests_cant": "the places on the table are looked up with the button, a counter over the whole session, and the payouts are computed for every drawing", "anchors": ["engine_numpy.py:Dealer.__str__", "engine_numpy.py:Dealer._render_config", "clubs/render/ascii_viewer.py:ASCIIViewer._parse_string"]}
{"id": "C74", "title": "Numbers of the array dealer stay within the chips on the table", "statement": "No element of the arrays of the array dealer (stacks, chips put in, chips put in on this street, payouts) nor the pot exceeds in size the chips on the table, so that arrays of 32-bit integers do not overflow with fewer than 2^31 chips.", "quantifier": "all configurations, histories and bets", "why_tests_cant": "a bound for all bets and histories; tests play with few chips and would never meet an overflow", "anchors": ["engine_numpy.py:Dealer.__init__", "engine_numpy.py:Dealer.step", "engine_numpy.py:Dealer._collect_bet", "engine_numpy.py:Dealer._payouts"]}
{"id": "C75", "title": "No card is dealt twice by the array dealer", "statement": "At any time table, hands and deck of the array dealer hold every card of the deck exactly once; during a hand nobody's cards change, the board only grows, by the cards configured for each street (as long as the deck lasts), and all of it comes from the shuffled (or tricked) deck in a fixed order.", "quantifier": "all configurations with amounts that are not negative, shuffles, histories of resets, steps, tricks with distinct cards and assignments of stacks; no reset that fails in the middle of a hand", "why_tests_cant": "a repeated card depends on shuffle and history; tests see a few deals", "anchors": ["engine_numpy.py:Dealer.reset", "engine_numpy.py:Dealer.step", "clubs/poker/card.py:Deck.draw"]}
{"id": "C76", "title": "At the array dealer every hand without debts can be played to its end", "statement": "If nobody's forced bets exceed the stack, every step of the array dealer with a number as bet returns, every hand is over after a bounded number of bets, and a program like that of the README, with any way to choose bets, prints rewards that are the changes of the stacks and sum to zero; it never raises an error.", "quantifier": "all configurations with amounts that are not negative and a usable evaluator (in particular all shipped ones), all shuffles, bets and programs; all histories in which stacks are assigned between hands only, to amounts that are not negative, and the deck is tricked with distinct cards", "why_tests_cant": "errors at a showdown depend on ties, folds and odd chips: no finite set of hands covers them", "anchors": ["engine_numpy.py:Dealer.reset", "engine_numpy.py:Dealer.step", "engine_numpy.py:Dealer._payouts", "engine_numpy.py:Dealer._eval_hands", "README.md", "clubs/configs.py"]}
{"id": "C77", "title": "Win probabilities as floats", "statement": "Each float that win_probabilities returns is the double precision number nearest to the exact share of wins (ties to even), at both dealers. The floats are between 0 and 1, a player who never wins has exactly 0, one who alone always wins exactly 1, more wins never give a smaller float, and the exact sum of the floats is within n * 2^-54 of one. If every player holds a card of the deck, no two different shares round to the same float, and 0 and 1 are given to nobody else.", "quantifier": "all configurations, states of a hand, random samples", "why_tests_cant": "floats are rounded; a claim about every quotient needs the rounding rule, and there are too many hands", "anchors": ["clubs/poker/engine.py:Dealer.win_probabilities", "engine_numpy.py:Dealer.win_probabilities"]}
{"id": "C78", "title": "The percentages in the text of an evaluator are correctly rounded", "statement": "str(evaluator) shows every hand class with a percentage of four decimals. Although it is computed by a rounded float division, a rounded float multiplication and a rounded conversion to decimals, no number with four decimals is nearer to the exact percentage.", "quantifier": "all decks with 1-4 suits and 1-13 ranks, all hand sizes, all orders of the classes", "why_tests_cant": "three roundings follow each other; the test-suite compares one text", "anchors": ["clubs/poker/evaluator.py:Evaluator.__init__", "clubs/poker/evaluator.py:Evaluator.__str__"]}
{"id": "C79", "title": "Observations of the array dealer are snapshots", "statement": "An observation already returned by the array dealer is not changed by later calls to step or reset.", "quantifier": "all histories and all earlier observations", "why_tests_cant": "aliasing over all histories: the arrays are changed in place, the lists of cards are shared", "anchors": ["engine_numpy.py:Dealer._observation", "engine_numpy.py:Dealer.step", "engine_numpy.py:Dealer.reset"]}
{"id": "C80", "title": "Observations of the array dealer belong to the caller", "statement": "A program that writes into the lists of observations the array dealer has returned, at any time and in any order with its calls, plays the same game and gets the same answers as the program that only makes the calls.", "quantifier": "all programs: sequences of calls and element assignments to the lists of any earlier observation", "why_tests_cant": "aliasing over all interleavings of calls and assignments", "anchors": ["engine_numpy.py:Dealer._observation", "engine_numpy.py:Dealer.step", "engine_numpy.py:Dealer.reset"]}
{"id": "C81", "title": "Operators of cards", "statement": "The operators of cards mean what code that combines cards needs: & and | between cards and integers give the bitwise result in either order, the suit bits of 0xF000 & c1 & ... & cn are non-zero exactly when all cards have the same suit, the bits of (c1 | ... | cn) >> 16 are exactly the ranks that occur, and the products of c & 0xFF of two lists of cards are equal exactly when the lists hold the same ranks equally often.  == between two cards is true exactly when rank and suit agree; comparing a card with anything else (also through != , in, count, index and Deck.trick) raises NotImplementedError, and cards are not hashable.", "quantifier": "all cards, all non-empty lists of cards of any length, all operands", "why_tests_cant": "the number of lists of cards is unbounded and the operators are combined in either order", "anchors": ["clubs/poker/card.py:Card.__and__", "clubs/poker/card.py:Card.__rand__", "clubs/poker/card.py:Card.__or__", "clubs/poker/card.py:Card.__ror__", "clubs/poker/card.py:Card.__lshift__", "clubs/poker/card.py:Card.__rshift__", "clubs/poker/card.py:Card.__eq__", "clubs/poker/card.py:Deck.trick"]}
{"id": "C82", "title": "The value of a chip does not matter", "statement": "If every amount of chips given to the dealer (blinds, antes, fixed raise sizes, stacks, bets of whole chips) is multiplied by the same positive number, then every amount it returns (stacks, pot, commitments, call, min_raise, max_raise, payouts, history) is multiplied by that number and everything else (turns, streets, cards, folds, done flags, errors) is the same, over any number of hands, as long as no showdown leaves an odd chip.", "quantifier": "all factors, all configurations, all sequences of resets, bets of whole chips, tricks and assignments of stacks", "why_tests_cant": "relates two runs of unbounded length for every factor and every sequence of bets", "anchors": ["clubs/poker/engine.py:Dealer.__init__", "clubs/poker/engine.py:Dealer.reset", "clubs/poker/engine.py:Dealer.step", "clubs/poker/engine.py:Dealer._bet_sizes", "clubs/poker/engine.py:Dealer._clean_bet", "clubs/poker/engine.py:Dealer._eval_round"]}
{"id": "C83", "title": "The numbers of the seats do not matter", "statement": "If all players, with their stacks, cards and commitments, and the button and the turn move on by the same number of seats, then the same bets lead to the same table with everybody moved on by that number of seats, and to the same observations, payouts and done flags; likewise a reset that moves the button, if the moved players are dealt the same hands (for every order of the deck there is such an order), and the winning probabilities. Excepted are showdowns with odd chips, with folded chips nobody has covered, or with ties of unequal commitments under better hands, where the dealer goes by the numbers of the seats.", "quantifier": "all configurations, all reachable tables, all numbers of seats moved, all sequences of bets", "why_tests_cant": "relates two runs of unbounded length for every rotation of every table", "anchors": ["clubs/poker/engine.py:Dealer.reset", "clubs/poker/engine.py:Dealer.step", "clubs/poker/engine.py:Dealer._move_action", "clubs/poker/engine.py:Dealer._collect_multiple_bets", "clubs/poker/engine.py:Dealer._all_agreed", "clubs/poker/engine.py:Dealer._eval_round", "clubs/poker/engine.py:Dealer.win_probabilities"]}
{"id": "C84", "title": "A better hand never pays less", "statement": "If the same players bet the same chips at two tables and everybody but one player shows the same cards on the same board, and that player shows a hand at least as good at the second table, then that player is paid at least as much there and nobody else is paid more. The cards of players who have folded make no difference at all.", "quantifier": "all configurations, all pairs of reachable tables which differ only in cards, all sequences of bets, all hands", "why_tests_cant": "compares the showdowns of all pairs of hands with all side pots for any number of players", "anchors": ["clubs/poker/engine.py:Dealer.step", "clubs/poker/engine.py:Dealer._eval_round", "clubs/poker/engine.py:Dealer._payouts"]}
{"id": "C85", "title": "Texts tell objects apart", "statement": "The text of a card (its rank and the glyph of its suit) differs for different cards and is the same for equal ones, though it is not accepted by Card again; the text of a deck lists the texts of the remaining cards in drawing order and so determines them; the representations of cards, decks, evaluators, dealers and drawing elements determine the object's id and its text (for dealers the numbers of players and streets); _bin_str is the number of the card in binary.", "quantifier": "all cards, all decks of such cards, all ids, all configurations", "why_tests_cant": "injectivity over unboundedly many decks and ids", "anchors": ["clubs/poker/card.py:Card.__str__", "clubs/poker/card.py:Card.__repr__", "clubs/poker/card.py:Deck.__str__", "clubs/poker/card.py:Deck.__repr__", "clubs/poker/evaluator.py:Evaluator.__repr__", "clubs/poker/engine.py:Dealer.__repr__", "clubs/render/graphic.py:_SVGElement.__repr__"]}
{"id": "C86", "title": "speed_test returns the mean time of an evaluation", "statement": "Evaluator.speed_test(n) returns the sum of the times of the n evaluations divided by n; with a clock that does not run backwards it is not negative and n times it is at most the time of the whole test. n = 0 raises a ZeroDivisionError. The script speed_test.py prints this mean for 100000 evaluations and its inverse, and fails only if the clock shows no time at all for the evaluations.", "quantifier": "all clocks, all shuffles, all evaluators, all counts", "why_tests_cant": "the claim is about every clock and every number of evaluations", "anchors": ["clubs/poker/evaluator.py:Evaluator.speed_test", "speed_test.py:main"]}
{"id": "C87", "title": "Nobody wins more from another player than they put in themselves", "statement": "When a hand ends, the chips a player takes from the table (payout plus own stake) are at most the sum over all players of the smaller of their stake and the player's own stake; only the odd chips of side pots that cannot be divided may come on top, for one player.", "quantifier": "all configurations, histories and bets that end a hand, at both dealers", "why_tests_cant": "the claim is about every combination of stakes, folds and ties; the two counterexamples need three levels of stakes with a tie", "anchors": ["clubs/poker/engine.py:Dealer._eval_round", "engine_numpy.py:Dealer._eval_round"]}
{"id": "C88", "title": "The array dealer hides the other players' cards", "statement": "At the array dealer, as long as a hand is in progress, the observations, payouts and done flags returned by reset and step do not depend on the hole cards of other players or on the order of the deck: two tables that differ only in these give the same replies to the player to act.", "quantifier": "all configurations, all tables, all pairs of deals, all sequences of bets", "why_tests_cant": "non-interference compares pairs of runs for all hidden cards", "anchors": ["engine_numpy.py:Dealer.step", "engine_numpy.py:Dealer.reset", "engine_numpy.py:Dealer._observation"]}
{"id": "C89", "title": "At the array dealer a better hand never pays less", "statement": "At two tables of the array dealer with the same bets, where everybody but one player shows the same cards and this player shows a hand at least as good at the second, this player is paid at least as much at the second table and nobody else is paid more (side pots that can be divided). The cards of players who have folded make no difference at all.", "quantifier": "all configurations, histories and pairs of deals", "why_tests_cant": "monotonicity compares pairs of showdowns with any stakes and ties", "anchors": ["engine_numpy.py:Dealer._eval_round", "engine_numpy.py:Dealer._payouts"]}
{"id": "C90", "title": "The value of a chip does not matter at the array dealer", "statement": "If every amount of chips given to the array dealer (blinds, antes, fixed raise sizes, stacks, bets of whole chips) is multiplied by the same positive number, then every amount it returns or keeps is multiplied by that number and everything else (turns, streets, cards, folds, done flags, errors) is the same, over any number of hands, as long as no showdown leaves an odd chip.", "quantifier": "all factors, all configurations, all sequences of resets, bets of whole chips, tricks and assignments of stacks", "why_tests_cant": "relates two runs of unbounded length for every factor and every sequence of bets", "anchors": ["engine_numpy.py:Dealer.reset", "engine_numpy.py:Dealer.step", "engine_numpy.py:Dealer._clean_bet", "engine_numpy.py:Dealer._collect_multiple_bets", "engine_numpy.py:Dealer._eval_round"]}
{"id": "C91", "title": "At the array dealer only the order of the seats matters, not their numbers", "statement": "If all players of a table of the array dealer move the same number of seats on, with their cards, chips and the button, then every bet has the same effect on the moved players: turns, streets, folds, payouts, done flags and stacks move with them, odd chips included, as long as the counter of the button is below the number of players. A new hand with the same cards for the same players and the winning probabilities move with them too.", "quantifier": "all configurations, tables, bets, sequences of bets, numbers of seats to move on, deals and samples", "why_tests_cant": "relates two runs for every rotation of every table and every sequence of bets", "anchors": ["engine_numpy.py:Dealer.reset", "engine_numpy.py:Dealer.step", "engine_numpy.py:Dealer._eval_round", "engine_numpy.py:Dealer._move_action", "engine_numpy.py:Dealer.win_probabilities"]}
{"id": "C92", "title": "The server process behind a graphic viewer ends with the viewer", "statement": "While the server process of an opened GraphicViewer lives, render never raises. Closing the viewer ends the process whatever was rendered and whatever the server did before, dying included; it may be closed again any number of times and sends nothing to browsers afterwards; other viewers are not touched. A dealer that could open a viewer starts no second server. When opening fails, a process is left behind exactly if it was still starting up when the time to connect was over, and an interrupted close can be repeated exactly until the server has read its message. The last configuration rendered before a close is shown if the server gets the time to read it.", "quantifier": "all schedules of the server processes, all programs of renders, closes and interruptions, all points at which a server dies, all numbers of failed openings", "why_tests_cant": "schedules, crash points and histories of processes are unbounded", "anchors": ["clubs/render/graphic.py:GraphicViewer.__init__", "clubs/render/graphic.py:GraphicViewer.close", "clubs/render/graphic.py:GraphicViewer.__del__", "clubs/render/graphic.py:GraphicViewer.render", "clubs/render/graphic.py:GraphicViewer._run_flask", "clubs/poker/engine.py:Dealer.render"]}
{"id": "C93", "title": "At the array dealer bets are read against the observed limits", "statement": "The observed call, min_raise and max_raise of the player to act at the array dealer lie between 0 and the stack; the call is what is missing to the largest commitment of the street or the stack; raises obey the fixed size, the pot limit and the largest raise of the hand. The number taken for a bet is decided by these limits alone: the nearest of 0, call and the raise interval. The player folds exactly when there is something to call and the bet is negative or at most half the call. The observed call and every raise inside the interval are taken as they are. No more full raises are made on a street than configured.", "quantifier": "all configurations, histories of hands, bets and sequences of bets", "why_tests_cant": "ranges over every reachable table, every number bet and every sequence of bets", "anchors": ["engine_numpy.py:Dealer.step", "engine_numpy.py:Dealer._bet_sizes", "engine_numpy.py:Dealer._clean_bet", "engine_numpy.py:Dealer._collect_bet"]}
{"id": "C94", "title": "The history of the array dealer accounts for the hand", "statement": "Every bet the array dealer takes adds one entry at the end of the history: the seat to act, the number of chips taken and whether the bet was negative; no other call adds one, and a new hand starts with an empty history. At any point of a hand the commitments of a player are the blinds and antes plus the entries of that player.", "quantifier": "all configurations, deals, sequences of bets of a hand and players", "why_tests_cant": "an invariant over all sequences of bets of any length", "anchors": ["engine_numpy.py:Dealer.step", "engine_numpy.py:Dealer.reset", "engine_numpy.py:Dealer._collect_bet"]}
{"id": "C95", "title": "The course of a hand at the array dealer", "statement": "At the array dealer a street ends only when every player still in the hand has acted on it and either matched the largest amount put in on it or is all in. Streets only move forward; community cards already on the board stay and the new ones are the next cards of the deck; the board always holds exactly the cards configured for the streets reached. A player who folded stays out and puts nothing more in. A bet touches only the commitments, the stack and the hand of the player who makes it. When only one player is left the hand ends, that player gets the whole pot and every other one loses exactly what they put in.", "quantifier": "all configurations, histories of hands, sequences of bets and players", "why_tests_cant": "an invariant over all sequences of bets of any length at every table", "anchors": ["engine_numpy.py:Dealer.step", "engine_numpy.py:Dealer._all_agreed", "engine_numpy.py:Dealer._move_action", "engine_numpy.py:Dealer._payouts"]}
{"id": "C96", "title": "Every order of the deck and every deal is equally likely", "statement": "If the random numbers drawn by shuffle are fair, every order of the cards of the deck is equally likely after shuffle; in a tricked deck the named cards stay on top and every order of the others is equally likely. Hence whatever community cards and hole cards are named, as many draws deal them as any others, and every player is as likely to be dealt any hand as any other player and any other hand; at both dealers, in every hand of a session.", "quantifier": "all decks, orders, configurations, states of a session, seats and hands of cards", "why_tests_cant": "a deck of 52 cards has more than 10^67 orders; frequencies in samples cannot show that none is missing or favoured", "anchors": ["clubs/poker/card.py:Deck.shuffle", "clubs/poker/card.py:Deck.trick", "clubs/poker/engine.py:Dealer.reset", "engine_numpy.py:Dealer.reset"]}
{"id": "C97", "title": "Over one round of the table everybody posts the same", "statement": "In as many successive hands as there are seats every seat has the button exactly once, and every player who can post in all of them is exactly once in every position: the player posts the ante and the blind of each position once, and so the same total as everybody else; whatever is bet in between, at both dealers.", "quantifier": "all configurations, sessions, hands, bets, and changes of the stacks between hands", "why_tests_cant": "a statement about whole sessions of any length at tables of any size", "anchors": ["clubs/poker/engine.py:Dealer.reset", "clubs/poker/engine.py:Dealer._collect_multiple_bets", "clubs/poker/engine.py:Dealer._move_action", "engine_numpy.py:Dealer.reset"]}
{"id": "C98", "title": "A player without chips stays out", "statement": "A player who has no chips and no part in the current hand has none later and is not dealt in again, whatever the others bet and however many hands follow, until the caller sets the stacks or resets them; at both dealers.", "quantifier": "all configurations, seats, sessions of any length, bets and decks", "why_tests_cant": "it needs every later hand of every session, and every way in which the chips of a showdown can be divided", "anchors": ["clubs/poker/engine.py:Dealer.step", "clubs/poker/engine.py:Dealer.reset", "clubs/poker/engine.py:Dealer._eval_round", "engine_numpy.py:Dealer._eval_round"]}
{"id": "C99", "title": "No seat is favoured by the deal", "statement": "For any two seats and any question about the first community cards, the hole cards of all seats and the cards still to come: as many shuffles give yes as give yes when the two seats have exchanged their hole cards. In particular every seat holds the best hand of all equally often; at both dealers.", "quantifier": "all configurations with enough cards, states of a session, pairs of seats, questions about the deal, and rankings of hands", "why_tests_cant": "it counts over all orders of the deck, for every table size and every question", "anchors": ["clubs/poker/card.py:Deck.shuffle", "clubs/poker/card.py:Deck.draw", "clubs/poker/engine.py:Dealer.reset", "engine_numpy.py:Dealer.reset"]}
{"id": "C100", "title": "The names of the suits and the order of the cards in a hand do not matter at the table", "statement": "Take two tables with the same chips, bets and turns whose cards correspond: the second has the same cards with the suits renamed, hands and table possibly in another order. Then the same bets get the same answers at both to the end of the hand: the same payouts, the same exceptions, and observations that differ in those cards only. Shuffles that put corresponding cards in corresponding places lead to such tables; at both dealers.", "quantifier": "all configurations, reachable states, renamings of the suits, orders of the hands and of the table, and sequences of bets", "why_tests_cant": "it compares every hand with every renamed and reordered copy of it, for every order of the deck", "anchors": ["clubs/poker/engine.py:Dealer.step", "clubs/poker/engine.py:Dealer.reset", "clubs/poker/evaluator.py:Evaluator.evaluate", "engine_numpy.py:Dealer.step", "engine_numpy.py:Dealer.reset"]}
{"id": "C101", "title": "A new hand depends on the past only through the stacks, the button and the tricked cards", "statement": "Take two sessions at one table after which the deck is tricked in the same way. A reset with the same shuffle answers the same after both and leaves the same table, if the stacks are the same or are given out anew and the button is the same or goes back. So a table that was never tricked and is reset with reset_button and reset_stacks is like a new one, whatever was played before; at both dealers.", "quantifier": "all configurations, pairs of sequences of operations (resets, steps, tricks, new stacks, also ones that raise), shuffles and flags", "why_tests_cant": "a leftover of an earlier hand may show only after a particular history; it compares every pair of histories", "anchors": ["clubs/poker/engine.py:Dealer.reset", "clubs/poker/engine.py:Dealer.step", "clubs/poker/card.py:Deck.shuffle", "engine_numpy.py:Dealer.reset"]}
{"id": "C102", "title": "A hand that is at least as good, with at least as many chips in, does not win less", "statement": "At a showdown take two players in the hand: if the first shows a hand that is at least as good and has put in at least as many chips, then the first gets at least as many chips out of the pot as the second, apart from the chips that cannot be divided; there are at most n(n-1)/2 of these at a table of n. In particular equal hands with equal bets are paid alike; at both dealers.", "quantifier": "all configurations, reachable showdowns, pairs of players, hands and amounts", "why_tests_cant": "it must hold for every combination of ties, all-in amounts and folded chips", "anchors": ["clubs/poker/engine.py:Dealer.step", "clubs/poker/engine.py:Dealer._eval_round", "engine_numpy.py:Dealer._eval_round"]}
{"id": "C103", "title": "Win probabilities do not depend on the order of the deck, the order of cards in a hand or the names of suits", "statement": "Take two tables with the same players in the hand whose hands, board and remaining deck hold the same cards, each in any order and with the suits renamed throughout. If win_probabilities gives numbers at one table, it gives the same numbers at the other. So the numbers tell nothing about which cards come next. At the array dealer the same holds, where its random boards, if it draws any, are the same cards up to order and suit names.", "quantifier": "all configurations, all reachable tables, all second tables with corresponding cards, all renamings of suits, all orders of the deck, all drawn boards", "why_tests_cant": "it compares the result over every order of the rest of the deck; a test looks at a few shuffles", "anchors": ["clubs/poker/engine.py:Dealer.win_probabilities", "clubs/poker/evaluator.py:Evaluator.evaluate", "engine_numpy.py:Dealer.win_probabilities"]}
{"id": "C104", "title": "A better hand has the better chances", "statement": "If on every completion of the board the hand of one player in the hand is at least as good as that of another, win_probabilities gives them at least as much. A player who is beaten on every completion gets 0. A player who beats everybody else in the hand on every completion, or is the only one left, gets 1 and everybody else 0. The same holds at the array dealer, over the boards it may look at.", "quantifier": "all configurations, all reachable tables with dealt cards, all pairs of seats, all completions of the board, all drawn boards", "why_tests_cant": "it ranges over all tables and all completions; a test compares a few hands on a few boards", "anchors": ["clubs/poker/engine.py:Dealer.win_probabilities", "engine_numpy.py:Dealer.win_probabilities"]}
{"id": "C105", "title": "What a bet does depends only on how it is read", "statement": "Any two negative bets do the same: same reply, same table after. So do any two bets that round to at least the call, the min_raise and the max_raise seen. A float that rounds to a whole number of the same sign does what that number does; at both dealers.", "quantifier": "all tables (for negative bets at the array dealer: all fairly reached ones), all ints and finite floats as bets", "why_tests_cant": "it compares every pair of such bets at every table; tests fold with -1 and go all in with one number", "anchors": ["clubs/poker/engine.py:Dealer.step", "clubs/poker/engine.py:Dealer._clean_bet", "engine_numpy.py:Dealer.step", "engine_numpy.py:Dealer._clean_bet"]}
