{
 "claims": [
  {
   "property": "C01",
   "status": "proved",
   "theorems": [
    "C01_sliding_attacks_exact"
   ],
   "note": "Every occupancy bitboard, every square, both colours; the slider code (magic/pext-free rook lines, unpacked bishop lines) is modelled as it is."
  },
  {
   "property": "C02",
   "status": "proved",
   "theorems": [
    "C02_step_attacks_exact",
    "C02_attacks_on_board"
   ],
   "note": "Plus: attack sets have no bits outside the 81 squares."
  },
  {
   "property": "C03",
   "status": "proved",
   "theorems": [
    "C03_attackers_exact",
    "C03_attackers_both_exact"
   ],
   "note": "attackersTo on every reachable board, every assumed occupancy."
  },
  {
   "property": "C04",
   "status": "proved",
   "theorems": [
    "C04_views_consistent",
    "C04_views_after_setup"
   ],
   "note": "For every board set up from a proper position and every history of legal moves, take-backs, passes and pass take-backs. is_ok is not part of this theorem."
  },
  {
   "property": "C05",
   "status": "proved",
   "theorems": [
    "C05_pop_push",
    "C05_pops_pushes",
    "C05_history_exact"
   ],
   "note": "pop after push, n pops after n pushes, and any interleaving without two passes in a row, give back the identical board object."
  },
  {
   "property": "C06",
   "status": "proved",
   "theorems": [
    "C06_hash_from_scratch",
    "C06_transpositions"
   ],
   "note": "For all random tables as initZobrist builds them."
  },
  {
   "property": "C07",
   "status": "proved",
   "theorems": [
    "C07_predicted_keys"
   ],
   "note": "Book key and position key."
  },
  {
   "property": "C08",
   "status": "proved",
   "theorems": [
    "C08_check_status",
    "C08_check_after_push"
   ],
   "note": "is_check, checkers and the gives-check prediction."
  },
  {
   "property": "C09",
   "status": "proved",
   "theorems": [
    "C09_moves_sound"
   ],
   "note": "For every reachable board with both kings standing and no pawn of the mover on its last rank (the generator shifts pawns without looking); a well-formed start guarantees this for whole games."
  },
  {
   "property": "C10",
   "status": "proved",
   "theorems": [
    "C10_moves_complete",
    "C10_moves_after_history"
   ],
   "note": "Same hypotheses as C09; C10_moves_after_history needs only a well-formed start."
  },
  {
   "property": "C11",
   "status": "proved",
   "theorems": [
    "C11_pawn_drop_mate"
   ],
   "note": "Reply means a move legal under all rules."
  },
  {
   "property": "C12",
   "status": "partial",
   "theorems": [
    "C12_is_legal_partial",
    "C12_listed_moves_are_legal",
    "C12_every_integer_refuted"
   ],
   "note": "Proved for every move whose shape fits the rules (drop of a hand piece on a rank it can leave; promotion flag allowed by piece and zone) and in the direction legal_moves => is_legal for all integers. The converse for arbitrary integers is false of the code: C12_every_integer_refuted exhibits 7g7f+ in the initial position, which is_legal accepts."
  },
  {
   "property": "C13",
   "status": "partial",
   "theorems": [
    "C13_usi_partial",
    "C13_csa_partial",
    "C13_usi_decides",
    "C13_csa_decides",
    "C13_usi_memory_partial",
    "C13_csa_memory_partial",
    "C13_memory_refuted",
    "C13_usi_refuted",
    "C13_csa_refuted"
   ],
   "note": "Accepted texts denote the returned move and pass is_legal; they are legal whenever the move has the form the rules want, and texts of such moves are answered exactly. Out-of-bounds reads are confined to texts of length 0 or 2 and texts beginning with K/k (USI) and are exactly the king drops (CSA). The unrestricted claim is false of the code: C13_memory_refuted, C13_usi_refuted (7g7f+), C13_csa_refuted (0055TO)."
  },
  {
   "property": "C14",
   "status": "proved",
   "theorems": [
    "C14_pieces_conserved"
   ],
   "note": "Histories include passes and take-backs; hand counters are those of C04."
  },
  {
   "property": "C15",
   "status": "proved",
   "theorems": [
    "C15_sfen_written",
    "C15_sfen_round_trip",
    "C15_sfen_distinct"
   ],
   "note": "printed text denotes the position in an independent description of the notation; round trip and injectivity; move numbers within int"
  },
  {
   "property": "C16",
   "status": "partial",
   "theorems": [
    "C16_denoted",
    "C16_accepted_partial",
    "C16_memory_partial",
    "C16_memory_refuted",
    "C16_consistent_refuted",
    "C16_pieces_refuted"
   ],
   "note": "every text of the notation for a proper position is accepted; any accepted text with at most 8 slashes and a proper result is consistent; memory safe on texts described by plus_ok/hand_field_ok; the full claim is refuted by concrete texts"
  },
  {
   "property": "C17",
   "status": "proved",
   "theorems": [
    "C17_hcp_round_trip",
    "C17_hcp_distinct"
   ],
   "note": "Both kings on the board; pieces may be missing. The hash comes back for every random table."
  },
  {
   "property": "C18",
   "status": "proved",
   "theorems": [
    "C18_hcp_size",
    "C18_hcp_overflow",
    "C18_hcp_size_refuted"
   ],
   "note": "For the positions of the quantifier (one king per side). A reachable position without one of the kings makes to_hcp write past its buffer: C18_hcp_overflow, C18_hcp_size_refuted."
  },
  {
   "property": "C19",
   "status": "proved",
   "theorems": [
    "C19_psfen_round_trip",
    "C19_psfen_distinct",
    "C19_psfen_size",
    "C19_psfen_overflow"
   ],
   "note": "As C17 and C18."
  },
  {
   "property": "C20",
   "status": "partial",
   "theorems": [
    "C20_hcp_accepted_partial",
    "C20_psfen_accepted_partial",
    "C20_memory_refuted",
    "C20_consistent_refuted",
    "C20_pieces_refuted"
   ],
   "note": "Accepted data gives a consistent position if the result shows both kings, keeps to the piece set and overran no hand counter. The code does not check this and the claim for all 32 bytes is false: C20_memory_refuted, C20_consistent_refuted, C20_pieces_refuted."
  },
  {
   "property": "C21",
   "status": "proved",
   "theorems": [
    "C21_usi_round_trip",
    "C21_usi_distinct"
   ],
   "note": "Printed text, read back, and distinctness, for every legal move of every reachable playable position."
  },
  {
   "property": "C22",
   "status": "proved",
   "theorems": [
    "C22_csa_round_trip",
    "C22_csa_distinct"
   ],
   "note": "As C21 for CSA."
  },
  {
   "property": "C23",
   "status": "proved",
   "theorems": [
    "C23_move16",
    "C23_psv",
    "C23_psv_layout"
   ],
   "note": "Legal moves of every reachable board; all 32768 PSV codes without the drop-flag clash, plus the layout of the PSV form."
  },
  {
   "property": "C24",
   "status": "proved",
   "theorems": [
    "C24_rotate_involution",
    "C24_rotate_fields",
    "C24_rotate_legal",
    "C24_rules_are_symmetric"
   ],
   "note": "Involution and fields for all 32-bit codes with a destination on the board; legality between any two reachable boards that are each other's half-turn."
  },
  {
   "property": "C25",
   "status": "partial",
   "theorems": [
    "C25_text_partial",
    "C25_twice_partial",
    "C25_set_partial",
    "C25_board_partial",
    "C25_ten_refuted"
   ],
   "note": "Proved for every SFEN text of the notation in which no side holds ten or more of one kind (leading zeros and explicit 1s included); with ten pawns the claim is false of the code, proved by C25_ten_refuted."
  },
  {
   "property": "C26",
   "status": "proved",
   "theorems": [
    "C26_label_range",
    "C26_label_unique"
   ],
   "note": "Range for every code and colour argument; uniqueness with the side to move as colour."
  },
  {
   "property": "C27",
   "status": "proved",
   "theorems": [
    "C27_is_draw",
    "C27_one_answer",
    "C27_never_missed"
   ],
   "note": "Exact against DrawSpec.v for every history without two passes in a row, under the hypothesis that no two different positions compared share a hash; without that hypothesis a repetition is never missed."
  },
  {
   "property": "C28",
   "status": "partial",
   "theorems": [
    "C28_move_is_draw_partial",
    "C28_no_false_alarm",
    "C28_from_the_start_refuted",
    "C28_inferior_refuted"
   ],
   "note": "The two functions agree outside three cases; in two of them (repetition of the position the board was set up with, superior/inferior positions) they differ, shown by the _refuted theorems. move_is_draw never announces a repetition is_draw does not find."
  },
  {
   "property": "C29",
   "status": "partial",
   "theorems": [
    "C29_pass_undone_partial",
    "C29_pass_undone_any_partial",
    "C29_two_passes_refuted"
   ],
   "note": "push_pass/pop_pass restore every observable of the board from any reachable history (C29_pass_undone_any_partial), and the whole internal state when the pass does not directly follow a pass (C29_pass_undone_partial). Missing: after two passes in a row the consecutive-check counters are lost, which is_draw can show (C29_two_passes_refuted)."
  },
  {
   "property": "C30",
   "status": "proved",
   "theorems": [
    "C30_declaration"
   ],
   "note": "Both directions, for every board reachable by legal play and passes (LAW_24 not defined)."
  },
  {
   "property": "C31",
   "status": "proved",
   "theorems": [
    "C31_values",
    "C31_copy"
   ],
   "note": "Refinement: boards with explicit pointers (startState_, history entries, previous, st_) and relinkStateInfo behave as independent values under every sequence of create/set/turn/push/pop/push_pass/pop_pass/copy/delete calls that is defined on values."
  },
  {
   "property": "C32",
   "status": "proved",
   "theorems": [
    "C32_read",
    "C32_equal",
    "C32_add_one",
    "C32_remove_one",
    "C32_superior",
    "C32_other_than_pawn"
   ],
   "note": ""
  },
  {
   "property": "C33",
   "status": "proved",
   "theorems": [
    "C33_board_move",
    "C33_drop_move"
   ],
   "note": ""
  },
  {
   "property": "C34",
   "status": "proved",
   "theorems": [
    "C34_population_count",
    "C34_lowest_bit",
    "C34_bishop_attacks"
   ],
   "note": "Population count, lowest bit, bishop attack code."
  },
  {
   "property": "C35",
   "status": "proved",
   "theorems": [
    "C35_text",
    "C35_read"
   ],
   "note": "csa_pos of every reachable board, read back by the CSA reader."
  },
  {
   "property": "C36",
   "status": "partial",
   "theorems": [
    "C36_placed_partial",
    "C36_center_partial",
    "C36_elsewhere_refuted"
   ],
   "note": "Refuted: file and rank of a 'P+' item are exchanged, so the piece is put on file 10-y, rank x (C36_elsewhere_refuted, for every square but 55). Proved: where the pieces really go (C36_placed_partial) and that 55 is right. Missing: lines before the rank lines; those cells are uninitialised (C45)."
  },
  {
   "property": "C37",
   "status": "partial",
   "theorems": [
    "C37_mate_move_partial",
    "C37_is_mate_partial",
    "C37_mate_move_fresh_partial",
    "C37_is_mate_fresh_partial",
    "C37_mate_move_rule_partial",
    "C37_is_mate_rule_partial",
    "C37_search_ends",
    "C37_moves_legal",
    "C37_every_defence_refuted"
   ],
   "note": "Proved for every reachable board with both kings and for every ply the API admits: the move returned is legal and checks, and the opponent cannot avoid mate within the remaining plies. Missing: defences that refuse a promotion are not examined by the code (generateMoves<Evasion>) and are left out of the claim (held_back), and C37_every_defence_refuted shows a board where is_mate(4) is true although such a defence escapes; a loss by the repetition rule counts as a mate, except in the theorems for boards just set up. Also proved: every search ends with an answer."
  },
  {
   "property": "C38",
   "status": "proved",
   "theorems": [
    "C38_piece_planes",
    "C38_piece_planes_rotate",
    "C38_features1",
    "C38_features2",
    "C38_features2_declaration",
    "C38_declaration_clamp_refuted",
    "C38_declaration_stale_refuted"
   ],
   "note": "piece_planes, piece_planes_rotate and both feature buffers are exact for every reachable board, including what the optional declaration planes hold. Two refutations show that those optional planes are not cleared and are not clamped at zero."
  },
  {
   "property": "C39",
   "status": "proved",
   "theorems": [
    "C39_set_pieces_restores"
   ],
   "note": ""
  },
  {
   "property": "C40",
   "status": "proved",
   "theorems": [
    "C40_game_over"
   ],
   "note": "Same hypotheses as C09."
  },
  {
   "property": "C41",
   "status": "proved",
   "theorems": [
    "C41_well_formed_play",
    "C41_initial_position"
   ],
   "note": "From any well-formed set-up position, in particular the initial position."
  },
  {
   "property": "C42",
   "status": "proved",
   "theorems": [
    "C42_words",
    "C42_sfen_moves",
    "C42_sfen",
    "C42_startpos_moves",
    "C42_startpos",
    "C42_other",
    "C42_initial",
    "C42_legal_moves",
    "C42_illegal_move",
    "C42_replay",
    "C42_memory_refuted"
   ],
   "note": "Every text, through its words; on texts of the notation with legal moves also the resulting position, and the text of a game gives back the same board object. The memory refutation is the C12/C13 finding seen through set_position: the gold promotion accepted there."
  },
  {
   "property": "C43",
   "status": "proved",
   "theorems": [
    "C43_record",
    "C43_illegal_refuted",
    "C43_crlf_refuted"
   ],
   "note": "Every combination of header, position, move, time, score, comment and end lines. Rating lines and floodgate summary lines are modelled but not part of the record described. Illegal moves are recorded as 0 (C43_illegal_refuted), CRLF lines are rejected (C43_crlf_refuted)."
  },
  {
   "property": "C44",
   "status": "proved",
   "theorems": [
    "C44_matches"
   ],
   "note": "parse_str, given the results for the single texts."
  },
  {
   "property": "C45",
   "status": "partial",
   "theorems": [
    "C45_undefined_refuted"
   ],
   "note": "Refuted by five witnesses (C45_undefined_refuted). That the records of C43 are read without undefined behaviour is C43_record. Missing: the exact set of texts that are safe."
  },
  {
   "property": "C46",
   "status": "proved",
   "theorems": [
    "C46_set_pieces",
    "C46_reachable",
    "C46_play",
    "C46_well_formed_refuted"
   ],
   "note": "Exact meaning of the answer; that is_ok does not imply well-formedness is C46_well_formed_refuted."
  },
  {
   "property": "C47",
   "status": "proved",
   "theorems": [
    "C47_hcp_bytes",
    "C47_psfen_bytes",
    "C47_hcp_read",
    "C47_psfen_read"
   ],
   "note": "Both formats, writing and reading, against an independent description of the bit strings (PackSpec.v)."
  },
  {
   "property": "C48",
   "status": "proved",
   "theorems": [
    "C48_returned_move_mates",
    "C48_code_refuted",
    "C48_push_refuted"
   ],
   "note": "All four parts of the search (beside the king, distant line checks, double checks, uncovered checks) proved sound for every reachable position with both kings and no unmovable pawn of the mover, mover not in check. The stronger wish that the integer is always in legal_moves is refuted (C48_code_refuted), and pushing that integer turns the promoted piece into a gold (C48_push_refuted)."
  },
  {
   "property": "C49",
   "status": "proved",
   "theorems": [
    "C49_pseudo_list",
    "C49_filter",
    "C49_outside_check",
    "C49_in_check_refuted"
   ],
   "note": "Proved for every reachable position with both kings. In check, is_pseudo_legal is stricter than the list for moves of the king (C49_in_check_refuted)."
  },
  {
   "property": "C50",
   "status": "proved",
   "theorems": [
    "C50_game",
    "C50_games",
    "C50_sfen_refuted",
    "C50_quoted_refuted",
    "C50_comma_refuted"
   ],
   "note": "Proved for every legal game told with single-line texts; the three ways to lose data are refuted by witnesses (C50_sfen_refuted, C50_quoted_refuted, C50_comma_refuted)."
  },
  {
   "property": "C51",
   "status": "partial",
   "theorems": [
    "C51_drop",
    "C51_move_partial",
    "C51_near",
    "C51_game_partial",
    "C51_confused_refuted",
    "C51_straight_refuted",
    "C51_line_refuted"
   ],
   "note": "Proved for drops (C51_drop) and for clear moves (C51_move_partial, C51_game_partial): no other piece of the kind reaches the square, or one other does and none can be dropped there. Without that the round trip is false (C51_confused_refuted: another move is read; C51_straight_refuted: an exception). Positions with three or more candidates that are read back are not covered."
  },
  {
   "property": "C52",
   "status": "partial",
   "theorems": [
    "C52_text",
    "C52_names_partial",
    "C52_knight_refuted",
    "C52_distinct",
    "C52_movetext",
    "C52_game_distinct",
    "C52_lines",
    "C52_width_refuted",
    "C52_no_moves_refuted"
   ],
   "note": "Texts, words and distinctness are proved in full. Lines are proved to be at most 81 characters long (C52_lines); 80 is false (C52_width_refuted). The usual name of a promoted knight is not written (C52_knight_refuted; C52_names_partial covers all other moves), and a game without moves is written without its result (C52_no_moves_refuted)."
  },
  {
   "property": "C53",
   "status": "partial",
   "theorems": [
    "C53_move",
    "C53_game",
    "C53_end_partial",
    "C53_handicap_refuted",
    "C53_jishogi_refuted",
    "C53_illegal_refuted",
    "C53_declared_refuted",
    "C53_origin_refuted"
   ],
   "note": "Moves, times and boards are proved in full. The end of a game is read as meant for resignation, repetition and a loss by an illegal move when Black moves first (C53_end_partial). For the rest it is false: C53_handicap_refuted, C53_jishogi_refuted, C53_illegal_refuted, C53_declared_refuted. C53_origin_refuted: a line with origin (05) makes the reader look outside the board."
  },
  {
   "property": "C54",
   "status": "partial",
   "theorems": [
    "C54_game_partial",
    "C54_end_partial",
    "C54_illegal_refuted",
    "C54_number_refuted"
   ],
   "note": "Proved for games of clear moves (the restriction of C51, without which a single move is not read back) and for every end but a win by the opponent's illegal action, whose sign is read wrongly (C54_illegal_refuted), on boards with a positive move number (C54_number_refuted). Comments are one line each; headers are not modelled."
  },
  {
   "property": "C55",
   "status": "partial",
   "theorems": [
    "C55_go",
    "C55_eof_refuted",
    "C55_score_partial",
    "C55_mate_refuted",
    "C55_pv_alone_refuted",
    "C55_position"
   ],
   "note": "Answers and the position command are proved in full (the latter for a non-empty list of moves). Scores are proved for info lines with a score in centipawns or a mate in a given number of moves; \"mate +\", \"mate -\" and lines with only a pv raise an exception (C55_mate_refuted, C55_pv_alone_refuted). EOFError is never raised: the loop does not end (C55_eof_refuted)."
  },
  {
   "property": "C56",
   "status": "partial",
   "theorems": [
    "C56_game_partial",
    "C56_count",
    "C56_start_refuted",
    "C56_declared_refuted"
   ],
   "note": "The count is proved in full. The verdict is proved for every game whose replies are move texts of the protocol, legal or not, \"resign\" or \"win\" (C56_game_partial), where \"win\" is believed, the first position is not among the counted ones, and positions are told apart by their hash. As stated the claim is false: the first position is not counted (C56_start_refuted) and declarations are not checked (C56_declared_refuted). A repetition by the last move allowed is a draw in the code, also after perpetual check: the rules of the theorem say so (repeated_late). Left out: mate_win, pondering and opening files."
  },
  {
   "property": "C57",
   "status": "partial",
   "theorems": [
    "C57_name",
    "C57_usi",
    "C57_ready",
    "C57_mate",
    "C57_go_command",
    "C57_eof_refuted"
   ],
   "note": "Proved for every sequence of lines that contains the answer. EOFError is never raised (C57_eof_refuted), and increments are not sent when a byoyomi is given (go_words in TalkSpec.v says so)."
  },
  {
   "property": "C58",
   "status": "partial",
   "theorems": [
    "C58_reports_partial",
    "C58_bound_refuted"
   ],
   "note": "Proved for every sequence of reports of the protocol (numbers with names, a score in centipawns or to mate, moves) and other lines. As stated the claim is false: a score marked as a bound just before the moves makes info raise IndexError (C58_bound_refuted)."
  },
  {
   "property": "C59",
   "status": "partial",
   "theorems": [
    "C59_step",
    "C59_goes_on",
    "C59_refused"
   ],
   "note": "Proved for every line of legal moves; positions are told apart by their hash, and the judgement of a repetition assumes that the hashes compared do not collide (no_collision). Refusal is proved for moves of the form is_legal expects (fits). Left out: render and ShogiVecEnv."
  }
 ]
}