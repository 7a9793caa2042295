{"id": "C01", "title": "Sliding attacks are exact", "statement": "For a lance, bishop, rook, horse or dragon standing on any square, the set of squares the library says it attacks is exactly the set reached by walking outwards along its directions up to and including the first occupied square.", "quantifier": "every square, every colour, every set of occupied squares (2^81 occupancies)", "why_tests_cant": "there are 2^81 occupancies; the code computes the set by 64-bit subtraction, byte reversal and cross-word masks, so a corner pattern can be wrong while sampled boards pass", "anchors": ["src/bitboard.hpp: lanceAttack, rookAttackFile, rookAttackRank, rookAttack, bishopAttack, horseAttack, dragonAttack, Bitboard256::byteReverse/unpack/decrement", "src/init.cpp: initLanceAttacks, initRookAttacks, initBishopAttacks", "src/position.cpp: Position::attacksFrom"]}
{"id": "C02", "title": "Step attacks never leave the board or wrap", "statement": "For a pawn, knight, silver, gold-moving piece or king on any square, the attack set is exactly the neighbouring squares of the shogi movement diagram that lie on the board; no attack wraps round a board edge.", "quantifier": "every piece kind, colour and square", "why_tests_cant": "tables are produced by code at start-up and a test only checks entries it lists", "anchors": ["src/init.cpp: initAttacks (king/gold/silver/knight/pawn)", "src/bitboard.hpp: pawnAttack, knightAttack, silverAttack, goldAttack, kingAttack"]}
{"id": "C03", "title": "Attackers of a square are exact", "statement": "The set of pieces of one side that attack a square, which is_check and legality checks are built on, contains exactly the pieces of that side that could capture on the square by the rules of movement.", "quantifier": "every consistent position, every square, either colour, every assumed occupancy", "why_tests_cant": "the code obtains it backwards (from the target square) with merged piece classes (silver+king+dragon, gold+king+horse); agreement with the forward rule is a statement over all positions", "anchors": ["src/position.cpp: Position::attackersTo, attackersToExceptKing", "src/position.hpp: attackersToIsAny, findCheckers, inCheck"]}
{"id": "C04", "title": "All views of the board stay consistent", "statement": "After any sequence of legal pushes, pops and passes, piece(sq), the pieces list, king_square, pieces_in_hand, the side to move and is_ok describe one and the same position: every internal index agrees with the piece array.", "quantifier": "every well-formed start position and every finite history of push / pop / pass", "why_tests_cant": "redundant indexes are updated incrementally with xor; an error needs the right history to become visible", "anchors": ["src/position.cpp: doMove, undoMove, doNullMove, isOK", "src/position.hpp: setPiece, xorBBs", "src/cshogi.h: __Board::push, pop, push_pass, pop_pass, pieces, piece"]}
{"id": "C05", "title": "pop exactly undoes push", "statement": "After board.push(m) of a legal move followed by board.pop(), every observable of the board (pieces, hands, turn, move number, hash, check status, repetition status, history) is what it was, and the popped value is m; likewise for any longer sequence of pushes followed by as many pops.", "quantifier": "every well-formed position, every legal move, every finite sequence of legal moves", "why_tests_cant": "the undo is hand-written xor code; only a proof covers every piece/capture/promotion/drop combination and every depth", "anchors": ["src/position.cpp: doMove, undoMove", "src/cshogi.h: __Board::push, pop, get_history"]}
{"id": "C06", "title": "The incremental Zobrist hash equals the hash computed from scratch", "statement": "zobrist_hash after any sequence of pushes and pops equals the hash that setting up the same position from scratch would give; hence two move orders that reach the same position give the same hash.", "quantifier": "every well-formed position, every history, every choice of the random tables", "why_tests_cant": "a test cannot enumerate histories; an update error can cancel out on common paths", "anchors": ["src/position.cpp: doMove, computeBoardKey, computeHandKey, initZobrist", "src/position.hpp: getKey, zobTurn"]}
{"id": "C07", "title": "Predicted keys match the keys after the move", "statement": "book_key_after(book_key(), m) equals book_key() after push(m), and the position's own predicted key (used by move_is_draw) equals zobrist_hash() after push(m).", "quantifier": "every consistent position, every legal move, every choice of random tables", "why_tests_cant": "two independent pieces of code must agree on all positions and moves", "anchors": ["src/book.cpp: Book::bookKey, bookKeyAfter", "src/position.cpp: getKeyAfter, getBoardKeyAfter"]}
{"id": "C08", "title": "Check status is maintained exactly by push", "statement": "After push of a legal move, is_check() is true exactly when the side to move has its king attacked by the rules, and the recorded checking pieces are exactly the attackers (direct, discovered and double checks).", "quantifier": "every well-formed position and every legal move", "why_tests_cant": "the code never recomputes attackers: it combines check tables, pins and line relations incrementally", "anchors": ["src/position.cpp: doMove, moveGivesCheck, CheckInfo", "src/position.hpp: hiddenCheckers, discoveredCheckBB, isDiscoveredCheck"]}
{"id": "C09", "title": "Every generated legal move is legal", "statement": "Each move yielded by board.legal_moves obeys the rules of shogi: own piece moves as it may, does not capture its own piece, promotion only in the zone and compulsory at a dead end, drops only on empty squares with a piece in hand, no two pawns on a file, no dead drop, own king not left attacked, no mate by pawn drop.", "quantifier": "every position with one king per side in which the side not to move is not in check", "why_tests_cant": "soundness over an astronomically large position space", "anchors": ["src/generateMoves.cpp: GenerateMoves<LegalAll>, <Evasion>, <NonEvasion>, generateDropMoves, GeneratePieceMoves", "src/position.cpp: pseudoLegalMoveIsLegal", "src/cshogi.h: __LegalMoveList"]}
{"id": "C10", "title": "Every legal move is generated, once", "statement": "Every move allowed by the rules appears in board.legal_moves (including non-promotions), and no move appears twice.", "quantifier": "every position with one king per side in which the side not to move is not in check", "why_tests_cant": "completeness over an astronomically large position space; the evasion generator prunes aggressively", "anchors": ["src/generateMoves.cpp: GenerateMoves<LegalAll>, makeBannedKingTo", "src/cshogi.h: __LegalMoveList"]}
{"id": "C11", "title": "Pawn-drop mate test is exact", "statement": "A pawn drop giving check is withheld from legal_moves exactly when it would be checkmate, i.e. the opponent would have no legal reply.", "quantifier": "every position with one king per side in which the side not to move is not in check, every pawn-drop check", "why_tests_cant": "requires reasoning about all replies in all positions; the code examines only captures by unpinned pieces and king steps", "anchors": ["src/position.cpp: isPawnDropCheckMate, canPieceCapture"]}
{"id": "C12", "title": "is_legal agrees with legal_moves", "statement": "board.is_legal(m) is true exactly for the moves contained in board.legal_moves.", "quantifier": "every position with one king per side in which the side not to move is not in check, every integer m", "why_tests_cant": "two separately written algorithms must agree for all 2^32 move codes in all positions", "anchors": ["src/position.cpp: moveIsPseudoLegal<false>, pseudoLegalMoveIsLegal<false,false>", "src/cshogi.h: __Board::moveIsLegal"]}
{"id": "C13", "title": "Move strings are only accepted for legal moves", "statement": "push_usi / move_from_usi / push_csa return 0 unless the string denotes a legal move of the position, and never read or write outside their objects.", "quantifier": "every position, every ASCII string", "why_tests_cant": "all strings, all positions", "anchors": ["src/usi.cpp: usiToMoveBody, csaToMoveBody"]}
{"id": "C14", "title": "Pieces are conserved by play", "statement": "No legal move creates or destroys a piece: for each unpromoted kind the number on the board (promoted or not) plus in both hands is the same after push; no hand counter overflows into another.", "quantifier": "every consistent position with at most the standard piece counts, every finite history of legal moves", "why_tests_cant": "counts are packed in bit fields; overflow shows only at extremes", "anchors": ["src/position.cpp: doMove", "src/hand.hpp: plusOne, minusOne"]}
{"id": "C15", "title": "SFEN round trip", "statement": "Board(sfen=b.sfen()) is the same position as b: same pieces, hands, side to move, move number and hash; so sfen() is injective on positions.", "quantifier": "every consistent position whose hand counts fit the standard set, every positive move number", "why_tests_cant": "unbounded set of positions; run-length coding and counts have many corner cases", "anchors": ["src/position.cpp: toSFEN, set(const std::string&)", "cshogi/_cshogi.pyx: Board.sfen, set_sfen"]}
{"id": "C16", "title": "SFEN input is safe for every string", "statement": "set_sfen on any string either produces a consistent position or reports an error; it never reads or writes outside the board's own arrays.", "quantifier": "every ASCII string", "why_tests_cant": "all strings", "anchors": ["src/position.cpp: set(const std::string&)", "src/position.hpp: setPiece, setHand, CharToPieceUSI"]}
{"id": "C17", "title": "HuffmanCodedPos round trip", "statement": "set_hcp(to_hcp(b)) gives back the same pieces, hands, side to move and hash.", "quantifier": "every consistent position with one king per side and no more than the standard number of each piece (handicap positions included)", "why_tests_cant": "prefix-code correctness and bit alignment over all positions", "anchors": ["src/position.cpp: toHuffmanCodedPos, set_hcp, HuffmanCodedPos tables", "src/position.hpp: BitStream, HuffmanCodeToPieceHash"]}
{"id": "C18", "title": "HuffmanCodedPos is always exactly 32 bytes", "statement": "to_hcp fills the 32-byte buffer exactly: 256 bits are written, neither fewer nor more, and never outside the buffer.", "quantifier": "every consistent position with one king per side and at most the standard number of each piece", "why_tests_cant": "the sum of code lengths over all distributions of pieces; one unlucky combination writes out of bounds", "anchors": ["src/position.cpp: toHuffmanCodedPos", "src/position.hpp: BitStream::putBits"]}
{"id": "C19", "title": "PackedSfen round trip and size", "statement": "set_psfen(to_psfen(b)) gives back the same pieces, hands and side to move, and exactly 256 bits are written.", "quantifier": "every consistent position with one king per side and at most the standard number of each piece", "why_tests_cant": "as for HuffmanCodedPos", "anchors": ["src/position.cpp: toPackedSfen, set_psfen, PackedSfen tables"]}
{"id": "C20", "title": "Corrupt packed positions are rejected safely", "statement": "set_hcp / set_psfen on any 32 bytes either produce a consistent position or report an error, without reading or writing out of bounds.", "quantifier": "every 256-bit string", "why_tests_cant": "2^256 inputs", "anchors": ["src/position.cpp: set_hcp, set_psfen", "src/position.hpp: BitStream::getBit, setPiece"]}
{"id": "C21", "title": "USI move text round trip", "statement": "For each legal move m, move_from_usi(move_to_usi(m)) = m; distinct legal moves have distinct USI text.", "quantifier": "every position with one king per side in which the side not to move is not in check, every legal move", "why_tests_cant": "all positions and moves; text omits piece kind and captured piece, which must be recovered", "anchors": ["src/move.cpp: Move::toUSI", "src/usi.cpp: usiToMoveBody"]}
{"id": "C22", "title": "CSA move text round trip", "statement": "For each legal move m, move_from_csa(move_to_csa(m)) = m.", "quantifier": "every position with one king per side in which the side not to move is not in check, every legal move", "why_tests_cant": "all positions and moves; promotion is only implicit in the piece name", "anchors": ["src/move.cpp: Move::toCSA", "src/usi.cpp: csaToMoveBody"]}
{"id": "C23", "title": "16-bit moves lose nothing", "statement": "For each legal move m of a position, move_from_move16(move16(m)) = m; and move16_from_psv(move16_to_psv(x)) = x, move_from_psv(move16_to_psv(move16(m))) = m.", "quantifier": "every position, every legal move; every 16-bit code of a board move or drop", "why_tests_cant": "all codes and positions", "anchors": ["src/move.hpp: move16toMove", "src/cshogi.h: __move16, __move16_from_psv, __move16_to_psv, move_from_move16, move_from_psv"]}
{"id": "C24", "title": "Rotating a move is a symmetry", "statement": "move_rotate is its own inverse, keeps drop/promotion/piece/captured fields, and m is legal in b exactly when move_rotate(m) is legal in the 180-degree rotated, colour-swapped position.", "quantifier": "every valid move code, every position", "why_tests_cant": "all moves and positions", "anchors": ["src/cshogi.h: __move_rotate"]}
{"id": "C25", "title": "rotate_sfen rotates the position", "statement": "Setting up rotate_sfen(s) gives the position of s turned by 180 degrees with colours exchanged, and rotate_sfen(rotate_sfen(s)) denotes the same position as s.", "quantifier": "every SFEN string produced by sfen()", "why_tests_cant": "all positions, in particular every hand composition", "anchors": ["src/cshogi.h: __rotate_sfen"]}
{"id": "C26", "title": "Move labels are in range and unambiguous", "statement": "dlshogi.make_move_label gives a number in 0..2186 (27*81 labels), and two different legal moves of one position never get the same label unless they differ only in nothing a player can choose (i.e. never).", "quantifier": "every position, every pair of legal moves, either colour", "why_tests_cant": "pairs of moves in all positions; sliding moves share direction labels", "anchors": ["src/cshogi.h: __dlshogi_make_move_label, get_move_direction"]}
{"id": "C27", "title": "Repetition is detected and classified correctly", "statement": "is_draw reports, for the nearest earlier position (an even number >= 4 of plies back, no pass in between, within the given limit) with the same board and side to move: a draw / win / loss when hands are equal, according to whether one side's moves since then were all checks, and superior / inferior by comparing hands; it never misses a true repetition.", "quantifier": "every history of legal moves from any start position, every limit", "why_tests_cant": "history-dependent; continuous-check counters and hash comparisons only go wrong on particular histories", "anchors": ["src/position.cpp: isDraw, doMove (continuousCheck)", "src/hand.hpp: isEqualOrSuperior"]}
{"id": "C28", "title": "move_is_draw predicts is_draw", "statement": "move_is_draw(m) returns what is_draw() returns after push(m).", "quantifier": "every history, every legal move", "why_tests_cant": "two algorithms over histories", "anchors": ["src/position.cpp: moveIsDraw, isDraw"]}
{"id": "C29", "title": "A pass can be taken back", "statement": "push_pass when not in check changes only the side to move (and hash accordingly); pop_pass restores every observable.", "quantifier": "every reachable position, every history", "why_tests_cant": "state is modified in place, only a proof shows every field is restored", "anchors": ["src/position.cpp: doNullMove", "src/cshogi.h: push_pass, pop_pass"]}
{"id": "C30", "title": "Entering-king declaration follows the 27-point rule", "statement": "is_nyugyoku() is true exactly when: the side to move is not in check, its king is in the far three ranks, at least 10 of its other pieces are there, and its points (5 per rook/bishop/promoted, 1 per other, in the zone or in hand, king excluded) reach 28 for Black or 27 for White.", "quantifier": "every consistent position", "why_tests_cant": "counting over all positions", "anchors": ["src/search.cpp: nyugyoku", "src/bitboard.hpp: inFrontMask, popCount"]}
{"id": "C31", "title": "A copied board is independent and equal", "statement": "Board.copy() has the same observables including repetition history, keeps them whatever is done to the original afterwards, and operations on the copy never change the original.", "quantifier": "every history on the original, every later interleaving of operations on both", "why_tests_cant": "aliasing bugs depend on histories and interleavings", "anchors": ["src/cshogi.h: __Board copy constructor, operator=, relinkStateInfo", "src/position.cpp: Position::operator="]}
{"id": "C32", "title": "Hand counters are faithful", "statement": "Packed hands behave as seven independent counters: reading after adding or removing one piece, setting all seven, equality and the 'equal or superior' comparison agree with per-kind counting.", "quantifier": "every vector of counts within the field widths", "why_tests_cant": "all combinations of counters; the comparison uses a single subtraction with borrow bits", "anchors": ["src/hand.hpp", "src/hand.cpp"]}
{"id": "C33", "title": "Move codes keep their fields apart", "statement": "A move built by board.move / drop_move reads back the same destination, source, promotion flag, piece kind and captured kind, through all move_* functions.", "quantifier": "every combination of field values", "why_tests_cant": "all combinations", "anchors": ["src/move.hpp", "src/cshogi.h: __move_to, __move_from, __move_cap, __move_is_promotion, __move_is_drop, __move_from_piece_type, __move_drop_hand_piece"]}
{"id": "C34", "title": "Bit primitives agree across builds", "statement": "The portable and the SIMD/intrinsic builds give the same results: lowest set bit, population count and the byte-reversal/borrow steps of the slider code.", "quantifier": "every 64-bit word, every pair of bitboards", "why_tests_cant": "2^64 inputs; CI builds one variant", "anchors": ["src/common.hpp: firstOneFromLSB, count1s", "src/bitboard.hpp: Bitboard, Bitboard256"]}
{"id": "C35", "title": "Printed CSA position is read back", "statement": "The CSA parser applied to csa_pos() yields an SFEN denoting the same pieces, hands and side to move.", "quantifier": "every consistent position with hands within the standard set", "why_tests_cant": "all positions", "anchors": ["src/position.cpp: toCSAPos, printHand", "src/parser.h: parse_position, to_sfen"]}
{"id": "C36", "title": "CSA piece-placement lines are read at the square they name", "statement": "A CSA line 'P+xyKK' puts piece KK on file x, rank y of the position the parser reports.", "quantifier": "every file, rank, colour and piece kind", "why_tests_cant": "all squares", "anchors": ["src/parser.h: parse_position"]}
{"id": "C37", "title": "Mate search answers are true", "statement": "When mate_move(n) returns a move or is_mate(n) is true, the side giving mate can force mate within n plies against every defence.", "quantifier": "every position, every n", "why_tests_cant": "universally quantified over all defences", "anchors": ["src/mate.cpp: mateMoveInOddPlyReturnMove, mateMoveInOddPly, mateMoveInEvenPly, mateMoveIn3Ply"]}
{"id": "C38", "title": "Piece planes and features encode the position", "statement": "piece_planes sets element [colour*14+kind-1][sq] to one exactly for the pieces on the board and nothing else; piece_planes_rotate does so for the board seen from the side to move.", "quantifier": "every consistent position", "why_tests_cant": "all positions", "anchors": ["src/cshogi.h: piece_planes, piece_planes_rotate, _dlshogi_make_input_features"]}
{"id": "C39", "title": "set_pieces restores what pieces and pieces_in_hand report", "statement": "set_pieces(b.pieces, b.pieces_in_hand) leaves pieces, hands, turn, move number, hash and check status unchanged.", "quantifier": "every consistent position", "why_tests_cant": "all positions", "anchors": ["src/position.cpp: set(const Piece[], const int[][7])", "src/cshogi.h: set_pieces, pieces, pieces_in_hand"]}
{"id": "C40", "title": "Game over means no legal move", "statement": "is_game_over() is true exactly when the rules allow no move.", "quantifier": "every position with one king per side in which the side not to move is not in check", "why_tests_cant": "needs completeness of generation", "anchors": ["src/cshogi.h: is_game_over", "src/generateMoves.cpp"]}
{"id": "C41", "title": "Legal play preserves well-formedness", "statement": "From the initial position, every position reached by legal moves has one king per side, the side not to move is not in check, no pawn/lance/knight without a further move, no two unpromoted pawns of a side on one file.", "quantifier": "every finite history of legal moves", "why_tests_cant": "inductive invariant over histories", "anchors": ["src/position.cpp: doMove", "src/generateMoves.cpp"]}
{"id": "C42", "title": "set_position replays the moves it is given", "statement": "set_position('sfen S moves m1 .. mk') gives the board obtained by set_sfen(S) followed by push_usi of m1..mk, and rejects the text if some mi is not accepted.", "quantifier": "every position text", "why_tests_cant": "all strings and histories", "anchors": ["src/cshogi.h: __Board::set_position"]}
{"id": "C43", "title": "A CSA game record is read as the game it describes", "statement": "Parser.parse_csa_str on a record of a legal game in CSA notation (version, names, information, comments, a position block, moves with times, scores and comments, an end line) reports exactly that position, those moves (the integers push_csa would record), the last time, score and comment of every move, all comments in order, the end word and the winner.", "quantifier": "every well-formed starting position, every way to write it as rank lines, hand lines or PI with removals, every legal sequence of moves of any length, every choice of header, time, score, comment and end lines", "why_tests_cant": "records have unbounded length and the lines may be combined in any way; every combination must leave the vectors aligned with the moves", "anchors": ["src/parser.h: __Parser::parse_csa, parse_position, to_sfen", "src/usi.cpp: csaToMove", "cshogi/_cshogi.pyx: Parser.parse_csa_str"]}
{"id": "C44", "title": "Several CSA records in one text are read one by one", "statement": "Parser.parse_str on texts joined by a line that holds only '/' returns, in order, one result for every text, equal to what parse_csa_str gives for it alone.", "quantifier": "every non-empty list of texts no line of which is '/' alone", "why_tests_cant": "the number and content of the texts is unbounded; the separator must never be found inside a text or be missed", "anchors": ["cshogi/_cshogi.pyx: Parser.parse_str", "src/parser.h: parse_csa"]}
{"id": "C45", "title": "The CSA reader is memory safe on every text", "statement": "Parser.parse_csa_str on any text either returns or raises an exception; it never reads or writes outside its vectors and arrays and never uses a value that was not set.", "quantifier": "every text", "why_tests_cant": "undefined behaviour need not show in a test run", "anchors": ["src/parser.h: parse_csa, parse_position, to_sfen, StringToPieceCSA"]}
{"id": "C46", "title": "is_ok answers whether the position is sound", "statement": "is_ok() is true exactly when there is a king, no side has two, the side to move cannot take the other king, and its own king is attacked by at most two pieces; after a legal move in play it is always true (if a king stands on the board).", "quantifier": "every board filled by set_pieces with any pieces, and every board reached from a proper position by moves, passes and take-backs", "why_tests_cant": "all positions; the answer also compares the incrementally kept hash, hands and bitboards with recomputed ones, so it must hold after every history", "anchors": ["src/position.cpp: isOK", "cshogi/_cshogi.pyx: Board.is_ok"]}
{"id": "C47", "title": "HCP and PackedSfen bytes follow the published formats", "statement": "to_hcp and to_psfen write, for every position, exactly the bit string the published description of the format gives (side, king squares, Huffman words of the squares, hands and missing pieces), so other programs can read it; and bytes of that form written by another program are read as the position they describe.", "quantifier": "every reachable position with both kings", "why_tests_cant": "all positions; a round trip test cannot see a table that is wrong in the same way for writing and reading", "anchors": ["src/position.cpp: toHuffmanCodedPos, toPackedSfen, set_hcp, set_psfen, HuffmanCodedPos, PackedSfen"]}
{"id": "C48", "title": "The one-move mate search finds real mates", "statement": "When mate_move_in_1ply returns a move in a position where the side to move is not in check, the move it names is a legal move of the rules, it gives check and the opponent has no legal reply. The returned integer is one of legal_moves, except when the piece that moves is a promoted pawn, lance, knight or silver: then it may be the code of a gold's move, which is not in legal_moves and does not play the move when pushed (a defect of the code, shown by witnesses).", "quantifier": "every reachable position with both kings, every move the search can return", "why_tests_cant": "the search never plays the move: it predicts pins, uncovered lines and escape squares from tables; a mistake shows only in rare geometries", "anchors": ["src/position.cpp: Position::mateMoveIn1Ply, canKingEscape, canPieceCapture, can_king_escape_cangoto, can_piece_capture, attacksAroundKingNonSlider, pinnedPieces", "src/cshogi.h: __Board::mateMoveIn1Ply", "cshogi/_cshogi.pyx: Board.mate_move_in_1ply"]}
{"id": "C49", "title": "Pseudo-legal moves and their filter", "statement": "Every entry of pseudo_legal_moves moves or drops a piece of the side to move as the rules let it, no entry is listed twice, and every legal move is listed. An entry is legal exactly when pseudo_legal_move_is_legal says so, so the filtered list is legal_moves up to the order. For a side not in check the list is exactly the moves of the pieces and the drops, a mating pawn drop excepted, and is_pseudo_legal accepts the same moves; in check is_pseudo_legal can reject an entry (shown by a witness).", "quantifier": "every reachable position with both kings and no unmovable pawn of the mover, every move", "why_tests_cant": "the list and the two tests use different tables and pin computations; they must agree for every arrangement of pins, checks and hands", "anchors": ["src/cshogi.h: __PseudoLegalMoveList, __Board::moveIsPseudoLegal, __Board::pseudoLegalMoveIsLegal", "src/generateMoves.cpp: generateMoves<PseudoLegal>", "src/position.cpp: Position::moveIsPseudoLegal, Position::pseudoLegalMoveIsLegal", "cshogi/_cshogi.pyx: Board.pseudo_legal_moves, is_pseudo_legal, pseudo_legal_move_is_legal"]}
{"id": "C50", "title": "Exported game records are read back", "statement": "A program tells CSA.Exporter a game (info, a move for every move, endgame) whose moves are integers of legal_moves; the CSA reader then reports the same starting position, the same integers, times, scores, comments, names, $-lines, version and result. Several games in one file are read one by one. What is not read back is shown by witnesses: an SFEN text other than the starting one makes info raise, a comment beginning with an apostrophe swallows the next line, and with the separator ',' a time hides itself and the comment.", "quantifier": "every game of any length from any reachable board, any texts without line feeds, any times that fit an int, any number of games in one file", "why_tests_cant": "writer and reader are separate programs in two languages; the round trip must hold for every position, move and text", "anchors": ["cshogi/CSA.py: Exporter.info, Exporter.move, Exporter.endgame", "cshogi/_cshogi.pyx: Parser, move_to_csa, Board.csa_pos", "src/parser.h: __Parser"]}
{"id": "C51", "title": "KI2 move texts are read back", "statement": "For a legal move, move_to_ki2 gives a text, and KI2.Parser.parse_move_str on the same board reads it as the same move and plays it; a game exported line by line is read as its moves. It holds for every drop, and for a move of a piece when no other piece of the kind can go to the square, or one other can and none can be dropped there. Whatever the case, what is read is a legal move of a piece of the same kind to the same square, or an exception.", "quantifier": "every reachable position, every legal move in it, games of any length", "why_tests_cant": "the words that tell pieces apart depend on every arrangement of pieces that can reach a square, pinned ones included", "anchors": ["cshogi/KI2.py: move_to_ki2, Parser.parse_move_str, Exporter.move", "cshogi/_cshogi.pyx: PIECE_JAPANESE_SYMBOLS, HAND_PIECE_JAPANESE_SYMBOLS", "cshogi/KIF.py: KIFU_TO_SQUARE_NAMES"]}
{"id": "C52", "title": "PGN texts name one game", "statement": "For a legal move, PGN.move_to_san gives the piece, the square it comes from or @, the square it goes to and a sign of promotion, and no two legal moves on a board have the same text. The words Exporter.movetext writes for a game are the numbers of the moves, their texts and the result, in order; two games from one board with the same text are the same game with the same result; lines are at most 80 characters long.", "quantifier": "every reachable position, every legal move in it, every legal game of any length (for the lines: fewer than 2^60 moves), every result", "why_tests_cant": "lines break at a place that depends on all texts before it, and texts must differ for every pair of moves on every board", "anchors": ["cshogi/PGN.py: move_to_san, Exporter.tag_pair, Exporter.movetext"]}
{"id": "C53", "title": "Written KIF games are read back", "statement": "The line KIF.Exporter.move writes for a legal move, whatever the move number and the times, is read by KIF.Parser as that move and the seconds spent on it. The lines written for a whole game are read as its moves and times and lead to its last board. With the lines Exporter.end writes, the reader also finds the winner and the way the game ended.", "quantifier": "every reachable board, every legal move and legal game of any length from a new board, every move number and time, every reason a game can end for", "why_tests_cant": "the text of a move depends on the board and on the move before it (the sign for the same square), numbers and times outgrow their columns, and a line must be mistaken for nothing else on any board", "anchors": ["cshogi/KIF.py: move_to_kif, Exporter.move, Exporter.end, Parser.parse_move_str, Parser.parse_str"]}
{"id": "C54", "title": "Written KI2 games are read back with comments and ends", "statement": "The lines KI2.Exporter writes for a game, with a comment after any of its moves, are read by KI2.Parser as the same moves, each with its own comment or none, and lead to the last board of the game. With the line Exporter.end writes, the reader also finds the winner and the way the game ended.", "quantifier": "every reachable board, every game of clear moves of any length, every choice of comments, every reason a game can end for", "why_tests_cant": "comments are matched to moves by counting all lines before them, and a move line must be mistaken for neither a header, a comment nor a result on any board", "anchors": ["cshogi/KI2.py: Exporter.move, Exporter.end, Parser.parse_str"]}
{"id": "C55", "title": "What a USI engine says is what the caller gets", "statement": "Engine.go returns the move and the move to ponder on of the first line with which the engine ends its search, after the listener has been given every line up to it once and in order; if the engine closes its output without such a line, EOFError is raised. After the search InfoListener.score and InfoListener.pv are the score and the line of play of the last info line about the chosen move. The command Engine.position sends for an SFEN and legal moves, given to Board.set_position, sets up the board on which these moves have been played.", "quantifier": "every sequence of lines the engine writes, of any length, with any end of its output; every info line of the protocol; every SFEN text of a sound position and every list of legal moves", "why_tests_cant": "the lines and the place where an engine stops are not under the caller's control; a report about another move or an earlier report must never win", "anchors": ["cshogi/usi/Engine.py: Engine.go, Engine.position, InfoListener"]}
{"id": "C56", "title": "A match between engines is judged by the rules and counted", "statement": "In a match of cli.main every game ends with the verdict of the rules: an engine that resigns, falls to the resign score, plays an illegal move or exceeds its time by a second or more loses; mate wins; a game longer than the limit is a draw; a position that comes for the fourth time is a draw or, after perpetual check, lost by the side that gave check; a declaration wins when it may be made. The board at the end is the one after the legal moves of the game. Every game is counted once for each engine, as won, lost or drawn with the side it had.", "quantifier": "every sequence of replies of the two engines with any times and scores, every draw limit, resign score, clock and increment, every sound starting board, every sequence of verdicts, with and without change of sides", "why_tests_cant": "the replies are made by other programs; the verdict depends on the whole history (repetition, clocks, number of moves) and the ways to end a game compete with each other", "anchors": ["cshogi/cli.py: main"]}
{"id": "C57", "title": "Starting and asking a USI engine", "statement": "Engine.connect takes the last name the engine gives before usiok; Engine.usi returns all lines before usiok in order; Engine.isready returns at readyok and not before; Engine.go_mate returns what the engine writes after checkmate; none of them reads further. The command of Engine.go has each limit that was given, with its name and value, and no other. If the engine ends instead, EOFError is raised.", "quantifier": "every sequence of engine lines of any length, every end of the engine's output, every combination and value of limits", "why_tests_cant": "the lines are written by another program, which may stop anywhere; limits combine freely", "anchors": ["cshogi/usi/Engine.py: Engine.connect, Engine.usi, Engine.isready, Engine.go, Engine.go_mate"]}
{"id": "C58", "title": "Reports of several lines of play", "statement": "After a search MultiPVListener.info has, for every rank the engine reported with multipv and no other, exactly one entry, in ascending order of the ranks; it is the last report of that rank, with its rank, score and expected moves.", "quantifier": "every sequence of engine lines of any length, in any order of ranks, with reports that have no rank and other lines between", "why_tests_cant": "reports come in any number and order, and the rank may stand anywhere in a report", "anchors": ["cshogi/usi/Engine.py: MultiPVListener, InfoListener._split_info"]}
{"id": "C59", "title": "The gym environment rewards games by the rules", "statement": "ShogiEnv.step with a legal move plays it and tells whether the game is over and the reward of the side that moved: a position that comes for the fourth time, the first one counted, ends the game with 0, or after perpetual check with -1 for the side that gave check and 1 for the other; mate ends it with 1; otherwise it goes on with 0. There is no draw status before a position has come for the fourth time. Other moves are refused; 0 resigns with -1 and leaves the board as it is.", "quantifier": "every board set up from a proper position, every line of legal moves of any length, every next move", "why_tests_cant": "the answer depends on the whole history of the game", "anchors": ["cshogi/gym_shogi/envs/shogi_env.pyx: ShogiEnv.reset, ShogiEnv.step"]}
