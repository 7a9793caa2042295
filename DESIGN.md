# Formal model of cshogi: design

Target: TadaoYamaoka/cshogi at the commit in /repo (C++ core in src/, Cython and Python front end in cshogi/).
Technique: the C++ functions are written as total Gallina functions (a shallow embedding), and the properties of
properties.jsonl are theorems about those functions, proved in Coq 8.16.1.

## How to read the development

All files are in rocq/theories. There are four sorts.

* **Model files** hold definitions only. Every definition cites the lines of /repo it models and says where it
  simplifies: Base, Bits, Bitboard, Attack, Types, Position, Board, Book, Gen, MoveText, Packed, Sfen, Draw, Features,
  Command, Rotate, Csa, Heap, Ok, Mate1, and those named under "What is modelled" below.
* **Specification files** hold definitions only and do not mention the model (Abs and the Claims files are the bridge):
  Spec (the rules of shogi), TextSpec (USI and CSA move texts, half-turn), SfenSpec, CsaSpec, PackSpec, DrawSpec,
  FeaturesSpec, OkSpec, HeapSpec, MateSpec, CommandSpec; Claims, ClaimsGen, PackClaims (which boards a client can reach);
  Abs (reading a model position as a position of Spec, and a move of Spec as its integer code).
* **Proof files** are all others.
* **Property files** Prop_*.v hold the final theorems, named after the property (C01_..., C02_...), a `Print Assumptions`
  under each and an `Example` (named Cnn_case...) that shows the hypotheses are met by a concrete, non-trivial board.

Names: a theorem ending in `_partial` proves part of its property, and the note in MANIFEST.json says what is missing. A
theorem ending in `_refuted` proves that the unrestricted statement is false of the code, by a concrete witness. Such a
witness is a finding about cshogi, listed at the end.

## Modelling conventions

* Machine words are `N` with explicit wrap-around where the C++ type can wrap.
* Squares are `N` (0..80, file*9+rank as in square.hpp; 81 is SquareNum). Pieces, piece types, hand pieces and colours are
  their enum values.
* Arrays are lists. Reading outside a list in a function whose callers keep indices in range gives a default; in functions
  whose input comes from the user (texts, packed data, move integers) it is a distinct outcome: `None`, `Undefined`.
* C++ exceptions are the outcome `Thrown`.
* The random numbers of the Zobrist and book tables are universally quantified parameters. Theorems about keys assume
  nothing about them; C27 says where a hash collision would matter.
* The tables of init.cpp are modelled by the functions that fill them, not by their contents.
* Texts are Coq strings or lists of 8-bit characters. std::istringstream and std::getline are modelled for the calls made.
* `reachable z b` (Claims.v) means: b is set up from a proper position, then legal moves and passes are pushed. `set_up` and
  `game` cover take-backs as well. `playable` asks for both kings and for no pawn of the mover on its last rank.

## Trusted base

1. Coq 8.16.1's kernel, including its virtual machine (`vm_compute` is used for finite table checks and witnesses;
   `native_compute` is not used). coqchk rechecks every file.
2. Axioms: `Print Assumptions` reports "Closed under the global context" for every theorem in Prop_*.v. No axiom,
   parameter or admitted proof is declared in the development. coqchk over the whole library context lists seven constants
   of Coq's standard library, `Coq.ssr.ssrunder.Under_rel.*` (the fields of an opaque module type instance loaded together
   with Lia). No theorem depends on them.
3. The transcription: that each model definition computes what the cited C++ lines compute. No code was run: the sandbox has
   neither the dependencies nor permission to build. The transcription was checked by reading, by the theorems themselves
   (a wrong table or shift makes them unprovable) and by the deliberate mistakes logged in seeded/LOG.jsonl.
4. The specification files named above, which say in terms of the rules and notations what each theorem means.

## What is modelled

| /repo | model | remarks |
|---|---|---|
| src/common.hpp, bitboard.hpp/.cpp, init.cpp | Bits.v, Bitboard.v, Attack.v, parts of Mate1.v | both popcount/bit-scan builds; magic-free rook and bishop code |
| src/square.hpp, piece.hpp, color.hpp, hand.hpp, move.hpp/.cpp | Types.v, MoveText.v | |
| src/position.hpp/.cpp | Position.v, Sfen.v, Packed.v, Draw.v, Ok.v, Csa.v, Mate1.v | set, doMove, undoMove, null moves, keys, checkers, pins, legality tests, isDraw, moveIsDraw, isOK, printing, packing, mateMoveIn1Ply |
| src/generateMoves.cpp/.hpp | Gen.v, PseudoList.v | Drop, pieces, Evasion, NonEvasion, Legal, LegalAll via legal_moves, PseudoLegal via pseudo_legal_moves |
| src/usi.cpp | MoveText.v | usiToMove, csaToMove |
| src/book.cpp | Book.v | keys only |
| src/search.cpp | Features.v | nyugyoku |
| src/cshogi.h, cshogi/_cshogi.pyx | Board.v, Command.v, Rotate.v, Features.v, Heap.v | the Board class and the free functions on positions and moves |
| src/parser.h, Parser class of the pyx | Csa.v | |
| src/mate.cpp, src/generateMoves.cpp (CheckAll), src/init.cpp (check tables) | Mate.v, CheckGen.v | mateMoveInOddPly, mateMoveInOddPlyReturnMove, mateMoveInEvenPly, mateMoveIn3Ply, the move picker, generateMoves<CheckAll>, checkMoveIsEvasion |
| cshogi/CSA.py | Export.v | Exporter.info, move, endgame (not: opening and closing the file, encoding) |
| cshogi/KI2.py | Ki2.v | move_to_ki2, Parser.parse_move_str, the move lines of Exporter.move (not: headers, boards, comments, result lines, encoding) |
| cshogi/PGN.py | Pgn.v | move_to_san, the result text of Exporter.tag_pair, Exporter.movetext (not: the tag lines, the file) |
| cshogi/KIF.py | Kif.v | move_to_kif, Exporter.move, Exporter.end, Parser.parse_move_str, the move and result lines of Parser.parse_str (not: headers, boards, comments, info, encoding) |
| cshogi/KI2.py | Ki2Game.v | Exporter.move with comments, Exporter.end, the move, comment and result lines of Parser.parse_str (not: headers, encoding) |
| cshogi/usi/Engine.py | Engine.v | Engine.position, the loop of Engine.go, InfoListener (not: the process, encodings) |
| cshogi/cli.py | Match.v | the loop of a game in main, its verdict, the counts (not: pondering, mate_win, opening files, files written, the patterns for scores, elo) |
| cshogi/usi/Engine.py | Talk.v | the loops of connect, usi, isready and go_mate, the text of go (not: setoption, usinewgame, ponderhit, stop, quit, gameover) |
| cshogi/usi/Engine.py | Multi.v | MultiPVListener (not: the chained listener) |
| cshogi/gym_shogi/envs/shogi_env.pyx | Env.v | ShogiEnv.reset (after the board is set), ShogiEnv.step (not: render, spaces, the list of moves) |

## What is not modelled

* dfpn.cpp and the OSL df-pn solver; evaluation lists (EvalList) beyond their consistency; opening book files.
* Python files: the headers, boards and comments of KIF.py, the headers of KI2.py, the tag lines of PGN.py, the processes and simple commands of usi/Engine.py, cli.py except the games and counts of main, elo.py, gym_shogi except reset and step of ShogiEnv, web; to_svg, to_bod.
* numpy buffers are lists of values; dtype and stride checks of Cython are not modelled.
* Threads: the library has no concurrency of its own.

## Plan and result per property

* **C01 Sliding attacks are exact** (proved). Model: Attack.v: the word-level slider code and the tables of init.cpp. Proof: The attack word depends on the occupancy only through a mask of at most 8 bits per lane or ray. Equality with the ray walk is checked for every subset of a lane by vm_compute and lifted to all occupancies (AttackProofs.v); AttackFinal.v restates it with the rules' "attacks". Every occupancy bitboard, every square, both colours; the slider code (magic/pext-free rook lines, unpacked bishop lines) is modelled as it is.
* **C02 Step attacks never leave the board or wrap** (proved). Model: Attack.v: table initialisers. Proof: Finite check over both colours, all squares and all kinds, lifted by forallb (StepProofs.v). Plus: attack sets have no bits outside the 81 squares.
* **C03 Attackers of a square are exact** (proved). Model: Position.v: attackersTo, attackersToExceptKing. Proof: From C01/C02 and the reversal symmetry of attacks, for every position whose views agree (AttackersProofs.v). attackersTo on every reachable board, every assumed occupancy.
* **C04 All views of the board stay consistent** (proved). Model: Position.v: doMove, undoMove, doNullMove; Board.v: setters and history. Proof: Invariant "views" (bitboards, king squares, golds, occupied set, eval lists are functions of the board) preserved by every call; induction over histories (DoMoveProofs.v, HistProofs.v, ViewsOut.v). For every board set up from a proper position and every history of legal moves, take-backs, passes and pass take-backs. is_ok is not part of this theorem.
* **C05 pop exactly undoes push** (proved). Model: as C04. Proof: undo (do p m) = p on the full state record (UndoProofs.v), then induction over histories of calls. pop after push, n pops after n pushes, and any interleaving without two passes in a row, give back the identical board object.
* **C06 The incremental Zobrist hash equals the hash computed from scratch** (proved). Model: Position.v: the key updates of doMove; computeBoardKey, computeHandKey. Proof: Stored keys = keys from scratch modulo 2^64 for every table built by initZobrist (KeyProofs.v). For all random tables as initZobrist builds them.
* **C07 Predicted keys match the keys after the move** (proved). Model: Book.v: bookKey, bookKeyAfter; Position.v: getKeyAfter. Proof: Both predicted keys equal the key after the move (BookProofs.v). Book key and position key.
* **C08 Check status is maintained exactly by push** (proved). Model: Position.v: the checker updates of doMove, moveGivesCheck, isCheck. Proof: Line geometry: direct and uncovered checkers computed incrementally are exactly the attackers of the king (LineProofs.v, CheckProofs.v, CheckersProofs.v). is_check, checkers and the gives-check prediction.
* **C09 Every generated legal move is legal** (proved). Model: Gen.v: generateMoves.cpp 198-748, Evasion, NonEvasion and Legal. Proof: Enumerations without repetition of the pseudo-legal moves (EnumN.v, GenN.v, GenPawn.v, GenDrop.v), pins and king safety exact (SafeN.v, SafeKing.v), then GenExact.v, GenFinal.v. For every reachable board with both kings standing and no pawn of the mover on its last rank (the generator shifts pawns without looking); a well-formed start guarantees this for whole games.
* **C10 Every legal move is generated, once** (proved). Model: as C09. Proof: Same development: the list is a permutation-free enumeration of the legal moves. Same hypotheses as C09; C10_moves_after_history needs only a well-formed start.
* **C11 Pawn-drop mate test is exact** (proved). Model: Position.v: isPawnDropCheckMate, canKingEscape, canPieceCapture. Proof: PawnMate.v: the test is true exactly when no legal reply exists. Reply means a move legal under all rules.
* **C12 is_legal agrees with legal_moves** (partial). Model: Position.v: moveIsPseudoLegal, pseudoLegalMoveIsLegal, moveIsLegal. Proof: IsLegal.v: exact on moves of the shape the rules want; witness for the rest. Proved for every move whose shape fits the rules (drop of a hand piece on a rank it can leave; promotion flag allowed by piece and zone) and in the direction legal_moves => is_legal for all integers. The converse for arbitrary integers is false of the code: C12_every_integer_refuted exhibits 7g7f+ in the initial position, which is_legal accepts.
* **C13 Move strings are only accepted for legal moves** (partial). Model: MoveText.v: usiToMove, csaToMove with an out-of-bounds outcome. Proof: TextProofs.v; refutations by vm_compute. Accepted texts denote the returned move and pass is_legal; they are legal whenever the move has the form the rules want, and texts of such moves are answered exactly. Out-of-bounds reads are confined to texts of length 0 or 2 and texts beginning with K/k (USI) and are exactly the king drops (CSA). The unrestricted claim is false of the code: C13_memory_refuted, C13_usi_refuted (7g7f+), C13_csa_refuted (0055TO).
* **C14 Pieces are conserved by play** (proved). Model: Spec.v, Position.v. Proof: Counting argument on the rules, then C04 for the model (SpecProofs.v). Histories include passes and take-backs; hand counters are those of C04.
* **C15 SFEN round trip** (proved). Model: Sfen.v: toSFEN and set(sfen), character by character. Proof: SfenProofs.v, SfenFinal.v: the printed text denotes the position, and any text that denotes a proper position is read as it. printed text denotes the position in an independent description of the notation; round trip and injectivity; move numbers within int
* **C16 SFEN input is safe for every string** (partial). Model: Sfen.v with outcomes Done, Thrown, Undefined. Proof: SfenInput.v; refutations by vm_compute. every text of the notation for a proper position is accepted; any accepted text with at most 8 slashes and a proper result is consistent; memory safe on texts described by plus_ok/hand_field_ok; the full claim is refuted by concrete texts
* **C17 HuffmanCodedPos round trip** (proved). Model: Packed.v: BitStream, code tables and their reverse tables. Proof: PackEnc.v, PackDec.v: decode (encode p) = p by induction over the squares and the hand. Both kings on the board; pieces may be missing. The hash comes back for every random table.
* **C18 HuffmanCodedPos is always exactly 32 bytes** (proved). Model: Packed.v. Proof: Weight argument: the bits written depend only on the material, which C14 fixes (PackEnc.v). For the positions of the quantifier (one king per side). A reachable position without one of the kings makes to_hcp write past its buffer: C18_hcp_overflow, C18_hcp_size_refuted.
* **C19 PackedSfen round trip and size** (proved). Model: Packed.v with the PackedSfen tables. Proof: The same development instantiated. As C17 and C18.
* **C20 Corrupt packed positions are rejected safely** (partial). Model: Packed.v: decoders with an Undefined outcome. Proof: PackFinal.v; refutations by vm_compute. Accepted data gives a consistent position if the result shows both kings, keeps to the piece set and overran no hand counter. The code does not check this and the claim for all 32 bytes is false: C20_memory_refuted, C20_consistent_refuted, C20_pieces_refuted.
* **C21 USI move text round trip** (proved). Model: MoveText.v: toUSI, usiToMove. Proof: TextProofs.v. Printed text, read back, and distinctness, for every legal move of every reachable playable position.
* **C22 CSA move text round trip** (proved). Model: MoveText.v: toCSA, csaToMove. Proof: TextProofs.v. As C21 for CSA.
* **C23 16-bit moves lose nothing** (proved). Model: MoveText.v: move16, PSV conversion. Proof: Bit-field reasoning (MoveCodes.v). Legal moves of every reachable board; all 32768 PSV codes without the drop-flag clash, plus the layout of the PSV form.
* **C24 Rotating a move is a symmetry** (proved). Model: MoveText.v: move_rotate. Proof: Bit-field reasoning plus a half-turn lemma on the rules (Turn.v). Involution and fields for all 32-bit codes with a destination on the board; legality between any two reachable boards that are each other's half-turn.
* **C25 rotate_sfen rotates the position** (partial). Model: Rotate.v: the loops of rotate_sfen. Proof: RotateProofs.v against SfenSpec.v. Proved for every SFEN text of the notation in which no side holds ten or more of one kind (leading zeros and explicit 1s included); with ten pawns the claim is false of the code, proved by C25_ten_refuted.
* **C26 Move labels are in range and unambiguous** (proved). Model: MoveText.v: the label functions. Proof: Injectivity from the blocking property of rays (Labels.v). Range for every code and colour argument; uniqueness with the side to move as colour.
* **C27 Repetition is detected and classified correctly** (proved). Model: Draw.v: isDraw over the chain of states. Proof: Refinement to DrawSpec.v, which counts repetitions along a line of play (DrawProofs.v). Exact against DrawSpec.v for every history without two passes in a row, under the hypothesis that no two different positions compared share a hash; without that hypothesis a repetition is never missed.
* **C28 move_is_draw predicts is_draw** (partial). Model: Draw.v: moveIsDraw. Proof: DrawProofs.v; witnesses in DrawFinal.v. The two functions agree outside three cases; in two of them (repetition of the position the board was set up with, superior/inferior positions) they differ, shown by the _refuted theorems. move_is_draw never announces a repetition is_draw does not find.
* **C29 A pass can be taken back** (partial). Model: Position.v: doNullMove, undoNullMove; Board.v: push_pass, pop_pass. Proof: HistProofs.v, DrawFinal.v. push_pass/pop_pass restore every observable of the board from any reachable history (C29_pass_undone_any_partial), and the whole internal state when the pass does not directly follow a pass (C29_pass_undone_partial). Missing: after two passes in a row the consecutive-check counters are lost, which is_draw can show (C29_two_passes_refuted).
* **C30 Entering-king declaration follows the 27-point rule** (proved). Model: Features.v: nyugyoku. Proof: FeaturesProofs.v against the counting rule of FeaturesSpec.v. Both directions, for every board reachable by legal play and passes (LAW_24 not defined).
* **C31 A copied board is independent and equal** (proved). Model: Heap.v: boards as objects with pointers, copy constructor and relinkStateInfo. Proof: Simulation between the heap and independent values, induction over the calls of a program (HeapProofs.v). Refinement: boards with explicit pointers (startState_, history entries, previous, st_) and relinkStateInfo behave as independent values under every sequence of create/set/turn/push/pop/push_pass/pop_pass/copy/delete calls that is defined on values.
* **C32 Hand counters are faithful** (proved). Model: Types.v: Hand. Proof: HandProofs.v, HandFinal.v: for all counter vectors in range.
* **C33 Move codes keep their fields apart** (proved). Model: Types.v: Move. Proof: Bit-field reasoning (MoveCodes.v).
* **C34 Bit primitives agree across builds** (proved). Model: Bits.v: both code paths of common.hpp; Attack.v: both bishop attack codes. Proof: BitsProofs.v, for all 64-bit words. Population count, lowest bit, bishop attack code.
* **C35 Printed CSA position is read back** (proved). Model: Csa.v: toCSAPos, parse_position. Proof: CsaBlock.v. csa_pos of every reachable board, read back by the CSA reader.
* **C36 CSA piece-placement lines are read at the square they name** (partial). Model: Csa.v: "P+" lines. Proof: CsaFinal.v. Refuted: file and rank of a 'P+' item are exchanged, so the piece is put on file 10-y, rank x (C36_elsewhere_refuted, for every square but 55). Proved: where the pieces really go (C36_placed_partial) and that 55 is right. Missing: lines before the rank lines; those cells are uninitialised (C45).
* **C37 Mate search answers are true** (partial). Model: Mate.v: mate.cpp; CheckGen.v: the generator of checking moves; Mate1.v. Proof: Induction on the depth of the search against MateSearchSpec.v (MateProofs.v). The generated checks are legal and check (CheckGenProofs.v, CheckGenFinal.v, MateMoves.v); the generated evasions are all legal replies but some refusals to promote (MateMoves.v); the last ply is C48; repetition is C27. Proved for every reachable board with both kings and for every ply the API admits: the move returned is legal and checks, and the opponent cannot avoid mate within the remaining plies. Missing: defences that refuse a promotion are not examined by the code (generateMoves<Evasion>) and are left out of the claim (held_back), and C37_every_defence_refuted shows a board where is_mate(4) is true although such a defence escapes; a loss by the repetition rule counts as a mate, except in the theorems for boards just set up. Also proved: every search ends with an answer.
* **C38 Piece planes and features encode the position** (proved). Model: Features.v: the plane loops. Proof: PlaneProofs.v, Features1.v, Features2.v. piece_planes, piece_planes_rotate and both feature buffers are exact for every reachable board, including what the optional declaration planes hold. Two refutations show that those optional planes are not cleared and are not clamped at zero.
* **C39 set_pieces restores what pieces and pieces_in_hand report** (proved). Model: Board.v: set_pieces, pieces, pieces_in_hand. Proof: ViewsOut.v.
* **C40 Game over means no legal move** (proved). Model: Gen.v. Proof: Corollary of C09 and C10. Same hypotheses as C09.
* **C41 Legal play preserves well-formedness** (proved). Model: Spec.v, Board.v. Proof: Invariant by induction over lines of play (SpecProofs.v). From any well-formed set-up position, in particular the initial position.
* **C42 set_position replays the moves it is given** (proved). Model: Command.v: set_position, push_usi, reset. Proof: CommandProofs.v, CommandFinal.v. Every text, through its words; on texts of the notation with legal moves also the resulting position, and the text of a game gives back the same board object. The memory refutation is the C12/C13 finding seen through set_position: the gold promotion accepted there.
* **C43 A CSA game record is read as the game it describes** (proved). Model: Csa.v: the whole reader. Proof: CsaGame.v, CsaRecord.v against the grammar of CsaSpec.v. Every combination of header, position, move, time, score, comment and end lines. Rating lines and floodgate summary lines are modelled but not part of the record described. Illegal moves are recorded as 0 (C43_illegal_refuted), CRLF lines are rejected (C43_crlf_refuted).
* **C44 Several CSA records in one text are read one by one** (proved). Model: Csa.v: parse_str. Proof: CsaFinal.v. parse_str, given the results for the single texts.
* **C45 The CSA reader is memory safe on every text** (partial). Model: Csa.v with an Undefined outcome. Proof: Witnesses by vm_compute (CsaExamples.v). Refuted by five witnesses (C45_undefined_refuted). That the records of C43 are read without undefined behaviour is C43_record. Missing: the exact set of texts that are safe.
* **C46 is_ok answers whether the position is sound** (proved). Model: Ok.v: isOK. Proof: OkProofs.v against OkSpec.v. Exact meaning of the answer; that is_ok does not imply well-formedness is C46_well_formed_refuted.
* **C47 HCP and PackedSfen bytes follow the published formats** (proved). Model: Packed.v. Proof: PackFormat.v against PackSpec.v, which writes the formats down as bit strings. Both formats, writing and reading, against an independent description of the bit strings (PackSpec.v).
* **C48 The one-move mate search finds real mates** (proved). Model: Mate1.v: mateMoveIn1Ply with all helper tests. Proof: Each of the four parts of the search is shown to return only moves after which the rules leave no reply: Mate1Basic.v, Mate1FarEnd.v, Mate1Double.v, Mate1Discover.v. All four parts of the search (beside the king, distant line checks, double checks, uncovered checks) proved sound for every reachable position with both kings and no unmovable pawn of the mover, mover not in check. The stronger wish that the integer is always in legal_moves is refuted (C48_code_refuted), and pushing that integer turns the promoted piece into a gold (C48_push_refuted).
* **C49 Pseudo-legal moves and their filter** (proved). Model: PseudoList.v: the list and its two tests, over Gen.v and Position.v. Proof: The enumeration lemmas of the generator (GenExact.v) describe the list before the filter; the filter loop is a permutation of the filtered list; outside check is_pseudo_legal is compared branch by branch. Proved for every reachable position with both kings. In check, is_pseudo_legal is stricter than the list for moves of the king (C49_in_check_refuted).
* **C50 Exported game records are read back** (proved). Model: Export.v: the three methods of CSA.Exporter; the file is the text written so far. Proof: The written text is a list of lines in the CSA notation of CsaSpec.v, built by induction over the moves from C09 (each integer is a legal move) and C22 (its text); C43 and C44 read it back; the integers agree because a move's code depends on the squares alone Proved for every legal game told with single-line texts; the three ways to lose data are refuted by witnesses (C50_sfen_refuted, C50_quoted_refuted, C50_comma_refuted).
* **C51 KI2 move texts are read back** (partial). Model: Ki2.v: move_to_ki2 and parse_move_str; a text is the list of its characters; the loop takes fuel and running out of it is Undefined. Proof: Two pieces of a kind that reach a square differ in the signs of their displacement (class_differs), so for two candidates the words of the writer are found by cases and the reader's filters keep exactly the moves from that square; promotion is told by the number of entries from the square; the pattern is run on all combinations of words once Proved for drops (C51_drop) and for clear moves (C51_move_partial, C51_game_partial): no other piece of the kind reaches the square, or one other does and none can be dropped there. Without that the round trip is false (C51_confused_refuted: another move is read; C51_straight_refuted: an exception). Positions with three or more candidates that are read back are not covered.
* **C52 PGN texts name one game** (partial). Model: Pgn.v: move_to_san, the result text of tag_pair and movetext; a text is the list of its characters. Proof: The square names are checked once for the 81 squares and have an inverse; texts of two moves are compared by the shape of the piece name; the words and lines follow by induction over the moves with the unwritten line as the accumulator Texts, words and distinctness are proved in full. Lines are proved to be at most 81 characters long (C52_lines); 80 is false (C52_width_refuted). The usual name of a promoted knight is not written (C52_knight_refuted; C52_names_partial covers all other moves), and a game without moves is written without its result (C52_no_moves_refuted).
* **C53 Written KIF games are read back** (partial). Model: Kif.v: the writer and the reader of move lines and of the lines at the end of a game; a text is the list of its characters. Proof: Each column of the line is read back by its own lemma: number, destination, piece, origin, time; the games follow by induction over the moves, with the boards reached as the invariant Moves, times and boards are proved in full. The end of a game is read as meant for resignation, repetition and a loss by an illegal move when Black moves first (C53_end_partial). For the rest it is false: C53_handicap_refuted, C53_jishogi_refuted, C53_illegal_refuted, C53_declared_refuted. C53_origin_refuted: a line with origin (05) makes the reader look outside the board.
* **C54 Written KI2 games are read back with comments and ends** (partial). Model: Ki2Game.v: Exporter.move with comments, Exporter.end and the loop of Parser.parse_str over lines. Proof: A move text begins with the sign of the side and holds no colon, so its line is taken for nothing else; induction over the moves with the invariant that the comments read so far, padded to the number of moves, are those of the moves played Proved for games of clear moves (the restriction of C51, without which a single move is not read back) and for every end but a win by the opponent's illegal action, whose sign is read wrongly (C54_illegal_refuted), on boards with a positive move number (C54_number_refuted). Comments are one line each; headers are not modelled.
* **C55 What a USI engine says is what the caller gets** (partial). Model: Engine.v: the position command, the loop of Engine.go over the lines of the engine followed by the end of its output, and InfoListener with its patterns; a text is the list of its characters. Proof: Induction over the lines for the loop; for info lines the search for the last pv is done word by word, the items are read in pairs, and the listener keeps for every first move the last report Answers and the position command are proved in full (the latter for a non-empty list of moves). Scores are proved for info lines with a score in centipawns or a mate in a given number of moves; "mate +", "mate -" and lines with only a pv raise an exception (C55_mate_refuted, C55_pv_alone_refuted). EOFError is never raised: the loop does not end (C55_eof_refuted).
* **C56 A match between engines is judged by the rules and counted** (partial). Model: Match.v: the loop of a game over the replies of the engines with board, hashes and clocks, the verdict and the counts of a match. Proof: Induction over the rules of MatchSpec.v; each step uses that texts of legal moves are accepted and others refused (C13), the hash of a position (C06), is_game_over (C40) and is_draw (C27) The count is proved in full. The verdict is proved for every game whose replies are move texts of the protocol, legal or not, "resign" or "win" (C56_game_partial), where "win" is believed, the first position is not among the counted ones, and positions are told apart by their hash. As stated the claim is false: the first position is not counted (C56_start_refuted) and declarations are not checked (C56_declared_refuted). A repetition by the last move allowed is a draw in the code, also after perpetual check: the rules of the theorem say so (repeated_late). Left out: mate_win, pondering and opening files.
* **C57 Starting and asking a USI engine** (partial). Model: Talk.v: the loops of connect, usi, isready and go_mate and the text of go. Proof: Induction over the lines; the text of go is the join of its words, which are split again Proved for every sequence of lines that contains the answer. EOFError is never raised (C57_eof_refuted), and increments are not sent when a byoyomi is given (go_words in TalkSpec.v says so).
* **C58 Reports of several lines of play** (partial). Model: Multi.v: the regular expression of MultiPVListener, its dict and the sorted entries. Proof: The expression is found at words only; the dict holds the last report of each rank by induction over the lines; insertion sort is sorted and a permutation Proved for every sequence of reports of the protocol (numbers with names, a score in centipawns or to mate, moves) and other lines. As stated the claim is false: a score marked as a bound just before the moves makes info raise IndexError (C58_bound_refuted).
* **C59 The gym environment rewards games by the rules** (partial). Model: Env.v: ShogiEnv.reset and ShogiEnv.step with board, counted hashes and draw status. Proof: Induction over the line: the board is the one after the moves and the hashes are those of the positions of the game; then C06, C27 and C40 Proved for every line of legal moves; positions are told apart by their hash, and the judgement of a repetition assumes that the hashes compared do not collide (no_collision). Refusal is proved for moves of the form is_legal expects (fits). Left out: render and ShogiVecEnv.

## Wrong programs

seeded/LOG.jsonl records the edits made to scratch copies of the model (wrong boundary, missed case, swapped argument,
dropped update), the claim each breaks, the theorems that then fail to compile, and the theorems that were tightened
because they survived. An edit counts as noticed when a property theorem, or a lemma it rests on, no longer compiles.

## Findings about the code

These are the places where the property a user expects is false of the code. Each has a `_refuted` theorem or is part of
the hypotheses of the theorem named.

* is_legal accepts some moves the rules forbid: promotions by pieces that cannot promote, outside the zone (7g7f+ in the initial position), "+" on a gold (C12_every_integer_refuted). Pushing a gold promotion indexes outside the piece tables (C42_memory_refuted).
* move_from_usi and move_from_csa read outside their text for some short texts and king drops, and accept moves that are not legal (C13).
* The generator shifts the bitboard of pawns, so a pawn on its last rank wraps to the next file (hypothesis "playable" of C09, C10).
* set_sfen has undefined behaviour for some texts ("+G", a king in hand, too many slashes) and can leave an inconsistent board (C16).
* to_hcp and to_psfen write past their 32 bytes when a king is missing (C18_hcp_overflow, C19_psfen_overflow); corrupt data can be accepted with an inconsistent result (C20).
* rotate_sfen corrupts hand counts of ten and more (C25_ten_refuted).
* move_is_draw never reports superior or inferior repetition, and calls a perpetual check back to the set-up position a draw (C28).
* Two passes in a row lose the counters of consecutive checks (C29_two_passes_refuted).
* CSA "P+" lines put pieces on the square with file and rank exchanged (C36_elsewhere_refuted); several texts make the reader access memory it does not own (C45); illegal moves are recorded as 0, CRLF line ends are rejected (C43).
* The optional declaration planes of the feature buffers are not clamped and not cleared (C38).
* is_ok does not test for two pawns on a file, pieces that cannot move, or the number of pieces (C46_well_formed_refuted).
* mate_move_in_1ply returns the code of a gold for promoted pawns, lances, knights and silvers when a check is uncovered (C48_code_refuted), and pushing it puts a gold on the board (C48_push_refuted).
* is_mate(0) and is_mate of a negative even number pass the assertion of the Python layer, and the recursion of mateMoveInEvenPly then has no bound on its depth (the tests are depth == 4 and depth == 2). The model answers None.
* The searches mate_move and is_mate examine only the defences of generateMoves<Evasion>, which leaves out a pawn, bishop or rook that refuses to promote, and a lance that refuses on the second rank. Such a refusal can matter when the attacker depends on a pawn drop. C37 excludes it by name (held_back). C37_every_defence_refuted is a position where it does matter: the call returns True and the king escapes by taking the checking gold with an unpromoted bishop.
* In the last two plies (depth 2, and inside the three-ply search) a defence that gives check counts as an escape even when it can be answered by mate; the searches are sound but not complete.
* The three-ply and one-ply searches at the leaves do not test for repetition; mateMoveInOddPly and mateMoveInEvenPly count a loss by perpetual check as a mate. C37 states this in the specification (w_rule, l_rule).
* The array of the move picker in mate.cpp has room for 91 moves and the generator writes before the assertion is evaluated; the model's lists have no limit, so C37 says nothing about positions with more than 91 pseudo-legal checks or evasions.
* In check, is_pseudo_legal rejects some entries of pseudo_legal_moves: the test looks at the squares attacked through the king, the generator only at the checking piece (C49_in_check_refuted).
* CSA.Exporter.info given an SFEN str other than the starting one writes the position and then raises AttributeError, because it reads `turn` of the str (C50_sfen_refuted).
* CSA.Exporter.info writes a comment that begins with an apostrophe without a line feed, so it swallows the next line; if that is the position line, reading the file uses board cells that were never set (C50_quoted_refuted).
* CSA.Exporter.move with sep=',' and a time writes `+7776FU,T12,'comment`; the reader ignores both the time and the comment (C50_comma_refuted). With the default separator the comment goes to the comment of the whole record.
* KI2.Parser.parse_move_str counts drops when it looks for the leftmost, rightmost, foremost or rearmost piece. With gold generals on 66 and 46 and one in hand, the text move_to_ki2 writes for 66-55 is read as the drop on 55 (C51_confused_refuted).
* move_to_ki2 writes ５五金直 for 56-55 when gold generals also stand on 66 and 54; the reader keeps both pieces of the file and its assertion fails (C51_straight_refuted).
* KI2.Parser.parse_move_str uses the end of a match in line[pos:] as an index into line, so a line with three moves cannot be read (C51_line_refuted); files with one move a line, as the exporter writes them, can.
* PGN_PIECE_TYPES has '+K' where the promoted knight should be '+N' (C52_knight_refuted).
* PGN.Exporter.movetext tests the length before it adds a space, so a line can have 81 characters (C52_width_refuted).
* PGN.Exporter.movetext does not write the result of a game without moves (C52_no_moves_refuted).
* KIF.Exporter.end takes the winner from the parity of the move number, which is the wrong side when White moves first, as in handicap games (C53_handicap_refuted).
* KIF.Parser does not know the line 入玉宣言 that KIF.Exporter.end writes, so a declared win is lost (C53_declared_refuted).
* KIF.Parser reads 持将棋 as %SENNICHITE (C53_jishogi_refuted); the exporter writes its count of moves as move_number + 1 where all other ends have move_number - 1.
* KIF.Parser gives 反則勝ち the sign of the winner, while cli.py:444 gives %+ILLEGAL_ACTION and %-ILLEGAL_ACTION the sign of the offender (C53_illegal_refuted).
* A KIF line with an origin such as (05) makes KIF.Parser call board.move with a negative square, which reads before the board (C53_origin_refuted).
* KI2.Parser gives 反則勝ち the sign of the winner, as KIF.Parser does (C54_illegal_refuted).
* KI2.Exporter.end writes board.move_number - 1, which is negative on a board with move number 0, and its reader then misses the result (C54_number_refuted); for %ILLEGAL_MOVE it uses self.move_number, which is always 1, so the line says 0 moves.
* usi/Engine.py compares the bytes from readline with the text '', which is never equal, so when the engine process ends without an answer Engine.go (and connect, usi, isready, go_mate, which have the same loop) reads for ever instead of raising EOFError (C55_eof_refuted).
* InfoListener._split_info takes two items when the value is not a number, so 'score mate +' and 'score mate -' lose their sign and InfoListener.score raises (C55_mate_refuted).
* InfoListener.score raises IndexError after an info line that has nothing before its pv (C55_pv_alone_refuted).
* cli.main counts a position only when a move has led to it, so that a game that comes back to its first position three times goes on (C56_start_refuted).
* cli.main gives the game to an engine that says 'win' without asking is_nyugyoku (C56_declared_refuted).
* cli.main tests the move limit before all other ends when it gives the verdict, so that perpetual check by the last move allowed is a draw; and the end written to the CSA file for a lost repetition is 'ILLEGAL_MOVE' without '%' (seen in the text, not part of a theorem).
* Engine.usi and Engine.isready read for ever when the engine ends without an answer, like Engine.go (C57_eof_refuted).
* MultiPVListener.info and InfoListener.info raise IndexError for a report whose score is marked upperbound or lowerbound just before pv (C58_bound_refuted).
