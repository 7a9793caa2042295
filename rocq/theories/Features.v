(* Model of the declaration test and of the feature planes: nyugyoku (search.cpp:27-76), piece_planes,
   piece_planes_rotate and _dlshogi_make_input_features (cshogi.h:307-457).  No proofs. *)
From Verif Require Export Board.
Local Open Scope N_scope.

(* ---- nyugyoku, search.cpp:27-76; is_nyugyoku, _cshogi.pyx:927-933.  LAW_24 is not defined. ---- *)
Definition opponentsField (c : N) : BB := inFrontMask c (if c =? Black then 3 else 5).
Definition bigPieces (p : Position) : BB := bbOr (bbOr (bbT p Rook) (bbT p Dragon)) (bbOr (bbT p Bishop) (bbT p Horse)).
Definition nyugyoku (p : Position) : bool :=
  if inCheck p then false else
  let us := turn p in
  let field := opponentsField us in
  if negb (andIsAny (bbTC p King us) field) then false else
  let own := (Z.of_N (popCount (bbAnd (bbC p us) field)) - 1)%Z in
  if (own <? 10)%Z then false else
  let big := Z.of_N (popCount (bbAnd (bbAnd (bigPieces p) field) (bbC p us))) in
  let small := (own - big)%Z in
  let h := fun hp => Z.of_N (numOf (handOf p us) hp) in
  let val := (small + h 0%N + h 1%N + h 2%N + h 3%N + h 4%N + (big + h 6%N + h 5%N) * 5)%Z in
  if (val <? (if (us =? Black)%N then 28 else 27))%Z then false else true.

(* ---- buffers of floats.  A write outside the buffer is undefined behaviour: None. ---- *)
Definition Mem := list Z.
Definition memLen (m : Mem) : N := N.of_nat (length m).
(* data[i] = 1 *)
Definition setOne (m : option Mem) (i : N) : option Mem :=
  match m with Some m => if i <? memLen m then Some (updN m i 1%Z) else None | None => None end.
Definition setOnes (m : option Mem) (l : list N) : option Mem := fold_left setOne l m.
(* std::fill_n(start, n, 1) *)
Definition fillOnes (m : option Mem) (start n : N) : option Mem := setOnes m (map (fun i => start + i) (seqN 0 (N.to_nat n))).
(* std::fill_n(start of the buffer, n, 0) *)
Definition fillZero (m : option Mem) (n : N) : option Mem :=
  match m with Some m => if n <=? memLen m then Some (repeat 0%Z (N.to_nat n) ++ skipn (N.to_nat n) m) else None | None => None end.

(* ---- piece_planes, cshogi.h:307-321: the indices written, in order.  data moves on by 81 per plane ---- *)
Definition pieceTypes : list N := seqN 1 14.
Definition planeOnes (p : Position) (view : N -> N) (colors : list N) : list N :=
  flat_map (fun n => let pt := nthN 0 (pieceTypes ++ pieceTypes) n in let c := nthN 0 colors (n / 14) in
    map (fun sq => n * 81 + view sq) (bbList (bbTC p pt c))) (seqN 0 28).
Definition piecePlanes (p : Position) (m : Mem) : option Mem := setOnes (Some m) (planeOnes p (fun sq => sq) [Black; White]).
(* piece_planes_rotate, cshogi.h:324-345.  The loop `for (c = White; c >= Black; --c)` is taken to end after
   Black, as it does when --c gives a negative number. *)
Definition piecePlanesRotate (p : Position) (m : Mem) : option Mem :=
  if turn p =? Black then piecePlanes p m else setOnes (Some m) (planeOnes p (fun sq => 80 - sq) [White; Black]).

(* ---- _dlshogi_make_input_features, cshogi.h:348-457 ---- *)
(* attacks[c][pt], :362-378: the entry of the array, gathered over the board *)
Definition kindAttacks (p : Position) (c pt : N) : BB :=
  fold_left (fun bb sq =>
    let pc := pieceAt p sq in
    if negb (pc =? Empty) && (colorOf pc =? c) && (ptOf pc =? pt) then bbOr bb (attacksFrom pt c sq (occBB p)) else bb)
    squares allZeroBB.
(* features1[c2][plane][sq2], with MAX_FEATURES1_NUM = 31 planes per colour *)
Definition index1 (c2 plane sq2 : N) : N := (c2 * 31 + plane) * 81 + sq2.
(* c2 and sq2, :382, :392 *)
Definition viewColor (p : Position) (c : N) : N := if turn p =? Black then c else opp c.
Definition viewSquare (p : Position) (sq : N) : N := if turn p =? Black then sq else 80 - sq.
Definition squareOnes (p : Position) (c sq : N) : list N :=
  let at1 := fun plane => index1 (viewColor p c) plane (viewSquare p sq) in
  flat_map (fun pt =>
    (if isSet (bbTC p pt c) sq then [at1 (pt - 1)] else []) ++ (if isSet (kindAttacks p c pt) sq then [at1 (14 + pt - 1)] else []))
    pieceTypes
  ++ map (fun k => at1 (14 + 14 + k)) (seqN 0 (N.to_nat (N.min 3 (popCount (attackersTo p c sq (occBB p)))))).
Definition features1Ones (p : Position) : list N := flat_map (fun c => flat_map (squareOnes p c) squares) [Black; White].
Definition makeFeatures1 (p : Position) (m : Mem) : option Mem := setOnes (fillZero (Some m) (2 * 31 * 81)) (features1Ones p).

(* the fills of the second buffer: first plane and number of planes *)
(* hand planes, :410-424: MAX_PIECES_IN_HAND_SUM = 28 planes per colour *)
Definition handPlanes (p : Position) (c : N) : list (N * N) :=
  let c2 := viewColor p c in
  let n := numOf (handOf p c) in
  [(c2 * 28 + 0, N.min (n 0) 8); (c2 * 28 + 8, n 1); (c2 * 28 + (8 + 4), n 2); (c2 * 28 + (8 + 4 + 4), n 3); (c2 * 28 + (8 + 4 + 4 + 4), n 4);
   (c2 * 28 + (8 + 4 + 4 + 4 + 4), n 5); (c2 * 28 + (8 + 4 + 4 + 4 + 4 + 2), n 6)].
(* int compared with the u32 constant *)
Definition below (x : Z) (limit : Z) : bool := (x mod 2 ^ 32 <? limit)%Z.
(* declaration planes, :426-460 *)
Definition nyugyokuPlanes (p : Position) (c : N) : list (N * N) :=
  let field := opponentsField c in
  let base := 56 + 1 + viewColor p c * 31 in
  let inField := andIsAny (bbTC p King c) field in
  let own := (Z.of_N (popCount (bbAnd (bbC p c) field)) - (if inField then 1 else 0))%Z in
  let restField := (10 - own)%Z in
  let big := Z.of_N (popCount (bbAnd (bbAnd (bigPieces p) field) (bbC p c))) in
  let h := fun hp => Z.of_N (numOf (handOf p c) hp) in
  let val := (own - big + h 0%N + h 1%N + h 2%N + h 3%N + h 4%N + (big + h 5%N + h 6%N) * 5)%Z in
  let restPoint := ((if (c =? Black)%N then 28 else 27) - val)%Z in
  (if inField then [(base, 1)] else [])
  ++ (if below restField 10 then [(base + 1 + Z.to_N (Z.max 0 restField), 1)] else [])
  ++ (if below restPoint 20 then [(base + 1 + 10 + Z.to_N (Z.max 0 restPoint), 1)] else []).
Definition features2Planes (nyu : bool) (p : Position) : list (N * N) :=
  flat_map (fun c => handPlanes p c ++ (if nyu then nyugyokuPlanes p c else [])) [Black; White] ++ (if inCheck p then [(56, 1)] else []).
Definition fillPlanes (m : option Mem) (l : list (N * N)) : option Mem :=
  fold_left (fun m x => fillOnes m (fst x * 81) (snd x * 81)) l m.
Definition makeFeatures2 (nyu : bool) (p : Position) (m : Mem) : option Mem := fillPlanes (fillZero (Some m) (57 * 81)) (features2Planes nyu p).
(* both buffers *)
Definition makeInputFeatures (nyu : bool) (p : Position) (m1 m2 : Mem) : option (Mem * Mem) :=
  match makeFeatures1 p m1, makeFeatures2 nyu p m2 with Some a, Some b => Some (a, b) | _, _ => None end.
