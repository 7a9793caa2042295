(* Model of the packed positions: HuffmanCodedPos and PackedSfen.  BitStream (position.hpp:73-123), the
   code tables (position.cpp:36-91 and 128-183), their reverse tables (position.hpp:133-209),
   toHuffmanCodedPos / toPackedSfen (position.cpp:3017-3101) and set_hcp / set_psfen
   (position.cpp:3437-3567).  The two formats have the same code and different tables, so one model
   takes the tables as a parameter.  No proofs. *)
From Verif Require Export Board.
Local Open Scope N_scope.

(* A call that can throw, or leave the behaviour defined by the language. *)
Inductive outcome (A : Type) := Done (a : A) | Thrown | Undefined.
Arguments Done {A}. Arguments Thrown {A}. Arguments Undefined {A}.
Definition obind {A B} (x : outcome A) (f : A -> outcome B) : outcome B :=
  match x with Done a => f a | Thrown => Thrown | Undefined => Undefined end.

(* ---- BitStream, position.hpp:73-123 ---- *)
(* data_ as an index into the buffer it was set to, and curr_.  Reading or writing a byte outside the
   buffer is undefined behaviour: None. *)
Record Stream := mkStream { sdata : list N; spos : N; scurr : N }.
Definition sLen (s : Stream) : N := N.of_nat (length (sdata s)).
Definition advance (d : list N) (s : Stream) : Stream :=
  if scurr s + 1 =? 8 then mkStream d (spos s + 1) 0 else mkStream d (spos s) (scurr s + 1).
(* getBit, position.hpp:83-90 *)
Definition getBit (s : Stream) : option (N * Stream) :=
  if spos s <? sLen s
  then Some (if N.land (nthN 0 (sdata s) (spos s)) (N.shiftl 1 (scurr s)) =? 0 then 0 else 1, advance (sdata s) s)
  else None.
(* getBits, position.hpp:92-98 *)
Fixpoint getBitsFrom (s : Stream) (i : N) (n : nat) (result : N) : option (N * Stream) :=
  match n with
  | O => Some (result, s)
  | S n => match getBit s with
           | Some (b, s) => getBitsFrom s (i + 1) n (N.lor result (N.shiftl b i))
           | None => None
           end
  end.
Definition getBits (s : Stream) (n : nat) : option (N * Stream) := getBitsFrom s 0 n 0.
(* putBit, position.hpp:100-107 *)
Definition putBit (s : Stream) (bit : N) : option Stream :=
  if spos s <? sLen s
  then Some (advance (updN (sdata s) (spos s) (N.lor (nthN 0 (sdata s) (spos s)) (N.shiftl bit (scurr s)))) s)
  else None.
(* putBits, position.hpp:109-116; the stream is None once a write was out of bounds *)
Fixpoint putBits (s : option Stream) (val : N) (n : nat) : option Stream :=
  match n with
  | O => s
  | S n => putBits (match s with Some s => putBit s (N.land val 1) | None => None end) (N.shiftr val 1) n
  end.

(* ---- the code tables ---- *)
(* HuffmanCode, position.hpp:125-131: code and numOfBits *)
Definition Code := (N * N)%type.
Record Tables := mkTables { boardTable : list Code; handTable : list (list Code); boxTable : list Code }.
Definition noCode : Code := (0, 0).
Definition boardCode (T : Tables) (pc : N) : Code := nthN noCode (boardTable T) pc.
Definition handCode (T : Tables) (hp c : N) : Code := nthN noCode (nthN [] (handTable T) hp) c.
Definition boxCode (T : Tables) (hp : N) : Code := nthN noCode (boxTable T) hp.

(* HuffmanCodedPos, position.cpp:36-91 *)
Definition hcpTables : Tables := mkTables
  [(0, 1); (1, 4); (3, 6); (7, 6); (11, 6); (31, 8); (63, 8); (15, 6); (0, 0);
   (9, 4); (35, 6); (39, 6); (43, 6); (159, 8); (191, 8); (0, 0); (0, 0);
   (5, 4); (19, 6); (23, 6); (27, 6); (95, 8); (127, 8); (47, 6); (0, 0);
   (13, 4); (51, 6); (55, 6); (59, 6); (223, 8); (255, 8)]
  [[(0, 3); (4, 3)]; [(1, 5); (17, 5)]; [(3, 5); (19, 5)]; [(5, 5); (21, 5)]; [(7, 5); (23, 5)]; [(31, 7); (95, 7)]; [(63, 7); (127, 7)]]
  [(2, 3); (9, 5); (11, 5); (13, 5); (29, 5); (15, 7); (47, 7)].
(* PackedSfen, position.cpp:128-183 *)
Definition psfenTables : Tables := mkTables
  [(0, 1); (1, 4); (3, 6); (11, 6); (7, 6); (31, 8); (63, 8); (15, 6); (0, 0);
   (5, 4); (19, 6); (27, 6); (23, 6); (95, 8); (127, 8); (0, 0); (0, 0);
   (9, 4); (35, 6); (43, 6); (39, 6); (159, 8); (191, 8); (47, 6); (0, 0);
   (13, 4); (51, 6); (59, 6); (55, 6); (223, 8); (255, 8)]
  [[(0, 3); (4, 3)]; [(1, 5); (17, 5)]; [(5, 5); (21, 5)]; [(3, 5); (19, 5)]; [(7, 5); (23, 5)]; [(15, 7); (79, 7)]; [(31, 7); (95, 7)]]
  [(2, 3); (9, 5); (13, 5); (11, 5); (27, 5); (47, 7); (63, 7)].

(* HuffmanCodeToPieceHash and init(), position.hpp:133-140, 149-164 and 189-204: an entry per insertion,
   the latest first, so that the first match is the value the map holds *)
Definition sameCode (a b : Code) : bool := (fst a =? fst b) && (snd a =? snd b).
Definition boardHash (T : Tables) : list (Code * N) :=
  rev (map (fun pc => (boardCode T pc, pc)) (filter (fun pc => negb (ptOf pc =? King)) (seqN 0 15 ++ seqN 17 14))).
Definition handHash (T : Tables) : list (Code * N) :=
  rev (flat_map (fun hp => map (fun c => (handCode T hp c, mkPiece c (handToPt hp))) [Black; White] ++ [(boxCode T hp, Empty)]) (seqN 0 7)).
(* value(key): None is PieceNone *)
Definition hashValue (h : list (Code * N)) (c : Code) : option N :=
  match find (fun e => sameCode (fst e) c) h with Some e => Some (snd e) | None => None end.

(* ---- writing, position.cpp:3017-3058 (HuffmanCodedPos) and 3060-3101 (PackedSfen) ---- *)
Definition putCode (s : option Stream) (c : Code) : option Stream := putBits s (fst c) (N.to_nat (snd c)).
(* the counter hp_count *)
Definition boxStart : list Z := [18; 4; 4; 4; 4; 2; 2; 0]%Z.
Definition subCount (cnt : list Z) (hp : N) (n : Z) : list Z := updN cnt hp (nthN 0%Z cnt hp - n)%Z.
Definition putSquare (T : Tables) (p : Position) (x : option Stream * list Z) (sq : N) : option Stream * list Z :=
  let pc := pieceAt p sq in
  if ptOf pc =? King then x else (putCode (fst x) (boardCode T pc), subCount (snd x) (ptToHand (ptOf pc)) 1).
Fixpoint putTimes (n : nat) (s : option Stream) (c : Code) : option Stream :=
  match n with O => s | S n => putTimes n (putCode s c) c end.
Definition putHand (T : Tables) (p : Position) (c : N) (x : option Stream * list Z) (hp : N) : option Stream * list Z :=
  let n := numOf (handOf p c) hp in
  (putTimes (N.to_nat n) (fst x) (handCode T hp c), subCount (snd x) hp (Z.of_N n)).
Definition putBox (T : Tables) (cnt : list Z) (s : option Stream) (hp : N) : option Stream :=
  putTimes (Z.to_nat (nthN 0%Z cnt hp)) s (boxCode T hp).
(* the stream after the whole position was written: the 32 bytes, and how far they were filled *)
Definition toPacked (T : Tables) (p : Position) : option Stream :=
  let s := Some (mkStream (repeat 0 32) 0 0) in
  let s := putBits s (turn p) 1 in
  let s := putBits s (kingSquare p Black) 7 in
  let s := putBits s (kingSquare p White) 7 in
  let x := fold_left (putSquare T p) squares (s, boxStart) in
  let x := fold_left (fun x c => fold_left (putHand T p c) (seqN 0 7) x) [Black; White] x in
  fold_left (putBox T (snd x)) (seqN 0 7) (fst x).

(* ---- reading, position.cpp:3437-3500 (set_hcp) and 3503-3567 (set_psfen) ---- *)
(* `while (hc.numOfBits <= 8)`: bits are appended to the code until it is in the table; nine bits are
   read before giving up.  code is a u8. *)
Fixpoint readCode (fuel : nat) (h : list (Code * N)) (s : Stream) (c : Code) : outcome (N * Stream) :=
  match fuel with
  | O => Thrown
  | S fuel =>
      match getBit s with
      | None => Undefined
      | Some (b, s) =>
          let c := (N.lor (fst c) (N.shiftl b (snd c)) mod 256, snd c + 1) in
          match hashValue h c with Some pc => Done (pc, s) | None => readCode fuel h s c end
      end
  end.
(* setPiece on a square outside the board writes outside piece_ *)
Definition setPieceAt (p : Position) (pc sq : N) : outcome Position :=
  if sq <? 81 then Done (setPiece p pc sq) else Undefined.
Fixpoint readSquares (h : list (Code * N)) (sqs : list N) (p : Position) (s : Stream) : outcome (Position * Stream) :=
  match sqs with
  | [] => Done (p, s)
  | sq :: sqs =>
      if ptOf (pieceAt p sq) =? King then readSquares h sqs p s
      else obind (readCode 9 h s (0, 0)) (fun x =>
             readSquares h sqs (if fst x =? Empty then p else setPiece p (fst x) sq) (snd x))
  end.
(* `while (bs.data() != std::end(tmp.data))`; every round reads at least one bit, so 257 rounds suffice *)
Fixpoint readHands (fuel : nat) (h : list (Code * N)) (p : Position) (s : Stream) : outcome Position :=
  if spos s =? sLen s then Done p
  else match fuel with
       | O => Undefined
       | S fuel =>
           obind (readCode 9 h s (0, 0)) (fun x =>
             readHands fuel h (if fst x =? Empty then p else handPlusOne p (colorOf (fst x)) (ptToHand (ptOf (fst x)))) (snd x))
       end.
Definition setPacked (T : Tables) (z : Zob) (data : list N) : outcome Position :=
  let s := mkStream data 0 0 in
  match getBit s with None => Undefined | Some (t, s) =>
  match getBits s 7 with None => Undefined | Some (sq0, s) =>
  match getBits s 7 with None => Undefined | Some (sq1, s) =>
    let p := setTurnField clearPos t in
    obind (setPieceAt p (mkPiece Black King) sq0) (fun p =>
    obind (setPieceAt p (mkPiece White King) sq1) (fun p =>
    obind (readSquares (boardHash T) squares p s) (fun x =>
    obind (readHands 257 (handHash T) (fst x) (snd x)) (fun p =>
      Done (refreshState z (setGamePly (setKingsGolds p) 1))))))
  end end end.

(* to_hcp, set_hcp, to_psfen and set_psfen of the board (cshogi.h:139-147, _cshogi.pyx:444-476,
   786-800): setting a position empties the history *)
Definition toHcp (b : Board) : option Stream := toPacked hcpTables (bpos b).
Definition toPsfen (b : Board) : option Stream := toPacked psfenTables (bpos b).
Definition setHcp (z : Zob) (data : list N) : outcome Board := obind (setPacked hcpTables z data) (fun p => Done (mkBoard p [])).
Definition setPsfen (z : Zob) (data : list N) : outcome Board := obind (setPacked psfenTables z data) (fun p => Done (mkBoard p [])).
