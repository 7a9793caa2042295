(* Model of the boards in memory, with their pointers: __Board keeps a Position, whose st_ points either
   to startState_ inside the position or to a StateInfo inside a history entry, and every StateInfo points
   to the previous one (cshogi.h:86-510, position.hpp:53-69, 544-545).  Board.v follows those pointers
   silently; here they are explicit, so that copying (cshogi.h:91-101, 468-496) can be modelled. *)
From Verif Require Export Board Sfen Packed.
Local Open Scope N_scope.

(* a __Board in memory: one inside the n-th Python Board object, or the temporary of _cshogi.pyx:360 *)
Inductive place := Py (n : nat) | Tmp.
Definition place_eqb (a b : place) : bool :=
  match a, b with Py n, Py k => Nat.eqb n k | Tmp, Tmp => true | _, _ => false end.
(* the address of a StateInfo: startState_ of the board at o (position.hpp:544), or the StateInfo of entry
   i of its history (cshogi.h:467), the oldest entry being 0.  A deque keeps the addresses of its
   elements when one is added or removed at the end. *)
Inductive addr := Start (o : place) | Node (o : place) (i : nat).
Definition addr_eqb (a b : addr) : bool :=
  match a, b with
  | Start o, Start o' => place_eqb o o'
  | Node o i, Node o' i' => place_eqb o o' && Nat.eqb i i'
  | _, _ => false
  end.
(* StateInfo, position.hpp:53-69: the values, and previous, None for the null pointer *)
Record Cell := mkCell { cVal : StateInfo; cPrev : option addr }.
(* pos without startState_ and st_ (st and prev of oFields are not used), startState_, st_, and the
   history, latest entry first *)
Record Obj := mkObj { oFields : Position; oStart : Cell; oSt : addr; oNodes : list (N * Cell) }.
(* None: no live board there *)
Definition Heap := place -> option Obj.
Definition none : Heap := fun _ => None.
Definition put (h : Heap) (o : place) (b : option Obj) : Heap := fun o' => if place_eqb o' o then b else h o'.

Definition withState (p : Position) (s : StateInfo) (l : list StateInfo) : Position :=
  mkPos (byType p) (byColor p) (golds p) (board p) (kingSq p) (hands p) (turn p) (gamePly p) s l.
Definition bare (p : Position) : Position := withState p clearSt [].

(* history[i] *)
Fixpoint nodeAt (l : list (N * Cell)) (i : nat) : option Cell :=
  match l with
  | [] => None
  | (m, c) :: l => if Nat.eqb i (List.length l) then Some c else nodeAt l i
  end.
Fixpoint setNode (l : list (N * Cell)) (i : nat) (c' : Cell) : list (N * Cell) :=
  match l with
  | [] => []
  | (m, c) :: l => if Nat.eqb i (List.length l) then (m, c') :: l else (m, c) :: setNode l i c'
  end.
(* *a: undefined (None) when a points into a dead board or to a removed entry *)
Definition deref (h : Heap) (a : addr) : option Cell :=
  match a with
  | Start o => option_map oStart (h o)
  | Node o i => match h o with Some b => nodeAt (oNodes b) i | None => None end
  end.
(* *a = c *)
Definition store (h : Heap) (a : addr) (c : Cell) : Heap :=
  match a with
  | Start o => match h o with Some b => put h o (Some (mkObj (oFields b) c (oSt b) (oNodes b))) | None => h end
  | Node o i => match h o with Some b => put h o (Some (mkObj (oFields b) (oStart b) (oSt b) (setNode (oNodes b) i c))) | None => h end
  end.

(* push: history.emplace_back(move, StateInfo()); pos.doMove(move, history.back().second), cshogi.h:159-162;
   doMove fills the new StateInfo from *st_, sets its previous to st_ and then st_ to it
   (position.cpp:482-495) *)
Definition hPush (z : Zob) (h : Heap) (o : place) (m : N) : option Heap :=
  match h o with
  | None => None
  | Some b =>
      match deref h (oSt b) with
      | None => None
      | Some c =>
          let p := doMove z (withState (oFields b) (cVal c) []) m in
          Some (put h o (Some (mkObj (bare p) (oStart b) (Node o (List.length (oNodes b)))
                                     ((m, mkCell (st p) (Some (oSt b))) :: oNodes b))))
      end
  end.
(* pop: pos.undoMove(history.back().first); history.pop_back(), cshogi.h:164-169; undoMove leaves the
   StateInfos alone and sets st_ = st_->previous (position.cpp:596-654) *)
Definition hPop (h : Heap) (o : place) : option Heap :=
  match h o with
  | None => None
  | Some b =>
      match oNodes b, deref h (oSt b) with
      | (m, _) :: l, Some c =>
          match cPrev c with
          | None => None
          | Some a => Some (put h o (Some (mkObj (bare (undoMove (withState (oFields b) (cVal c) []) m)) (oStart b) a l)))
          end
      | _, _ => None
      end
  end.
(* push_pass: history.emplace_back(moveNull, StateInfo()); doNullMove<true>(history.back().second),
   cshogi.h:178-181, position.cpp:656-676: the backup goes to the new entry, whose previous stays null, and
   *st_ is changed in place.  The Python method asserts that the side to move is not in check. *)
Definition hPushPass (h : Heap) (o : place) : option Heap :=
  match h o with
  | None => None
  | Some b =>
      match deref h (oSt b) with
      | None => None
      | Some c =>
          let p := withState (oFields b) (cVal c) [] in
          if inCheck p then None
          else
            let h1 := put h o (Some (mkObj (bare (fst (doNull p))) (oStart b) (oSt b)
                                           ((MoveNull, mkCell (snd (doNull p)) None) :: oNodes b))) in
            Some (store h1 (oSt b) (mkCell (st (fst (doNull p))) (cPrev c)))
      end
  end.
(* pop_pass: doNullMove<false>(history.back().second); history.pop_back(), cshogi.h:182-185 *)
Definition hPopPass (h : Heap) (o : place) : option Heap :=
  match h o with
  | None => None
  | Some b =>
      match oNodes b, deref h (oSt b) with
      | (_, backup) :: l, Some c =>
          let p := undoNull (withState (oFields b) (cVal c) []) (cVal backup) in
          let h1 := store h (oSt b) (mkCell (st p) (cPrev c)) in
          match h1 o with
          | None => None
          | Some b1 => Some (put h1 o (Some (mkObj (bare p) (oStart b1) (oSt b1) (tl (oNodes b1)))))
          end
      | _, _ => None
      end
  end.
(* set_turn, cshogi.h:230, position.hpp:395-403: *st_ is changed in place *)
Definition hSetTurn (z : Zob) (h : Heap) (o : place) (t : N) : option Heap :=
  match h o with
  | None => None
  | Some b =>
      match deref h (oSt b) with
      | None => None
      | Some c =>
          let p := setTurn z (withState (oFields b) (cVal c) []) t in
          let h1 := put h o (Some (mkObj (bare p) (oStart b) (oSt b) (oNodes b))) in
          Some (store h1 (oSt b) (mkCell (st p) (cPrev c)))
      end
  end.
(* the constructor from an SFEN and the setters: history.clear(), then pos.set and the like, which begin
   with clear(): everything zero and st_ = &startState_ (position.cpp:3830-3833) *)
Definition hSet (h : Heap) (o : place) (p : Position) : Heap :=
  put h o (Some (mkObj (bare p) (mkCell (st p) None) (Start o) [])).
(* set_pieces takes over turn and gamePly, position.cpp:3405-3435 *)
Definition hSetPieces (z : Zob) (h : Heap) (o : place) (pieces : list N) (inHand : list (list N)) : option Heap :=
  match h o with None => None | Some b => Some (hSet h o (setPieces z (oFields b) pieces inHand)) end.

(* ---- copying ---- *)
(* remap, cshogi.h:484-486, with the map built in lines 471-482 from the startState_ and the n history
   entries of the source to those of the destination; None stands for the exception of at() *)
Definition remap (src dst : place) (n : nat) (a : addr) : option addr :=
  match a with
  | Start o => if place_eqb o src then Some (Start dst) else None
  | Node o i => if place_eqb o src && Nat.ltb i n then Some (Node dst i) else None
  end.
Definition remapLink (src dst : place) (n : nat) (l : option addr) : option (option addr) :=
  match l with
  | None => Some None
  | Some a => option_map Some (remap src dst n a)
  end.
Fixpoint remapNodes (src dst : place) (n : nat) (source destination : list (N * Cell)) : option (list (N * Cell)) :=
  match source, destination with
  | (_, c) :: source, (m, c') :: destination =>
      match remapLink src dst n (cPrev c), remapNodes src dst n source destination with
      | Some l, Some r => Some ((m, mkCell (cVal c') l) :: r)
      | _, _ => None
      end
  | _, r => Some r
  end.
(* relinkStateInfo(other), cshogi.h:469-496 *)
Definition relink (h : Heap) (dst src : place) : option Heap :=
  match h dst, h src with
  | Some d, Some s =>
      let n := List.length (oNodes s) in
      match remapLink src dst n (cPrev (oStart s)), remapNodes src dst n (oNodes s) (oNodes d), remap src dst n (oSt s) with
      | Some l, Some nodes, Some a => Some (put h dst (Some (mkObj (oFields d) (mkCell (cVal (oStart s)) l) a nodes)))
      | _, _, _ => None
      end
  | _, _ => None
  end.
(* the copy constructor and operator= of __Board, cshogi.h:91-101.  pos = other.pos copies the position
   byte by byte, then startState_ = *st_ and st_ = &startState_ (position.cpp:3322-3327); history =
   other.history copies the entries with their pointers. *)
Definition hAssign (h : Heap) (dst src : place) : option Heap :=
  if place_eqb dst src then Some h
  else
    match h src with
    | None => None
    | Some s =>
        match deref h (oSt s) with
        | None => None
        | Some c => relink (put h dst (Some (mkObj (oFields s) c (Start dst) (oNodes s)))) dst src
        end
    end.
(* Board(board=other), copy, __copy__, _cshogi.pyx:360, 364-371: self.__board = __Board(board.__board),
   that is a temporary, the assignment, and the end of the temporary *)
Definition hCopy (h : Heap) (dst src : nat) : option Heap :=
  match hAssign h Tmp (Py src) with
  | None => None
  | Some h1 =>
      match hAssign h1 (Py dst) Tmp with
      | None => None
      | Some h2 => Some (put h2 Tmp None)
      end
  end.

(* ---- what a program does with its boards ---- *)
Inductive call :=
| MakeSfen (n : nat) (sfen : string)                              (* Board(sfen), set_sfen, reset *)
| MakeHcp (n : nat) (data : list N) | MakePsfen (n : nat) (data : list N)   (* set_hcp, set_psfen *)
| MakePieces (n : nat) (pieces : list N) (inHand : list (list N))  (* set_pieces *)
| SetTurn (n : nat) (c : N)                                       (* turn = c *)
| Do (n : nat) (o : op)                                           (* push, pop, push_pass, pop_pass *)
| Copy (dst src : nat)                                            (* dst = src.copy() *)
| Delete (n : nat).                                               (* del n *)

Definition hStep (z : Zob) (h : Heap) (c : call) : option Heap :=
  match c with
  | MakeSfen n s => match setSfen z s with Done b => Some (hSet h (Py n) (bpos b)) | _ => None end
  | MakeHcp n d => match setHcp z d with Done b => Some (hSet h (Py n) (bpos b)) | _ => None end
  | MakePsfen n d => match setPsfen z d with Done b => Some (hSet h (Py n) (bpos b)) | _ => None end
  | MakePieces n pieces inHand => hSetPieces z h (Py n) pieces inHand
  | SetTurn n c => hSetTurn z h (Py n) c
  | Do n (Push m) => hPush z h (Py n) m
  | Do n Pop => hPop h (Py n)
  | Do n PushPass => hPushPass h (Py n)
  | Do n PopPass => hPopPass h (Py n)
  | Copy dst src => hCopy h dst src
  | Delete n => Some (put h (Py n) None)
  end.
Fixpoint hRun (z : Zob) (h : Heap) (l : list call) : option Heap :=
  match l with
  | [] => Some h
  | c :: l => match hStep z h c with Some h' => hRun z h' l | None => None end
  end.

(* ---- what can be seen of a board: the position with the chain of states reached by following the
   pointers from st_, and the history.  Which entries are on the chain tells the moves from the passes. *)
Fixpoint walk (fuel : nat) (h : Heap) (a : addr) : list (addr * StateInfo) :=
  match fuel with
  | O => []
  | S fuel =>
      match deref h a with
      | None => []
      | Some c => (a, cVal c) :: match cPrev c with None => [] | Some a' => walk fuel h a' end
      end
  end.
Fixpoint seen (o : place) (on : list addr) (l : list (N * Cell)) : list (N * option StateInfo) :=
  match l with
  | [] => []
  | (m, c) :: l => (m, if existsb (addr_eqb (Node o (List.length l))) on then None else Some (cVal c)) :: seen o on l
  end.
Definition view (h : Heap) (o : place) : option Board :=
  match h o with
  | None => None
  | Some b =>
      let w := walk (S (List.length (oNodes b))) h (oSt b) in
      match map snd w with
      | [] => None
      | s :: l => Some (mkBoard (withState (oFields b) s l) (seen o (map fst w) (oNodes b)))
      end
  end.
