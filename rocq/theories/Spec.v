(* The rules of shogi, written for a reader who has not seen the model or the C++ code.
   Nothing in this file refers to the model.  Squares are (file, rank) pairs, file 1..9 counted from
   the right and rank 1..9 from the top, as in game records. *)
From Coq Require Export ZArith List Bool.
Export ListNotations.
Local Open Scope Z_scope.

Inductive color := Sente | Gote.
Definition other (c : color) : color := match c with Sente => Gote | Gote => Sente end.

Inductive kind :=
  | FU | KY | KE | GI | KI | KA | HI | OU      (* pawn lance knight silver gold bishop rook king *)
  | TO | NY | NK | NG | UM | RY.               (* promoted pawn lance knight silver, horse, dragon *)

Definition promote (k : kind) : option kind :=
  match k with
  | FU => Some TO | KY => Some NY | KE => Some NK | GI => Some NG | KA => Some UM | HI => Some RY
  | _ => None
  end.
(* the kind a piece becomes when it is captured *)
Definition unpromote (k : kind) : kind :=
  match k with
  | TO => FU | NY => KY | NK => KE | NG => GI | UM => KA | RY => HI
  | k => k
  end.
Definition kind_eqb (a b : kind) : bool :=
  match a, b with
  | FU, FU | KY, KY | KE, KE | GI, GI | KI, KI | KA, KA | HI, HI | OU, OU
  | TO, TO | NY, NY | NK, NK | NG, NG | UM, UM | RY, RY => true
  | _, _ => false
  end.
Definition color_eqb (a b : color) : bool :=
  match a, b with Sente, Sente | Gote, Gote => true | _, _ => false end.

Definition square := (Z * Z)%type.
Definition on_board (s : square) : Prop := 1 <= fst s <= 9 /\ 1 <= snd s <= 9.
Definition square_eqb (s t : square) : bool := (fst s =? fst t) && (snd s =? snd t).

(* A position: what stands on each square, what each side holds, who is to move. *)
Record position := mkPosition {
  at_square : square -> option (color * kind);
  in_hand : color -> kind -> Z;
  side : color
}.

(* ---- how pieces move ---- *)
(* Displacements (files, ranks forward); forward is towards rank 1 for Sente and rank 9 for Gote. *)
Definition forward (c : color) : Z := match c with Sente => -1 | Gote => 1 end.
Definition orthogonal : list (Z * Z) := [(0, 1); (0, -1); (1, 0); (-1, 0)].
Definition diagonal : list (Z * Z) := [(1, 1); (-1, 1); (1, -1); (-1, -1)].
Definition gold_steps : list (Z * Z) := [(0, 1); (1, 1); (-1, 1); (1, 0); (-1, 0); (0, -1)].
(* single steps (and the knight's jump) *)
Definition steps (k : kind) : list (Z * Z) :=
  match k with
  | FU => [(0, 1)]
  | KE => [(1, 2); (-1, 2)]
  | GI => [(0, 1); (1, 1); (-1, 1); (1, -1); (-1, -1)]
  | KI | TO | NY | NK | NG => gold_steps
  | OU => orthogonal ++ diagonal
  | UM => orthogonal
  | RY => diagonal
  | KY | KA | HI => []
  end.
(* directions in which the piece moves any distance *)
Definition slides (k : kind) : list (Z * Z) :=
  match k with
  | KY => [(0, 1)]
  | KA | UM => diagonal
  | HI | RY => orthogonal
  | _ => []
  end.
(* the square n displacements d away from s, seen by colour c *)
Definition displaced (c : color) (s : square) (d : Z * Z) (n : Z) : square :=
  (fst s + n * fst d, snd s + n * (forward c * snd d)).

(* A piece of colour c and kind k on s attacks t: t is one step away, or some distance n along a
   sliding direction with every square strictly between empty. *)
Definition attacks (occupied : square -> Prop) (c : color) (k : kind) (s t : square) : Prop :=
  (exists d, In d (steps k) /\ t = displaced c s d 1) \/
  (exists d n, In d (slides k) /\ 1 <= n /\ t = displaced c s d n /\
               forall i, 1 <= i < n -> ~ occupied (displaced c s d i)).

Definition occupied (P : position) (s : square) : Prop := at_square P s <> None.
(* the piece on s, of colour c, attacks t *)
Definition piece_attacks (P : position) (c : color) (s t : square) : Prop :=
  exists k, at_square P s = Some (c, k) /\ attacks (occupied P) c k s t.
Definition attacked_by (P : position) (c : color) (t : square) : Prop :=
  exists s, on_board s /\ piece_attacks P c s t.
Definition in_check (P : position) (c : color) : Prop :=
  exists s, on_board s /\ at_square P s = Some (c, OU) /\ attacked_by P (other c) s.

(* ---- moves ---- *)
Inductive move :=
  | Drop (k : kind) (t : square)
  | Go (s t : square) (promoting : bool).

(* rank counted from the far edge of colour c: 1 is the last rank *)
Definition rank_for (c : color) (t : square) : Z := match c with Sente => snd t | Gote => 10 - snd t end.
(* a piece of this kind on t could never move again *)
Definition dead_end (c : color) (k : kind) (t : square) : Prop :=
  match k with
  | FU | KY => rank_for c t = 1
  | KE => rank_for c t <= 2
  | _ => False
  end.
Definition in_zone (c : color) (t : square) : Prop := rank_for c t <= 3.

(* the rules, except for leaving the own king attacked and mate by pawn drop *)
Definition pseudo_legal (P : position) (m : move) : Prop :=
  let c := side P in
  match m with
  | Drop k t =>
      on_board t /\ at_square P t = None /\ 0 < in_hand P c k /\ ~ dead_end c k t /\
      (k = FU -> forall s, on_board s -> fst s = fst t -> at_square P s <> Some (c, FU))
  | Go s t promoting =>
      on_board s /\ on_board t /\
      exists k, at_square P s = Some (c, k) /\ attacks (occupied P) c k s t /\
        (forall k', at_square P t <> Some (c, k')) /\
        (promoting = true -> promote k <> None /\ (in_zone c s \/ in_zone c t)) /\
        (promoting = false -> ~ dead_end c k t)
  end.

(* the position after a move *)
Definition put (b : square -> option (color * kind)) (t : square) (x : option (color * kind)) :=
  fun s => if square_eqb s t then x else b s.
Definition add_hand (h : color -> kind -> Z) (c : color) (k : kind) (n : Z) :=
  fun c' k' => h c' k' + (if color_eqb c' c && kind_eqb k' k then n else 0).
Definition play (P : position) (m : move) : position :=
  let c := side P in
  match m with
  | Drop k t => mkPosition (put (at_square P) t (Some (c, k))) (add_hand (in_hand P) c k (-1)) (other c)
  | Go s t promoting =>
      let moved := match at_square P s with
                   | Some (c', k) => Some (c', if promoting then match promote k with Some k' => k' | None => k end else k)
                   | None => None end in
      let hand := match at_square P t with
                  | Some (_, k) => add_hand (in_hand P) c (unpromote k) 1
                  | None => in_hand P end in
      mkPosition (put (put (at_square P) s None) t moved) hand (other c)
  end.

(* legal, apart from the ban on mating by a pawn drop *)
Definition legal_but_drop_mate (P : position) (m : move) : Prop :=
  pseudo_legal P m /\ ~ in_check (play P m) (side P).
(* a pawn drop that checks and leaves the opponent without a reply *)
Definition pawn_drop_mate (P : position) (m : move) : Prop :=
  (exists t, m = Drop FU t) /\ in_check (play P m) (other (side P)) /\
  forall m', ~ legal_but_drop_mate (play P m) m'.
Definition legal (P : position) (m : move) : Prop := legal_but_drop_mate P m /\ ~ pawn_drop_mate P m.

(* two positions that no observation of squares, hands and side to move can tell apart *)
Definition same_position (P Q : position) : Prop :=
  (forall s, at_square P s = at_square Q s) /\
  (forall c k, in_hand P c k = in_hand Q c k) /\ side P = side Q.

(* ---- positions that can be set up with one shogi set ---- *)
Definition digits : list Z := [1; 2; 3; 4; 5; 6; 7; 8; 9].
Definition all_squares : list square := flat_map (fun f => map (fun r => (f, r)) digits) digits.
Definition hand_kinds : list kind := [FU; KY; KE; GI; KI; KA; HI].
Definition full_set (k : kind) : Z :=
  match k with FU => 18 | KY | KE | GI | KI => 4 | KA | HI => 2 | OU => 2 | _ => 0 end.
(* how many pieces are k, or were k before promotion: on the board, and altogether *)
Definition on_board_count (P : position) (k : kind) : Z :=
  Z.of_nat (length (filter (fun s => match at_square P s with Some (_, k') => kind_eqb (unpromote k') k | None => false end)
                           all_squares)).
Definition total (P : position) (k : kind) : Z := on_board_count P k + in_hand P Sente k + in_hand P Gote k.

(* Pieces only on squares, at most one king a side (tsume problems have one or none), no more
   pieces than a set has, and the side that has just moved is not in check. *)
Record proper (P : position) : Prop := {
  pr_board : forall s, at_square P s <> None -> on_board s;
  pr_kings : forall c s t, at_square P s = Some (c, OU) -> at_square P t = Some (c, OU) -> s = t;
  pr_hand : forall c k, 0 <= in_hand P c k;
  pr_hand0 : forall c k, ~ In k hand_kinds -> in_hand P c k = 0;
  pr_count : forall k, In k hand_kinds -> total P k <= full_set k;
  pr_safe : ~ in_check P (other (side P))
}.
(* moreover both kings stand, no piece is stuck at the edge and no file has two pawns of one side *)
Record well_formed (P : position) : Prop := {
  wf_proper : proper P;
  wf_kings : forall c, exists s, at_square P s = Some (c, OU);
  wf_dead : forall s c k, at_square P s = Some (c, k) -> ~ dead_end c k s;
  wf_nifu : forall c s t, at_square P s = Some (c, FU) -> at_square P t = Some (c, FU) -> fst s = fst t -> s = t
}.

(* ---- games ---- *)
(* giving up the right to move *)
Definition pass (P : position) : position := mkPosition (at_square P) (in_hand P) (other (side P)).
(* A line of play from P0: moves (Some m) and passes (None), latest first. *)
Fixpoint after (P0 : position) (line : list (option move)) : position :=
  match line with
  | [] => P0
  | Some m :: line => play (after P0 line) m
  | None :: line => pass (after P0 line)
  end.
(* What a client of a board does: play a legal move, take the last move back, pass when not in
   check, take the last pass back.  game may P0 es line: doing es from P0 is allowed and leaves line.
   may line restricts when a pass is allowed (any_pass: always). *)
Inductive event := Play (m : move) | Unplay | Pass | Unpass.
Inductive game (may : list (option move) -> Prop) (P0 : position) : list event -> list (option move) -> Prop :=
  | g_start : game may P0 [] []
  | g_play es line m : game may P0 es line -> legal_but_drop_mate (after P0 line) m -> game may P0 (es ++ [Play m]) (Some m :: line)
  | g_unplay es line m : game may P0 es (Some m :: line) -> game may P0 (es ++ [Unplay]) line
  | g_pass es line : game may P0 es line -> ~ in_check (after P0 line) (side (after P0 line)) -> may line ->
      game may P0 (es ++ [Pass]) (None :: line)
  | g_unpass es line : game may P0 es (None :: line) -> game may P0 (es ++ [Unpass]) line.
Definition any_pass (line : list (option move)) : Prop := True.
(* no pass directly after a pass *)
Definition no_double_pass (line : list (option move)) : Prop := match line with None :: _ => False | _ => True end.
