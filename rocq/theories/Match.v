(* Model of the games of cshogi/cli.py (main): one game between two engines, its verdict, and the count of a match.
   Not modelled: pondering, opening files, mate_win, the files written, and the search for the score in the info line (a
   turn is given its score).  No proofs. *)
From Verif Require Export Command Gen Draw.
Local Open Scope Z_scope.

(* what comes back from an engine: bestmove, the milliseconds it took (rounded up), the score of its last info line *)
Record reply := mkReply { rBest : string; rTime : Z; rPoints : option Z }.
(* arguments draw, resign and inc, cli.py:65-72 *)
Record terms := mkTerms { tDraw : Z; tResign : option Z; tInc : option Z * option Z }.
(* why the loop was left: the flags is_nyugyoku, is_illegal, is_repetition_win, is_repetition_lose, is_fourfold_repetition, is_timeup, cli.py:267-273 *)
Inductive flag := NoFlag | Nyugyoku | Illegal | RepWin | RepLose | Fourfold | Timeup.
Definition ofSide {A} (us : N) (x : A * A) : A := if (us =? Black)%N then fst x else snd x.
Definition setSide {A} (us : N) (v : A) (x : A * A) : A * A := if (us =? Black)%N then (v, snd x) else (fst x, v).
(* remain_time, cli.py:325-338; None: the time is up *)
Definition charge (inc remain : option Z) (time : Z) : option (option Z) :=
  match remain with
  | None => Some None
  | Some r =>
      let r := (match inc with Some i => r + i | None => r end) - time in
      if r <? 0 then if -1000 <? r then Some (Some 0) else None else Some (Some r)
  end.
(* the loop of a game, cli.py:281-413.  keys are the hashes of the positions reached (repetition_hash).  The result is
   Done None when the replies are used up. *)
Fixpoint gameLoop (z : Zob) (g : terms) (replies : list reply) (b : Board) (keys : list N) (remain : option Z * option Z) : outcome (option (Board * flag)) :=
  if tDraw g <? gamePly (bpos b) then Done (Some (b, NoFlag))
  else
    match replies with
    | [] => Done None
    | r :: replies =>
        let us := turn (bpos b) in
        match charge (ofSide us (tInc g)) (ofSide us remain) (rTime r) with
        | None => Done (Some (b, Timeup))
        | Some time =>
            if match tResign g, rPoints r with Some x, Some s => s <=? - x | _, _ => false end then Done (Some (b, NoFlag))
            else if String.eqb (rBest r) "resign" then Done (Some (b, NoFlag))
            else if String.eqb (rBest r) "win" then Done (Some (b, Nyugyoku))
            else
              match usiToMove (bpos b) (rBest r) with
              | None => Undefined
              | Some m =>
                  if negb (boardMoveIsLegal (bpos b) m) then Done (Some (b, Illegal))
                  else if negb (inTables m) then Undefined
                  else
                    let b := push z b m in
                    let key := getKey (bpos b) in
                    let keys := key :: keys in
                    if (count_occ N.eq_dec keys key =? 4)%nat then
                      match isDraw (bpos b) 2147483647 with
                      | None => Undefined
                      | Some RepetitionWin => Done (Some (b, RepWin))
                      | Some RepetitionLose => Done (Some (b, RepLose))
                      | Some _ => Done (Some (b, Fourfold))
                      end
                    else if isGameOver (bpos b) then Done (Some (b, NoFlag))
                    else gameLoop z g replies b keys (setSide us time remain)
              end
        end
    end.
(* win, cli.py:424-456: 0 Black, 1 White, 2 a draw *)
Definition winOf (g : terms) (b : Board) (f : flag) : N :=
  if if isGameOver (bpos b) then false else tDraw g <? gamePly (bpos b) then 2%N
  else match f with
       | Fourfold => 2%N
       | Nyugyoku | RepWin => turn (bpos b)
       | NoFlag | Illegal | RepLose | Timeup => opp (turn (bpos b))
       end.
(* engine1_won and engine2_won, cli.py:458-475: won as Black and White, lost as Black and White, drawn as Black and White;
   swapped: engine 2 has Black *)
Record standing := mkStanding { wonB : N; wonW : N; lostB : N; lostW : N; drawnB : N; drawnW : N }.
Definition noGames : standing := mkStanding 0 0 0 0 0 0.
Definition addWon (white : bool) (c : standing) : standing := let '(mkStanding a b c d e f) := c in if white then mkStanding a (b + 1) c d e f else mkStanding (a + 1) b c d e f.
Definition addLost (white : bool) (c : standing) : standing := let '(mkStanding a b c d e f) := c in if white then mkStanding a b c (d + 1) e f else mkStanding a b (c + 1) d e f.
Definition addDrawn (white : bool) (c : standing) : standing := let '(mkStanding a b c d e f) := c in if white then mkStanding a b c d e (f + 1) else mkStanding a b c d (e + 1) f.
Definition countGame (swapped : bool) (win : N) (c : standing * standing) : standing * standing :=
  let '(c1, c2) := c in
  if (win =? 2)%N then (addDrawn swapped c1, addDrawn (negb swapped) c2)
  else if (if swapped then win =? White else win =? Black)%N then (addWon swapped c1, addLost (negb swapped) c2)
  else (addLost swapped c1, addWon (negb swapped) c2).
(* the games of a match: wins are the values of win; engines change sides after every game unless no_swap, cli.py:198-215 *)
Fixpoint countMatch (noSwap : bool) (n : nat) (wins : list N) (c : standing * standing) : standing * standing :=
  match wins with [] => c | w :: wins => countMatch noSwap (S n) wins (countGame (if noSwap then false else negb (Nat.even n)) w c) end.
