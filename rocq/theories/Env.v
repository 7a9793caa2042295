(* Model of gym_shogi/envs/shogi_env.pyx: ShogiEnv.reset and ShogiEnv.step.  Rewards are whole numbers.  No proofs. *)
From Verif Require Export Match.
Local Open Scope Z_scope.

(* board, repetition_hash as the list of the hashes counted, is_draw; the list of moves is used for drawing only and left out *)
Record env := mkEnv { eBoard : Board; eKeys : list N; eDraw : option Rep }.
(* reset, shogi_env.pyx:30-56, after the board has been set *)
Definition envReset (b : Board) : env := mkEnv b [getKey (bpos b)] None.
(* step, shogi_env.pyx:80-123; Thrown is AssertionError *)
Definition envStep (z : Zob) (e : env) (m : N) : outcome (env * (Z * bool * option Rep)) :=
  if (m =? 0)%N then Done (e, (-1, true, None))
  else if negb (boardMoveIsLegal (bpos (eBoard e)) m) then Thrown
  else if negb (inTables m) then Undefined
  else
    let b := push z (eBoard e) m in
    let key := getKey (bpos b) in
    let keys := key :: eKeys e in
    if (count_occ N.eq_dec keys key =? 4)%nat then
      match isDraw (bpos b) 2147483647 with
      | None => Undefined
      | Some r => Done (mkEnv b keys (Some r), (match r with RepetitionWin => -1 | RepetitionLose => 1 | _ => 0 end, true, Some r))
      end
    else if isGameOver (bpos b) then Done (mkEnv b keys (eDraw e), (1, true, eDraw e))
    else Done (mkEnv b keys (eDraw e), (0, false, eDraw e)).
