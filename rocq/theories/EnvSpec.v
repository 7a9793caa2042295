(* What the theorems on ShogiEnv say, apart from the model. *)
From Verif Require Export Env MatchSpec.
Local Open Scope Z_scope.

(* the environment after a line of legal moves (the latest first) from the board it was reset to *)
Inductive env_after (z : Zob) (b0 : Board) : list (option move) -> env -> Prop :=
  | env_start : env_after z b0 [] (envReset b0)
  | env_next : forall line e m e' x, env_after z b0 line e -> legal (after (abs (bpos b0)) line) m -> envStep z e (code (bpos (eBoard e)) m) = Done (e', x) ->
      env_after z b0 (Some m :: line) e'.
(* the positions of the game, the first one included *)
Definition seen (P0 : position) (line : list (option move)) : list position := reached P0 line ++ [P0].
(* the reward of the side that has moved; the judgement is that of the side to move *)
Definition reward_of (r : Rep) : Z := match r with RepetitionWin => -1 | RepetitionLose => 1 | _ => 0 end.
(* what step says of a move: the fourth time of a position, mate, or that the game goes on *)
Inductive said_of (z : Zob) (P0 : position) (line : list (option move)) (m : move) : Z -> bool -> option Rep -> Prop :=
  | fourth_time : forall r, third_time z (play (after P0 line) m) (seen P0 line) -> repetition P0 (Some m :: line) intMax r -> said_of z P0 line m (reward_of r) true (Some r)
  | no_moves : forall d, ~ third_time z (play (after P0 line) m) (seen P0 line) -> (forall m', ~ legal (play (after P0 line) m) m') -> said_of z P0 line m 1 true d
  | goes_on : forall d, ~ third_time z (play (after P0 line) m) (seen P0 line) -> ~ (forall m', ~ legal (play (after P0 line) m) m') -> said_of z P0 line m 0 false d.
(* while no position has come for the fourth time, there is no draw status *)
Inductive unrepeated (z : Zob) (P0 : position) : list (option move) -> Prop :=
  | unrepeated_start : unrepeated z P0 []
  | unrepeated_next : forall line m, unrepeated z P0 line -> ~ third_time z (play (after P0 line) m) (seen P0 line) -> unrepeated z P0 (Some m :: line).
