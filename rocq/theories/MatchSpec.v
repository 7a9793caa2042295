(* What the theorems on matches say, apart from the model: the rules by which a game between two engines is judged. *)
From Verif Require Export Match CommandSpec ClaimsGen Claims DrawSpec.
Local Open Scope Z_scope.

Inductive verdict := Won (c : color) | Drawn.
Definition verdict_code (v : verdict) : N := match v with Won Sente => 0%N | Won Gote => 1%N | Drawn => 2%N end.
(* a clock of each side, None: not limited; the time left after a turn.  Up to a second too much is forgiven. *)
Definition mine {A} (c : color) (x : A * A) : A := match c with Sente => fst x | Gote => snd x end.
Definition with_mine {A} (c : color) (v : A) (x : A * A) : A * A := match c with Sente => (v, snd x) | Gote => (fst x, v) end.
Definition extra (inc : option Z) : Z := match inc with Some i => i | None => 0 end.
Inductive in_time (inc : option Z) : option Z -> Z -> option Z -> Prop :=
  | no_limit : forall t, in_time inc None t None
  | time_left : forall r t, 0 <= r + extra inc - t -> in_time inc (Some r) t (Some (r + extra inc - t))
  | forgiven : forall r t, -1000 < r + extra inc - t < 0 -> in_time inc (Some r) t (Some 0).
Definition too_late (inc remain : option Z) (t : Z) : Prop := exists r, remain = Some r /\ r + extra inc - t <= -1000.
(* the score at which a game is given up *)
Definition hopeless (g : terms) (r : reply) : Prop := exists x s, tResign g = Some x /\ rPoints r = Some s /\ s <= - x.
(* of the positions reached, fewer than three, or three, have the hash of this one *)
Definition alike (z : Zob) (P : position) (seen : list position) : nat := List.length (filter (fun Q => (scratch_hash z Q =? scratch_hash z P)%Z) seen).
Definition seldom (z : Zob) (P : position) (seen : list position) : Prop := (alike z P seen < 3)%nat.
Definition third_time (z : Zob) (P : position) (seen : list position) : Prop := alike z P seen = 3%nat.
(* the positions reached by a line (the latest move first), without the first one *)
Fixpoint reached (P0 : position) (line : list (option move)) : list position := match line with [] => [] | m :: l => after P0 line :: reached P0 l end.
(* a position that comes for the fourth time: the side that gave check with every move loses, otherwise it is a draw *)
Definition repetition_verdict (c : color) (r : Rep) : verdict := match r with RepetitionWin => Won c | RepetitionLose => Won (other c) | _ => Drawn end.

(* judged z g P0 n0 line clocks replies v ms: a game from P0, in which n0 is the number of the first move, has come by line (the
   latest move first) to the position P; the clocks are as given.  Then the replies lead to the verdict v after the moves ms. *)
Inductive judged (z : Zob) (g : terms) (P0 : position) (n0 : Z) : list (option move) -> option Z * option Z -> list reply -> verdict -> list move -> Prop :=
  | too_long : forall line cl rs, let P := after P0 line in let n := n0 + Z.of_nat (List.length line) in
      tDraw g < n -> (exists m, legal P m) -> judged z g P0 n0 line cl rs Drawn []
  | time_up : forall line cl r rs, let P := after P0 line in let n := n0 + Z.of_nat (List.length line) in
      n <= tDraw g -> too_late (mine (side P) (tInc g)) (mine (side P) cl) (rTime r) -> judged z g P0 n0 line cl (r :: rs) (Won (other (side P))) []
  | given_up : forall line cl r rs t, let P := after P0 line in let n := n0 + Z.of_nat (List.length line) in
      n <= tDraw g -> in_time (mine (side P) (tInc g)) (mine (side P) cl) (rTime r) t -> hopeless g r -> judged z g P0 n0 line cl (r :: rs) (Won (other (side P))) []
  | resigned : forall line cl r rs t, let P := after P0 line in let n := n0 + Z.of_nat (List.length line) in
      n <= tDraw g -> in_time (mine (side P) (tInc g)) (mine (side P) cl) (rTime r) t -> rBest r = "resign"%string -> judged z g P0 n0 line cl (r :: rs) (Won (other (side P))) []
  | declared : forall line cl r rs t, let P := after P0 line in let n := n0 + Z.of_nat (List.length line) in
      n <= tDraw g -> in_time (mine (side P) (tInc g)) (mine (side P) cl) (rTime r) t -> ~ hopeless g r -> rBest r = "win"%string -> judged z g P0 n0 line cl (r :: rs) (Won (side P)) []
  | illegal_move : forall line cl r rs t m, let P := after P0 line in let n := n0 + Z.of_nat (List.length line) in
      n <= tDraw g -> in_time (mine (side P) (tInc g)) (mine (side P) cl) (rTime r) t ->
      rBest r = usi_text m -> fits P m -> ~ legal P m -> judged z g P0 n0 line cl (r :: rs) (Won (other (side P))) []
  | mated : forall line cl r rs t m, let P := after P0 line in let n := n0 + Z.of_nat (List.length line) in
      n <= tDraw g -> in_time (mine (side P) (tInc g)) (mine (side P) cl) (rTime r) t ->
      ~ hopeless g r -> rBest r = usi_text m -> legal P m -> seldom z (play P m) (reached P0 line) -> (forall m', ~ legal (play P m) m') ->
      judged z g P0 n0 line cl (r :: rs) (Won (side P)) [m]
  | repeated : forall line cl r rs t m rep, let P := after P0 line in let n := n0 + Z.of_nat (List.length line) in
      n < tDraw g -> in_time (mine (side P) (tInc g)) (mine (side P) cl) (rTime r) t ->
      ~ hopeless g r -> rBest r = usi_text m -> legal P m -> third_time z (play P m) (reached P0 line) ->
      no_collision z P0 (Some m :: line) intMax -> repetition P0 (Some m :: line) intMax rep ->
      judged z g P0 n0 line cl (r :: rs) (repetition_verdict (side (play P m)) rep) [m]
  (* by the last move allowed a repetition is a draw, also after perpetual check *)
  | repeated_late : forall line cl r rs t m, let P := after P0 line in let n := n0 + Z.of_nat (List.length line) in
      n = tDraw g -> in_time (mine (side P) (tInc g)) (mine (side P) cl) (rTime r) t ->
      ~ hopeless g r -> rBest r = usi_text m -> legal P m -> third_time z (play P m) (reached P0 line) -> (exists m', legal (play P m) m') ->
      judged z g P0 n0 line cl (r :: rs) Drawn [m]
  | played : forall line cl r rs t m v ms, let P := after P0 line in let n := n0 + Z.of_nat (List.length line) in
      n <= tDraw g -> in_time (mine (side P) (tInc g)) (mine (side P) cl) (rTime r) t ->
      ~ hopeless g r -> rBest r = usi_text m -> legal P m -> seldom z (play P m) (reached P0 line) -> (exists m', legal (play P m) m') ->
      judged z g P0 n0 (Some m :: line) (with_mine (side P) t cl) rs v ms -> judged z g P0 n0 line cl (r :: rs) v (m :: ms).

(* the count of a match: game i is played with the first engine as Black when the engines keep their sides or i is even *)
Definition side_of_first (keep : bool) (i : nat) : color := if keep then Sente else if Nat.even i then Sente else Gote.
Definition score_of (me : color) (v : verdict) : standing :=
  match v, me with
  | Drawn, Sente => mkStanding 0 0 0 0 1 0 | Drawn, Gote => mkStanding 0 0 0 0 0 1
  | Won Sente, Sente => mkStanding 1 0 0 0 0 0 | Won Gote, Gote => mkStanding 0 1 0 0 0 0
  | Won Gote, Sente => mkStanding 0 0 1 0 0 0 | Won Sente, Gote => mkStanding 0 0 0 1 0 0
  end.
Definition both (a b : standing) : standing := mkStanding (wonB a + wonB b) (wonW a + wonW b) (lostB a + lostB b) (lostW a + lostW b) (drawnB a + drawnB b) (drawnW a + drawnW b).
Fixpoint tally (keep : bool) (who : color -> color) (i : nat) (vs : list verdict) : standing :=
  match vs with [] => mkStanding 0 0 0 0 0 0 | v :: vs => both (score_of (who (side_of_first keep i)) v) (tally keep who (S i) vs) end.
Definition games_of (c : standing) : N := (wonB c + wonW c + lostB c + lostW c + drawnB c + drawnW c)%N.
