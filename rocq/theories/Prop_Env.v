(* C59: the gym environment.  EnvSpec.v says what is claimed; the proofs are in EnvProofs.v. *)
From Verif Require Import EnvProofs MatchExamples.
Local Open Scope Z_scope.

(* After any line of legal moves, a step with a legal move plays it and tells whether the game is over and the reward: a position
   that has come for the fourth time, the first one counted, is judged as a repetition; mate is a win; otherwise the game goes
   on.  Unless a position came for the fourth time there is no draw status. *)
Theorem C59_step : forall rp rh b0 line e m, let z := initZobrist rp rh in let P0 := abs (bpos b0) in set_up z b0 -> well_formed P0 -> env_after z b0 line e ->
  legal (after P0 line) m -> no_collision z P0 (Some m :: line) intMax ->
  exists e' reward done d, envStep z e (code (bpos (eBoard e)) m) = Done (e', (reward, done, d)) /\ said_of z P0 line m reward done d /\
    same_position (abs (bpos (eBoard e'))) (play (after P0 line) m) /\ (unrepeated z P0 (Some m :: line) -> d = None).
Proof. exact (fun rp rh b0 line e m Su W => env_step (initZobrist rp rh) b0 (okZob_init rp rh) Su W line e m). Qed.
Print Assumptions C59_step.
(* Every line of legal moves can be stepped through. *)
Theorem C59_goes_on : forall rp rh b0 line e m, let z := initZobrist rp rh in let P0 := abs (bpos b0) in set_up z b0 -> well_formed P0 -> env_after z b0 line e ->
  legal (after P0 line) m -> exists e', env_after z b0 (Some m :: line) e'.
Proof. exact (fun rp rh b0 line e m Su W => env_exists (initZobrist rp rh) b0 (okZob_init rp rh) Su W line e m). Qed.
Print Assumptions C59_goes_on.
(* A move that is not legal raises AssertionError, unless its number is 0; 0 gives the game up and changes nothing. *)
Theorem C59_refused : forall rp rh b0 line e m, let z := initZobrist rp rh in let P0 := abs (bpos b0) in set_up z b0 -> well_formed P0 -> env_after z b0 line e ->
  (fits (after P0 line) m -> ~ legal (after P0 line) m -> code (bpos (eBoard e)) m <> 0%N -> envStep z e (code (bpos (eBoard e)) m) = Thrown) /\
  envStep z e 0 = Done (e, (-1, true, None)).
Proof. exact (fun rp rh b0 line e m Su W H => conj (env_refuses (initZobrist rp rh) b0 (okZob_init rp rh) Su W line e m H) (env_resigns (initZobrist rp rh) e)). Qed.
Print Assumptions C59_refused.
Example C59_case : set_up z0 start1 /\ well_formed (abs (bpos start1)) /\ exists e, env_after z0 start1 [Some (Go (7, 7) (7, 6) false)] e /\
  legal (after (abs (bpos start1)) [Some (Go (7, 7) (7, 6) false)]) (Go (3, 3) (3, 4) false) /\
  no_collision z0 (abs (bpos start1)) [Some (Go (3, 3) (3, 4) false); Some (Go (7, 7) (7, 6) false)] intMax.
Proof.
  split; [exact start1_set_up|]. split; [exact start1_wf|]. destruct two_legal1 as (A & B & _). destruct (env_exists z0 start1 okZob0 start1_set_up start1_wf [] _ _ (env_start z0 start1) A) as [e H]. exists e. split; [exact H|]. split; [exact B|].
  intros i (_ & I4 & _ & U & _). cbn in U. lia.
Qed.
(* From the initial position the players come back to it three times. *)
Fixpoint stepAll (z : Zob) (e : env) (ms : list move) : list (Z * bool * option Rep) :=
  match ms with [] => [] | m :: ms => match envStep z e (code (bpos (eBoard e)) m) with Done (e, x) => x :: stepAll z e ms | _ => [] end end.
Example C59_case_fourth : stepAll z1 (envReset (startIn z1)) (cycle ++ cycle ++ cycle) = repeat (0, false, None) 11 ++ [(0, true, Some RepetitionDraw)].
Proof. vm_compute. reflexivity. Qed.
