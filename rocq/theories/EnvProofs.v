(* ShogiEnv: proofs. *)
From Verif Require Export EnvSpec MatchProofs.
From Verif Require Import KeyProofs Rules Bridge IsLegal GenClaims BoardFinal PlayProofs TextProofs CommandFinal ClaimProofs DrawProofs DrawFinal.
Local Open Scope Z_scope.

Section Envs.
Variables (z : Zob) (b0 : Board).
Hypothesis OK : okZob z.
Hypothesis Su : set_up z b0.
Hypothesis Wf : well_formed (abs (bpos b0)).
Let P0 := abs (bpos b0).
Definition tracks (e : env) (line : list (option move)) : Prop :=
  agrees z (eBoard e) (after P0 line) (gamePly (bpos b0) + Z.of_nat (List.length line)) /\ hashes z (eKeys e) (seen P0 line) /\ follows z b0 (eBoard e) line.
Lemma key_of b P n : agrees z b P n -> Z.of_N (getKey (bpos b)) = scratch_hash z P.
Proof. intros A. rewrite (hash_reachable z b OK (proj1 A)). apply scratch_same. apply A. Qed.
Lemma start_tracks : tracks (envReset b0) [].
Proof.
  assert (A : agrees z b0 P0 (gamePly (bpos b0) + 0)) by (split; [exact (set_up_reachable z b0 Su)|split; [exact Wf|split; [apply PlayProofs.same_refl|lia]]]).
  split; [exact A|]. split; [constructor; [exact (key_of _ _ _ A)|constructor]|]. exists []. split; [constructor|reflexivity].
Qed.
(* what a step with a legal move does *)
Lemma step_legal e line m : tracks e line -> legal (after P0 line) m -> exists b1 keys r, b1 = push z (eBoard e) (code (bpos (eBoard e)) m) /\ isDraw (bpos b1) intMax = Some r /\
  (no_collision z P0 (Some m :: line) intMax -> repetition P0 (Some m :: line) intMax r) /\ (forall d, tracks (mkEnv b1 keys d) (Some m :: line)) /\
  (isGameOver (bpos b1) = true <-> forall m', ~ legal (play (after P0 line) m) m') /\
  envStep z e (code (bpos (eBoard e)) m) =
    if (S (alike z (play (after P0 line) m) (seen P0 line)) =? 4)%nat then Done (mkEnv b1 keys (Some r), (reward_of r, true, Some r))
    else if isGameOver (bpos b1) then Done (mkEnv b1 keys (eDraw e), (1, true, eDraw e)) else Done (mkEnv b1 keys (eDraw e), (0, false, eDraw e)).
Proof.
  intros (A & K & Fo) I. destruct (pushed z OK _ _ _ m A I) as (b1 & Eb & A1 & I' & U & Lg & Tb). pose proof (key_of b1 _ _ A1) as Kh.
  pose proof (follows_push z b0 _ line m Fo I) as Fo1. rewrite <- Eb in Fo1. pose proof Fo1 as (es & Ge & Ec). destruct (draw_never_missed z b0 es (Some m :: line) intMax OK Su Ge) as (b2 & r & Ec2 & D & _). rewrite Ec in Ec2. injection Ec2 as <-.
  exists b1, (getKey (bpos b1) :: eKeys e), r. split; [exact Eb|]. split; [exact D|]. split; [|split; [|split]].
  - intros NC. destruct (draw_exact z b0 es (Some m :: line) intMax OK Su Ge NC) as (b3 & r3 & Ec3 & D3 & R3). rewrite Ec in Ec3. injection Ec3 as <-. rewrite D in D3. injection D3 as <-. exact R3.
  - intros d. split; [|split; [|exact Fo1]].
    + cbn [eBoard after List.length]. replace (gamePly (bpos b0) + Z.of_nat (S (List.length line))) with (gamePly (bpos b0) + Z.of_nat (List.length line) + 1) by lia. exact A1.
    + cbn [eKeys]. unfold seen. cbn [reached app]. constructor; [exact Kh|exact K].
  - exact (over_same z OK b1 _ _ A1).
  - unfold envStep. destruct (N.eqb_spec (code (bpos (eBoard e)) m) 0) as [Z0|_]; [rewrite Z0, zero_illegal in Lg; discriminate Lg|]. rewrite Lg, Tb. cbn [negb]. rewrite <- Eb. cbv zeta. cbn [count_occ].
    destruct (N.eq_dec (getKey (bpos b1)) (getKey (bpos b1))) as [_|X]; [|congruence]. rewrite (count_hashes z _ _ _ _ K Kh). change 2147483647 with intMax. rewrite D. reflexivity.
Qed.
Lemma env_tracks line e : env_after z b0 line e -> tracks e line.
Proof.
  intros H. induction H as [|line e m e' x H IH I E]; [exact start_tracks|]. destruct (step_legal e line m IH I) as (b1 & keys & r & _ & _ & _ & T & _ & S). rewrite S in E.
  destruct (_ =? 4)%nat; [injection E as <- _; apply T|]. destruct (isGameOver (bpos b1)); injection E as <- _; apply T.
Qed.
Lemma quiet_draw line e : env_after z b0 line e -> unrepeated z P0 line -> eDraw e = None.
Proof.
  intros H. induction H as [|line e m e' x H IH I E]; intros Q; [reflexivity|]. inversion Q as [|? ? Q1 N]; subst. destruct (step_legal e line m (env_tracks _ _ H) I) as (b1 & keys & r & _ & _ & _ & _ & _ & S). rewrite S in E.
  destruct (Nat.eqb_spec (Datatypes.S (alike z (play (after P0 line) m) (seen P0 line))) 4) as [X|_]; [exfalso; apply N; unfold third_time; lia|]. destruct (isGameOver (bpos b1)); injection E as <- _; exact (IH Q1).
Qed.
Lemma env_step line e m : env_after z b0 line e -> legal (after P0 line) m -> no_collision z P0 (Some m :: line) intMax ->
  exists e' reward done d, envStep z e (code (bpos (eBoard e)) m) = Done (e', (reward, done, d)) /\ said_of z P0 line m reward done d /\
    same_position (abs (bpos (eBoard e'))) (play (after P0 line) m) /\ (unrepeated z P0 (Some m :: line) -> d = None).
Proof.
  intros H I NC. pose proof (env_tracks _ _ H) as T0. destruct (step_legal e line m T0 I) as (b1 & keys & r & _ & _ & R & T & O & S). specialize (R NC). rewrite S.
  assert (Sm : same_position (abs (bpos b1)) (play (after P0 line) m)) by (destruct (T None) as [A _]; apply A).
  destruct (Nat.eqb_spec (Datatypes.S (alike z (play (after P0 line) m) (seen P0 line))) 4) as [X|X].
  - assert (T3 : third_time z (play (after P0 line) m) (seen P0 line)) by (unfold third_time; lia). do 4 eexists. split; [reflexivity|]. split; [now constructor|]. split; [exact Sm|]. intros Q. inversion Q; contradiction.
  - assert (T3 : ~ third_time z (play (after P0 line) m) (seen P0 line)) by (unfold third_time; lia).
    assert (Dn : unrepeated z P0 (Some m :: line) -> eDraw e = None) by (intros Q; inversion Q; subst; eapply quiet_draw; eauto).
    destruct (isGameOver (bpos b1)) eqn:Ov; do 4 eexists; (split; [reflexivity|]); (split; [|split; [exact Sm|exact Dn]]).
    + apply no_moves; [exact T3|]. now apply O.
    + apply goes_on; [exact T3|]. intros N. apply O in N. discriminate N.
Qed.
Lemma env_exists line e m : env_after z b0 line e -> legal (after P0 line) m -> exists e', env_after z b0 (Some m :: line) e'.
Proof.
  intros H I. destruct (step_legal e line m (env_tracks _ _ H) I) as (b1 & keys & r & _ & _ & _ & _ & _ & S).
  destruct (_ =? 4)%nat; [eexists; exact (env_next z b0 line e m _ _ H I S)|]. destruct (isGameOver (bpos b1)); eexists; exact (env_next z b0 line e m _ _ H I S).
Qed.
Lemma env_refuses line e m : env_after z b0 line e -> fits (after P0 line) m -> ~ legal (after P0 line) m -> code (bpos (eBoard e)) m <> 0%N -> envStep z e (code (bpos (eBoard e)) m) = Thrown.
Proof.
  intros H F I N. destruct (env_tracks _ _ H) as ((R & W & S & _) & _ & _). unfold envStep. destruct (N.eqb_spec (code (bpos (eBoard e)) m) 0) as [X|_]; [contradiction|].
  destruct (boardMoveIsLegal (bpos (eBoard e)) (code (bpos (eBoard e)) m)) eqn:L; [|reflexivity]. exfalso. apply I.
  destruct (reachable_ok z _ OK R) as [G C]. apply (is_legal_exact z) in L; [eapply legal_same; [|exact L]; exact S|exact G|exact C|apply (wf_playable _ W)|exact (fits_same _ _ m (same_sym _ _ S) F)].
Qed.
End Envs.
Lemma env_resigns z e : envStep z e 0 = Done (e, (-1, true, None)).
Proof. reflexivity. Qed.
