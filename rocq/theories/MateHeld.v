(* A defence that refuses a promotion, which the search does not look at. *)
From Verif Require Export MateFinal GenExamples.
Local Open Scope N_scope.

(* the attacker finds no mate in n plies: the defender looks at the replies of the list c only.  Proof tools, not models of code *)
Fixpoint refutes (z : Zob) (c : list N) (n : nat) (b : Board) : bool :=
  match n with
  | O => true
  | S n => let ci := checkInfo (bpos b) in forallb (fun m => if moveGivesCheck (bpos b) m ci then survives z c n (push z b m) else true) (legalMoves (bpos b))
  end
with survives (z : Zob) (c : list N) (n : nat) (b : Board) : bool :=
  match n with
  | O => match legalMoves (bpos b) with [] => false | _ => true end
  | S n => existsb (fun m => if memB m c then refutes z c n (push z b m) else false) (legalMoves (bpos b))
  end.

Section S.
Variables (z : Zob) (b : Board) (c : list N).
Hypothesis Z : okZob z.
Local Notation P := (abs (bpos b)).
Lemma a_reply ms b' m : here z b ms b' -> In m (legalMoves (bpos b')) -> exists r, m = code (bpos b') r /\ legal (now P ms) r /\ here z b (r :: ms) (push z b' m).
Proof.
  intros H I. pose proof H as (_ & R & W & _). destruct (moves_sound z b' Z R (wf_playable _ W) m I) as (r & L & ->). exists r. split; [reflexivity|].
  split; [now apply (here_legal z b ms b' r H)|now apply (here_push z b Z)].
Qed.
Lemma refuted n : (forall ms b', here z b ms b' -> refutes z c n b' = true -> ~ wins_by_force P n ms) /\ (forall ms b', here z b ms b' -> survives z c n b' = true -> ~ lost_by_force P n ms).
Proof.
  induction n as [|n [IHw IHl]].
  - split.
    + intros ms b' H _ M. inversion M.
    + intros ms b' H. cbn [survives]. destruct (legalMoves (bpos b')) as [|m l] eqn:E; [discriminate|]. intros _ M.
      destruct (a_reply ms b' m H) as (r & _ & L & _); [rewrite E; now left|]. inversion M as [n' ms' C N E1 E2|]; subst. exact (N r L).
  - split.
    + intros ms b' H A M. pose proof H as (_ & R & W & _). inversion M as [n' ms' mv L C D E1 E2]; subst. apply (here_legal z b ms b' mv H) in L.
      pose proof (here_push z b Z ms b' mv H L) as H1. cbn [refutes] in A. cbv zeta in A. rewrite forallb_forall in A.
      specialize (A _ (proj1 (proj2 (moves_complete z b' Z R (wf_playable _ W))) mv L)). destruct (here_gives z b Z ms b' mv H L) as [G _]. rewrite G in A.
      assert (C1 : inCheck (bpos (push z b' (code (bpos b') mv))) = true).
      { apply (here_check z b Z _ _ H1). change (now P (mv :: ms)) with (play (now P ms) mv). replace (side (play (now P ms) mv)) with (other (side (now P ms))) by (now destruct mv). exact C. }
      rewrite C1 in A. exact (IHl _ _ H1 A D).
    + intros ms b' H A M. cbn [survives] in A. apply existsb_exists in A as (m & I & A). destruct (memB m c); [|discriminate A]. destruct (a_reply ms b' m H I) as (r & _ & L & H1).
      inversion M as [n' ms' C N E1 E2|n' ms' C F E1 E2]; subst; [exact (N r L)|]. exact (IHw _ _ H1 A (F r L)).
Qed.
End S.

(* sente's gold on 2i checks gote's king on 1h; gote's bishop on 3h can take it, with or without promotion.  If it promotes,
   it can later take the pawn dropped on 1i, so the drop is legal and leads to mate; if not, the drop would be mate and is illegal *)
Definition heldBoard : Board :=
  boardOf 1 (sparse [(7, 24); (16, 4); (17, 7); (25, 21); (26, 14); (34, 2); (80, 8); (13, 1); (22, 1); (31, 1); (40, 1); (49, 1); (58, 1); (67, 1); (76, 1)]) [[1;0;0;0;0;0;0];[0;0;0;0;0;0;0]].
Lemma held_set_up : set_up z0 heldBoard /\ well_formed (abs (bpos heldBoard)).
Proof. assert (S : set_up z0 heldBoard) by (apply boardOf_set_up; vm_compute; reflexivity). split; [exact S|]. apply wellFormedB_ok; [apply (set_up_ok z0 _ S)|vm_compute; reflexivity]. Qed.
Lemma held_claimed : isMate z0 heldBoard 4 = Some true. Proof. vm_compute. reflexivity. Qed.
Lemma held_survives : survives z0 [7670929; 525190; 15205265] 4 heldBoard = true. Proof. vm_compute. reflexivity. Qed.
Lemma held_not_lost : ~ lost_by_force (abs (bpos heldBoard)) 4 [].
Proof.
  destruct held_set_up as [S W]. apply (proj2 (refuted z0 heldBoard [7670929; 525190; 15205265] okZob0 4) [] heldBoard); [|exact held_survives]. apply here_start; [now apply set_up_reachable|exact W].
Qed.
