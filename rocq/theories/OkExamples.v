(* Concrete boards for is_ok. *)
From Verif Require Export OkProofs GenExamples.
Local Open Scope N_scope.

(* sente's king on 5e checked by rook 5a, bishop 4d and knight 4c; without the knight; two pawns of sente on one file, one of them
   on the last rank; two kings of sente; gote's king in check with sente to move *)
Definition threeChecks : list N := sparse [(40, 8); (36, 22); (30, 21); (29, 19); (0, 24)].
Definition twoChecks : list N := sparse [(40, 8); (36, 22); (30, 21); (0, 24)].
Definition deadPawns : list N := sparse [(40, 8); (72, 1); (75, 1); (0, 24)].
Definition twoKings : list N := sparse [(40, 8); (41, 8); (0, 24)].
Definition takeable : list N := sparse [(40, 8); (2, 6); (0, 24)].
Definition okOf (pieces : list N) : bool := isOK z0 (bpos (boardOf 0 pieces noHands)).
Lemma isOK_answers : map okOf [twoChecks; deadPawns; threeChecks; twoKings; takeable; sparse []] = [true; true; false; false; false; false].
Proof. vm_compute. reflexivity. Qed.
Lemma deadPawns_ok : isOK z0 (bpos (boardOf 0 deadPawns noHands)) = true. Proof. vm_compute. reflexivity. Qed.
Lemma deadPawns_set_up : properB deadPawns noHands 0 = true. Proof. vm_compute. reflexivity. Qed.
Lemma deadPawns_not_wf : ~ well_formed (abs (bpos (boardOf 0 deadPawns noHands))).
Proof.
  intros W. destruct (properB_ok _ _ _ deadPawns_set_up) as (A & B & D & E).
  destruct (okBoard_set z0 (mkBoard (setTurnField clearPos 0) []) deadPawns noHands D A B E) as (_ & _ & (S & _) & _).
  apply (wf_dead _ W (9, 1)%Z Sente FU); [|cbn; lia]. etransitivity; [apply S|]. vm_compute. reflexivity.
Qed.
Lemma ok_not_wf : exists b, set_up z0 b /\ isOK z0 (bpos b) = true /\ ~ well_formed (abs (bpos b)).
Proof. exact (ex_intro _ (boardOf 0 deadPawns noHands) (conj (boardOf_set_up _ _ _ deadPawns_set_up) (conj deadPawns_ok deadPawns_not_wf))). Qed.
