(* The search for checks from two or three squares away finds only mates. *)
From Verif Require Export Mate1Far.
Local Open Scope N_scope.

Lemma mateFar_eq p : mateFar p = (

  let us := turn p in let them := opp us in let ksq := kingSquare p them in
  let ourHand := handOf p us in let themHand := handOf p them in
  let occ := occBB p in
  let dcThem := discoveredCheckBB false p in
  let pinned := pinnedBB p in
  if exceptPawnExists themHand then None else
  let movable := bbAnd (bbNot (bbC p them)) (kingAttack ksq) in
  let aakns := attacksAroundNonSlider p them allZeroBB in
  let aaks := attacksAroundSlider p them in
  let escCount := popCount (bbAnd movable (bbNot (bbOr aakns aaks))) in
  if 4 <=? escCount then None else
  firstSome (fun one =>
    let to := nextSquare ksq one in
    if to =? 81 then None
    else if negb (pieceAt p to =? Empty) && (colorOf (pieceAt p to) =? us) then None
    else if canPawnDrop p them one then None
    else if (ptOf (pieceAt p to) =? Pawn) && (makeFile to =? makeFile one) && handExists themHand 0 then None
    else
      (* Effect8::directions_of(ksq, one), square.hpp:333, for a neighbour of ksq *)
      let diag := negb (makeFile ksq =? makeFile one) && negb (makeRank ksq =? makeRank one) in
      let canLance := (makeFile ksq =? makeFile one) && (one =? (if us =? Black then ksq + 1 else ksq - 1)) in
      let pt := if diag then (if handExists ourHand 5 then Bishop else 0)
                else if canLance && handExists ourHand 1 then Lance
                else if handExists ourHand 6 then Rook else 0 in
      let edge := if diag then bishopAttackToEdge else rookAttackToEdge in
      let blocked := fun s => negb (isAny (bbAnd (bbNot (edge s))
                       (bbAnd movable (bbNot (bbOr aakns (attacksSlider p us allZeroBB (bbOr occ (setMaskBB s)))))))) in
      (if (pt =? 0) || negb (pieceAt p to =? Empty) then None
       else if canPieceCapture2 p them one allZeroBB dcThem occ then None
       else if canPieceCapture2 p them to allZeroBB dcThem occ then None
       else if blocked to then Some (makeDropMove pt to)
       else if escCount <=? 2 then
         let next := nextSquare one to in
         if next =? 81 then None
         else if negb (pieceAt p next =? Empty) then None
         else if canPawnDrop p them to then None
         else if canPieceCapture2 p them next allZeroBB dcThem occ then None
         else if blocked next then Some (makeDropMove pt next) else None
       else None)
      <|> (if negb diag then
             let rd := bbAnd (bbT2 p Rook Dragon) (bbC p us) in
             let bb := bbOr (bbOr
               (if andIsAny (rookAttackToEdge to) rd then bbAnd (rookAttack to occ) rd else allZeroBB)
               (if andIsAny (kingAttack to) (bbTC p Dragon us) then bbAnd (kingAttack to) (bbTC p Dragon us) else allZeroBB))
               (if canLance && andIsAny (lanceAttackToEdge them to) (bbTC p Lance us)
                then bbAnd (lanceAttack them to occ) (bbTC p Lance us) else allZeroBB) in
             firstSome (fun from =>
               let occ1 := bbXor occ (setMaskBB from) in
               let ptf := ptOf (pieceAt p from) in
               if isPinnedIllegal from to (kingSquare p us) pinned then None
               else if canPieceCapture2 p them to allZeroBB dcThem occ1 then None
               else if canPieceCapture2 p them one (setMaskBB to) dcThem occ1 then None
               else
                 let attacks := if ptf =? Lance then rookAttackToEdge to
                                else if canPromote2 us from to || (ptf =? Dragon)
                                then bbOr (rookAttackToEdge to) (bishopAttackToEdge to) else rookAttackToEdge to in
                 let occ2 := bbOr occ1 (setMaskBB to) in
                 if isAny (bbAnd (kingAttack ksq)
                      (bbNot (bbOr (bbOr (bbC p them) (attacksAroundAvoiding p them from occ2)) attacks))) then None
                 else Some (if negb (ptf =? Lance) && canPromote2 us from to && (N.land ptf 8 =? 0)
                            then makePromoteMove p ptf from to else makeCaptureMove p ptf from to)) (bbList bb)
           else
             let bh := bbAnd (bbT2 p Bishop Horse) (bbC p us) in
             let bb := bbOr
               (if andIsAny (bishopAttackToEdge to) bh then bbAnd (bishopAttack to occ) bh else allZeroBB)
               (if andIsAny (kingAttack to) (bbTC p Horse us) then bbAnd (kingAttack to) (bbTC p Horse us) else allZeroBB) in
             firstSome (fun from =>
               let occ1 := bbXor occ (setMaskBB from) in
               let ptf := ptOf (pieceAt p from) in
               if isPinnedIllegal from to (kingSquare p us) pinned then None
               else if canPieceCapture2 p them one (setMaskBB to) dcThem occ1 then None
               else if canPieceCapture2 p them to allZeroBB dcThem occ1 then None
               else
                 let occ2 := bbOr occ1 (setMaskBB to) in
                 if isAny (bbAnd (kingAttack ksq)
                      (bbNot (bbOr (bbOr (bbOr (bbC p them) (attacksAroundAvoiding p them from occ2)) (rookAttackToEdge to)) (bishopAttackToEdge to)))) then None
                 else Some (if canPromote2 us from to && (N.land ptf 8 =? 0)
                            then makePromoteMove p ptf from to else makeCaptureMove p ptf from to)) (bbList bb)))
    (bbList (bbAnd (nOccupiedBB p) (kingAttack ksq)))).
Proof. reflexivity. Qed.
Section F.
Variables (p : Position) (us th k ko : N) (bd : list N).
Hypotheses (G : good p) (Eus : turn p = us) (Eth : opp us = th) (Ebd : board p = bd).
Hypotheses (Ek : kingOf bd us = k) (Hk : k < 81) (Eo : kingOf bd th = ko) (Ho : ko < 81).
Hypothesis NC : forall x, ~ chkr us k bd x.
Hypothesis ND : forall s, s < 81 -> isCol bd us s = true -> ptOf (at_ bd s) = 1 -> rankFor us s <> 1.
Notation U := (sU p us G Eus).
Notation T := (sT p us th G Eus Eth).
Lemma rook_edge s y : s < 81 -> y < 81 -> isSet (rookAttackToEdge s) y = true -> exists d i, In d allDirs /\ (1 <= i)%Z /\ offs s d i y /\ (fst d = 0 \/ snd d = 0)%Z.
Proof.
  intros Hs Hy S. pose proof U as Hu. unfold rookAttackToEdge in S. rewrite <- (af6 us s allZeroBB), toEdge in S by (auto; lia). assert (S' : sreach 6 us s y = true) by exact S. apply sreach_iff in S' as (d & i & Hd & Hi & O); auto. apply rook_dir in Hd as [A B]. exists d, i. auto.
Qed.
Lemma bishop_edge s y : s < 81 -> y < 81 -> isSet (bishopAttackToEdge s) y = true -> exists d i, In d allDirs /\ (1 <= i)%Z /\ offs s d i y /\ (fst d <> 0 /\ snd d <> 0)%Z.
Proof.
  intros Hs Hy S. pose proof U as Hu. unfold bishopAttackToEdge in S. rewrite <- (af5 us s allZeroBB), toEdge in S by (auto; lia). assert (S' : sreach 5 us s y = true) by exact S. apply sreach_iff in S' as (d & i & Hd & Hi & O); auto. apply bishop_dir in Hd as [A B]. exists d, i. auto.
Qed.
Lemma king_sq y : y < 81 -> reach 8 th ko y = true -> isSet (kingAttack ko) y = true.
Proof. intros Hy R. rewrite <- (af8 th ko allZeroBB), toEdge by (auto using T; lia). exact R. Qed.
Lemma th_sq y : y < 81 -> isSet (bbC p th) y = isCol bd th y.
Proof. intros Hy. rewrite isSet_bbC by (auto using T; apply G). change (pieceAt p y) with (at_ (board p) y). rewrite Ebd. reflexivity. Qed.
Lemma blocked_all (edge : N -> BB) s e : s < 81 ->
  (forall y, y < 81 -> isSet (edge s) y = true -> exists d i, In d allDirs /\ (1 <= i)%Z /\ offs s d i y /\ sameClass d e) ->
  negb (isAny (bbAnd (bbNot (edge s)) (bbAnd (bbAnd (bbNot (bbC p th)) (kingAttack ko)) (bbNot (bbOr (attacksAroundNonSlider p th allZeroBB) (attacksSlider p us allZeroBB (bbOr (occBB p) (setMaskBB s)))))))) = true ->
  forall y, y < 81 -> reach 8 th ko y = true -> isCol bd th y = false ->
     (exists d i, In d allDirs /\ (1 <= i)%Z /\ offs s d i y /\ sameClass d e) \/ isSet (attacksAroundNonSlider p th allZeroBB) y = true \/ isSet (attacksSlider p us allZeroBB (bbOr (occBB p) (setMaskBB s))) y = true.
Proof.
  intros Hs HE B y Hy R C. apply negb_true_iff in B. destruct (isSet (edge s) y) eqn:E1; [left; auto|]. destruct (isSet (attacksAroundNonSlider p th allZeroBB) y) eqn:E2; [auto|]. destruct (isSet (attacksSlider p us allZeroBB (bbOr (occBB p) (setMaskBB s))) y) eqn:E3; [auto|].
  exfalso. rewrite (isAny_ex_true _ y) in B; [discriminate B|]. rewrite !isSet_and, !isSet_not, isSet_or, E1, E2, E3, (king_sq y Hy R), th_sq, C by auto. reflexivity.
Qed.
Lemma far_drops (esc : bool) pt (edge : N -> BB) one t e m : one < 81 -> t < 81 -> In e allDirs -> offs ko e 1 one -> offs ko e 2 t -> at_ bd one = 0 ->
  (forall s y, s < 81 -> y < 81 -> isSet (edge s) y = true -> exists d i, In d allDirs /\ (1 <= i)%Z /\ offs s d i y /\ sameClass d e) ->
  (pt <> 0 -> 2 <= pt <= 7 /\ handExists (handOf p us) (ptToHand pt) = true /\ forall n s, s < 81 -> (1 <= n)%Z -> offs ko e n s -> sreach pt us s ko = true) ->
  exceptPawnExists (handOf p th) = false -> canPawnDrop p th one = false ->
  (if (pt =? 0) || negb (pieceAt p t =? Empty) then None
   else if canPieceCapture2 p th one allZeroBB (discoveredCheckBB false p) (occBB p) then None
   else if canPieceCapture2 p th t allZeroBB (discoveredCheckBB false p) (occBB p) then None
   else if negb (isAny (bbAnd (bbNot (edge t)) (bbAnd (bbAnd (bbNot (bbC p th)) (kingAttack ko)) (bbNot (bbOr (attacksAroundNonSlider p th allZeroBB) (attacksSlider p us allZeroBB (bbOr (occBB p) (setMaskBB t)))))))) then Some (makeDropMove pt t)
   else if esc then
     if nextSquare one t =? 81 then None
     else if negb (pieceAt p (nextSquare one t) =? Empty) then None
     else if canPawnDrop p th t then None
     else if canPieceCapture2 p th (nextSquare one t) allZeroBB (discoveredCheckBB false p) (occBB p) then None
     else if negb (isAny (bbAnd (bbNot (edge (nextSquare one t))) (bbAnd (bbAnd (bbNot (bbC p th)) (kingAttack ko)) (bbNot (bbOr (attacksAroundNonSlider p th allZeroBB) (attacksSlider p us allZeroBB (bbOr (occBB p) (setMaskBB (nextSquare one t))))))))) then Some (makeDropMove pt (nextSquare one t)) else None
   else None) = Some m -> found p m.
Proof.
  intros H1 Ht He O1 O2 E1 HE HP EX PD.
  destruct (N.eqb_spec pt 0) as [|N0]; [discriminate|]. destruct (HP N0) as (Hp & HH & SR). clear HP. rewrite orb_false_l. rewrite (gAt p bd Ebd). unfold Empty. destruct (N.eqb_spec (at_ bd t) 0) as [Et|]; [|discriminate]. cbn [negb].
  destruct (canPieceCapture2 p th one allZeroBB (discoveredCheckBB false p) (occBB p)) eqn:C1; [discriminate|]. destruct (canPieceCapture2 p th t allZeroBB (discoveredCheckBB false p) (occBB p)) eqn:C2; [discriminate|].
  match goal with |- (if ?c then _ else _) = _ -> _ => destruct c eqn:B end.
  - intros H. injection H as <-. apply (far_drop p us th k ko bd G Eus Eth Ebd Ek Hk Eo Ho NC ND pt t e 2 Hp Ht HH Et He O2 ltac:(lia)); auto.
    + apply (SR 2%Z); auto; lia.
    + intros y I. rewrite (beside p us th k ko bd Eus Eth Ek Hk Eo Ho NC ND one e t y 2 H1 Ht He O1 O2 eq_refl I). auto.
    + intros y [->|I]; auto. rewrite (beside p us th k ko bd Eus Eth Ek Hk Eo Ho NC ND one e t y 2 H1 Ht He O1 O2 eq_refl I). auto.
    + apply (blocked_all edge t e); auto.
  - clear B. destruct esc; [|discriminate]. destruct (N.eqb_spec (nextSquare one t) 81) as [|N81]; [discriminate|].
    assert (Ot : offs one e 1 t) by (replace 1%Z with (2 - 1)%Z by lia; eapply off_sub; eauto). destruct (next_off one t e 1 He H1 Ht ltac:(lia) Ot N81) as [Hx O3]. clear N81. revert Hx O3. generalize (nextSquare one t) as x. intros x Hx O3.
    pose proof (off_add _ _ _ _ _ _ O2 O3) as O4. change (2 + 1)%Z with 3%Z in O4. rewrite (gAt p bd Ebd). destruct (N.eqb_spec (at_ bd x) 0) as [Ex|]; [|discriminate]. cbn [negb].
    destruct (canPawnDrop p th t) eqn:PD2; [discriminate|]. destruct (canPieceCapture2 p th x allZeroBB (discoveredCheckBB false p) (occBB p)) eqn:C3; [discriminate|].
    match goal with |- (if ?c then _ else _) = _ -> _ => destruct c eqn:B end; [|discriminate].
    intros H. injection H as <-. apply (far_drop p us th k ko bd G Eus Eth Ebd Ek Hk Eo Ho NC ND pt x e 3 Hp Hx HH Ex He O4 ltac:(lia)); auto.
    + apply (SR 3%Z); auto; lia.
    + intros y I. destruct (beside2 p us th k ko bd Eus Eth Ek Hk Eo Ho NC ND one t e x y 3 H1 Ht Hx He O1 O2 O4 eq_refl I) as [-> | ->]; auto.
    + intros y [->|I]; auto. destruct (beside2 p us th k ko bd Eus Eth Ek Hk Eo Ho NC ND one t e x y 3 H1 Ht Hx He O1 O2 O4 eq_refl I) as [-> | ->]; auto.
    + apply (blocked_all edge x e); auto.
Qed.
(* the move itself, once the source is known *)
Lemma far_go f t one e (cl : bool) ptf (pr : bool) (attacks : BB) : f < 81 -> t < 81 -> one < 81 -> In e allDirs -> offs ko e 1 one -> offs ko e 2 t -> at_ bd one = 0 -> isCol bd us f = true -> isCol bd us t = false -> ptOf (at_ bd f) = ptf ->
  att bd f t = true -> srcOf bd f t e ->
  (ptf = 6 \/ ptf = 14) /\ (fst e = 0 \/ snd e = 0)%Z \/ (ptf = 5 \/ ptf = 13) /\ (fst e <> 0 /\ snd e <> 0)%Z \/ ptf = 2 /\ nd e = (0, fwd us)%Z ->
  pr = negb (ptf =? Lance) && canPromote2 us f t && (N.land ptf 8 =? 0) ->
  exceptPawnExists (handOf p th) = false -> canPawnDrop p th one = false -> (ptOf (at_ bd t) = 1 -> makeFile t = makeFile one -> handExists (handOf p th) 0 = false) ->
  isPinnedIllegal f t k (pinnedBB p) = false ->
  canPieceCapture2 p th t allZeroBB (discoveredCheckBB false p) (bbXor (occBB p) (setMaskBB f)) = false -> canPieceCapture2 p th one (setMaskBB t) (discoveredCheckBB false p) (bbXor (occBB p) (setMaskBB f)) = false ->
  isAny (bbAnd (kingAttack ko) (bbNot (bbOr (bbOr (bbC p th) (attacksAroundAvoiding p th f (bbOr (bbXor (occBB p) (setMaskBB f)) (setMaskBB t)))) attacks))) = false ->
  (forall y, y < 81 -> reach 8 th ko y = true -> isSet attacks y = true -> exists d i, In d allDirs /\ (1 <= i)%Z /\ offs t d i y /\ (sameClass d e \/ ptf + (if pr then 8 else 0) = 14 /\ (fst e = 0 \/ snd e = 0)%Z /\ (fst d <> 0 /\ snd d <> 0)%Z)) ->
  found p (if pr then makePromoteMove p ptf f t else makeCaptureMove p ptf f t).
Proof.
  intros Hf Ht H1 He O1 O2 E1 Cf Ct Ept Af SRC KIND EP EX PD PT PI CT CO KS HA. pose proof U as Hu. pose proof T as Hth.
  assert (SR : sreach (ptf + (if pr then 8 else 0)) us t ko = true).
  { apply (line_reach p us th k ko bd Eus Eth Ek Hk Eo Ho NC ND _ t e 2 Ht He ltac:(lia) O2). destruct KIND as [[[E|E] X]|[[[E|E] X]|[E X]]]; rewrite E in *; destruct pr; try (left; split; [tauto|auto]; fail); try (right; left; split; [tauto|auto]; fail); try (right; right; auto; fail); exfalso; clear - EP; destruct (canPromote2 us f t); cbn in EP; discriminate EP. }
  assert (P : plSet p f t pr).
  { unfold plSet. rewrite (proj2 (N.ltb_lt _ _) Hf). unfold plGoB. rewrite Eus, Ebd, Cf, Af, Ct. cbn [negb andb]. unfold promoB. cbv zeta. rewrite (gAt p bd Ebd), Ept, Eus. destruct pr.
    - symmetry in EP. rewrite !andb_true_iff in EP. destruct EP as [[P1 P2] P3]. unfold canPromote2 in P2. rewrite !canPromote_zone in P2 by auto. rewrite P2, andb_true_r. apply N.leb_le. destruct KIND as [[[E|E] X]|[[[E|E] X]|[E X]]]; rewrite E in *; try lia; vm_compute in P3; discriminate P3.
    - rewrite N.add_0_r in SR. rewrite (not_dead ptf us t ko) by (auto using sreach_reach). reflexivity. }
  exists f, t, pr. split; [lia|]. split; [auto|]. split; [auto|]. split.
  { assert (E : ptOf (pieceAt p f) = ptf) by (rewrite (gAt p bd Ebd); exact Ept). destruct pr; [apply promote_code|apply nonpromote_code]; auto. }
  apply (far_move p us th k ko bd G Eus Eth Ebd Ek Hk Eo Ho NC ND f t pr (ptf + (if pr then 8 else 0)) ptf one e); auto.
  - intros E. rewrite E in KIND. lia.
  - intros E. rewrite E in KIND. lia.
  - intros d Hd. unfold sameClass. destruct KIND as [[[E|E] X]|[[[E|E] X]|[E X]]]; rewrite E in Hd; unfold slidesOf in Hd; try (apply rook_dir in Hd as [_ Hd]; auto; fail); try (apply bishop_dir in Hd as [_ Hd]; auto; fail).
    destruct Hd as [<-|[]]. left. cbn [fst snd]. unfold nd in X. injection X as X1 X2. split; left; lia.
  - intros y Hy R C. destruct (isSet attacks y) eqn:A1; [left; auto|]. right. destruct (isSet (attacksAroundAvoiding p th f (bbOr (bbXor (occBB p) (setMaskBB f)) (setMaskBB t))) y) eqn:A2; [reflexivity|].
    exfalso. rewrite (isAny_ex_true _ y) in KS; [discriminate KS|]. rewrite isSet_and, isSet_not, !isSet_or, A1, A2, (king_sq y Hy R), th_sq, C by auto. reflexivity.
Qed.
Lemma far_rook1 (cl : bool) one t e f m : one < 81 -> t < 81 -> In e allDirs -> offs ko e 1 one -> offs ko e 2 t -> at_ bd one = 0 -> isCol bd us t = false -> exceptPawnExists (handOf p th) = false -> canPawnDrop p th one = false -> (ptOf (at_ bd t) = 1 -> makeFile t = makeFile one -> handExists (handOf p th) 0 = false) -> (fst e = 0 \/ snd e = 0)%Z -> (cl = true -> nd e = (0, fwd us)%Z) -> f < 81 -> isSet (bbOr (bbOr (if andIsAny (rookAttackToEdge t) (bbAnd (bbT2 p Rook Dragon) (bbC p us)) then bbAnd (rookAttack t (occBB p)) (bbAnd (bbT2 p Rook Dragon) (bbC p us)) else allZeroBB) (if andIsAny (kingAttack t) (bbTC p Dragon us) then bbAnd (kingAttack t) (bbTC p Dragon us) else allZeroBB)) (if cl && andIsAny (lanceAttackToEdge th t) (bbTC p Lance us) then bbAnd (lanceAttack th t (occBB p)) (bbTC p Lance us) else allZeroBB)) f = true ->
  (if isPinnedIllegal f t k (pinnedBB p) then None
   else if canPieceCapture2 p th t allZeroBB (discoveredCheckBB false p) (bbXor (occBB p) (setMaskBB f)) then None
   else if canPieceCapture2 p th one (setMaskBB t) (discoveredCheckBB false p) (bbXor (occBB p) (setMaskBB f)) then None
   else if isAny (bbAnd (kingAttack ko) (bbNot (bbOr (bbOr (bbC p th) (attacksAroundAvoiding p th f (bbOr (bbXor (occBB p) (setMaskBB f)) (setMaskBB t)))) (if ptOf (pieceAt p f) =? Lance then rookAttackToEdge t else if canPromote2 us f t || (ptOf (pieceAt p f) =? Dragon) then bbOr (rookAttackToEdge t) (bishopAttackToEdge t) else rookAttackToEdge t)))) then None
   else Some (if negb (ptOf (pieceAt p f) =? Lance) && canPromote2 us f t && (N.land (ptOf (pieceAt p f)) 8 =? 0) then makePromoteMove p (ptOf (pieceAt p f)) f t else makeCaptureMove p (ptOf (pieceAt p f)) f t)) = Some m -> found p m.
Proof.
  intros H1 Ht He O1 O2 S1 Ct EX PD PT' DG FD Hf Sf H. pose proof U as Hu. pose proof T as Hth.
  assert (CLR : forall f, clear (isSet (occBB p)) f t = clear (occOf bd) f t) by (intros ?; apply clear_same; intros w Iw; apply (bOcc p bd); auto; now apply betw_lt in Iw).
  assert (WC : wfBB (bbC p us)) by (apply wf_bbC; auto; apply G).
  assert (SS : forall pt f, f < 81 -> sreach pt us f t = true -> (forall d, In d (slidesOf pt us) -> sameClass d e) -> clear (occOf bd) f t = true -> srcOf bd f t e).
  { intros pt x Hx S CF CL. left. apply sreach_iff in S as (d & j & Hd & Hj & O); auto. exists d, j. repeat (split; auto). now apply slides_allDirs in Hd. }
  assert (SA : forall f, isCol bd us f = true -> reach (ptOf (at_ bd f)) us f t = true -> clear (occOf bd) f t = true -> att bd f t = true).
  { intros x C R CL. unfold att, attOcc. unfold isCol in C. apply andb_prop in C as [C0 C1]. apply N.eqb_eq in C1. rewrite C0, C1, R, CL. reflexivity. }
    assert (SRC : isCol bd us f = true /\ ((ptOf (at_ bd f) = 6 \/ ptOf (at_ bd f) = 14) \/ ptOf (at_ bd f) = 2 /\ cl = true) /\ att bd f t = true /\ srcOf bd f t e).
    { rewrite !isSet_or in Sf. destruct (reach_unions us f t Hu Hf Ht) as (_ & _ & _ & U13 & U14). rewrite !orb_true_iff in Sf. destruct Sf as [[Sf|Sf]|Sf]; (match type of Sf with isSet (if ?c then _ else _) _ = _ => destruct c eqn:CC; [|rewrite isSet_zero in Sf; discriminate Sf] end).
      - rewrite !isSet_and in Sf. unfold bbT2 in Sf. rewrite isSet_or in Sf. unfold Rook, Dragon in Sf. rewrite !(wT p bd G Ebd), (bCol p us bd G Eus Ebd f Hf), (back_rook us t (occBB p) f Hu Hf Ht), CLR in Sf by (auto; lia). rewrite !andb_true_iff, orb_true_iff, !N.eqb_eq in Sf. destruct Sf as [[R CL] [K C]].
        split; auto. split; auto. split; [apply SA; auto; destruct K as [K|K]; rewrite K; [exact R|rewrite U14, R; auto using orb_true_r]|]. apply (SS 6 f Hf R); auto. intros d Hd. apply rook_dir in Hd as [_ Hd]. left. auto.
      - unfold bbTC in Sf. rewrite !isSet_and in Sf. unfold Dragon in Sf. rewrite (wT p bd G Ebd), (bCol p us bd G Eus Ebd f Hf), (back_king us t (occBB p) f Hu Hf Ht), CLR in Sf by (auto; lia). rewrite !andb_true_iff, N.eqb_eq in Sf. destruct Sf as [[R CL] [K C]].
        split; auto. split; auto. split; [apply SA; auto; rewrite K, U14, R; auto using orb_true_r|]. right. destruct (adj_N us f t Hu Hf Ht R) as (A & B & _). auto.
      - apply andb_prop in CC as [CC _]. unfold bbTC in Sf. rewrite !isSet_and in Sf. unfold Lance in Sf. rewrite <- Eth in Sf. rewrite (wT p bd G Ebd), (bCol p us bd G Eus Ebd f Hf), (back_lance us t (occBB p) f Hu Hf Ht), CLR in Sf by (auto; lia). rewrite !andb_true_iff, N.eqb_eq in Sf. destruct Sf as [[R CL] [K C]].
        split; auto. split; auto. split; [apply SA; auto; rewrite K; exact R|]. apply (SS 2 f Hf R); auto. intros d [<-|[]]. left. cbn [fst snd]. auto. }
    destruct SRC as (Cf & KD & Af & SRC). rewrite (gAt p bd Ebd) in H.
    destruct (isPinnedIllegal f t k (pinnedBB p)) eqn:PI; [discriminate H|]. 
    destruct (canPieceCapture2 p th t allZeroBB (discoveredCheckBB false p) (bbXor (occBB p) (setMaskBB f))) eqn:CT; [discriminate H|].
    destruct (canPieceCapture2 p th one (setMaskBB t) (discoveredCheckBB false p) (bbXor (occBB p) (setMaskBB f))) eqn:CO; [discriminate H|].
    match type of H with (if isAny ?b then _ else _) = _ => destruct (isAny b) eqn:KS; [discriminate H|] end. injection H as <-.
    eapply (far_go f t one e true (ptOf (at_ bd f)) _ _); try exact KS; auto.
    + destruct KD as [KD|[KD X]]; [left; auto|right; right; auto].
    + intros y Hy R S. assert (RE : isSet (rookAttackToEdge t) y = true -> exists d i, In d allDirs /\ (1 <= i)%Z /\ offs t d i y /\ sameClass d e) by (intros Q; apply rook_edge in Q as (d & i & A & B & C & D); auto; exists d, i; unfold sameClass; tauto).
      assert (RE' : forall X : Prop, isSet (rookAttackToEdge t) y = true -> exists d i, In d allDirs /\ (1 <= i)%Z /\ offs t d i y /\ (sameClass d e \/ ptOf (at_ bd f) + (if negb (ptOf (at_ bd f) =? Lance) && canPromote2 us f t && (N.land (ptOf (at_ bd f)) 8 =? 0) then 8 else 0) = 14 /\ (fst e = 0 \/ snd e = 0)%Z /\ (fst d <> 0 /\ snd d <> 0)%Z)) by (intros _ Q; destruct (RE Q) as (d & i & A & B & C & D); exists d, i; auto).
      destruct (ptOf (at_ bd f) =? Lance) eqn:L; [apply (RE' True); auto|]. destruct (canPromote2 us f t || (ptOf (at_ bd f) =? Dragon)) eqn:CPD; [|apply (RE' True); auto].
      rewrite isSet_or in S. apply orb_prop in S as [S|S]; [apply (RE' True); auto|]. apply bishop_edge in S as (d & i & A & B & C & D); auto. exists d, i. repeat (split; auto). right. split; [|auto].
      destruct KD as [[KD|KD]|[KD _]]; rewrite KD in L, CPD |- *; [|destruct (canPromote2 us f t); reflexivity|discriminate L]. rewrite orb_false_r in CPD. rewrite CPD. reflexivity.
Qed.
Lemma far_rooks (cl : bool) one t e m : one < 81 -> t < 81 -> In e allDirs -> offs ko e 1 one -> offs ko e 2 t -> at_ bd one = 0 -> isCol bd us t = false -> exceptPawnExists (handOf p th) = false -> canPawnDrop p th one = false -> (ptOf (at_ bd t) = 1 -> makeFile t = makeFile one -> handExists (handOf p th) 0 = false) -> (fst e = 0 \/ snd e = 0)%Z -> (cl = true -> nd e = (0, fwd us)%Z) -> firstSome (fun f => (if isPinnedIllegal f t k (pinnedBB p) then None
   else if canPieceCapture2 p th t allZeroBB (discoveredCheckBB false p) (bbXor (occBB p) (setMaskBB f)) then None
   else if canPieceCapture2 p th one (setMaskBB t) (discoveredCheckBB false p) (bbXor (occBB p) (setMaskBB f)) then None
   else if isAny (bbAnd (kingAttack ko) (bbNot (bbOr (bbOr (bbC p th) (attacksAroundAvoiding p th f (bbOr (bbXor (occBB p) (setMaskBB f)) (setMaskBB t)))) (if ptOf (pieceAt p f) =? Lance then rookAttackToEdge t else if canPromote2 us f t || (ptOf (pieceAt p f) =? Dragon) then bbOr (rookAttackToEdge t) (bishopAttackToEdge t) else rookAttackToEdge t)))) then None
   else Some (if negb (ptOf (pieceAt p f) =? Lance) && canPromote2 us f t && (N.land (ptOf (pieceAt p f)) 8 =? 0) then makePromoteMove p (ptOf (pieceAt p f)) f t else makeCaptureMove p (ptOf (pieceAt p f)) f t))) (bbList (bbOr (bbOr (if andIsAny (rookAttackToEdge t) (bbAnd (bbT2 p Rook Dragon) (bbC p us)) then bbAnd (rookAttack t (occBB p)) (bbAnd (bbT2 p Rook Dragon) (bbC p us)) else allZeroBB) (if andIsAny (kingAttack t) (bbTC p Dragon us) then bbAnd (kingAttack t) (bbTC p Dragon us) else allZeroBB)) (if cl && andIsAny (lanceAttackToEdge th t) (bbTC p Lance us) then bbAnd (lanceAttack th t (occBB p)) (bbTC p Lance us) else allZeroBB))) = Some m -> found p m.
Proof.
  intros H1 Ht He O1 O2 S1 Ct EX PD PT' DG FD H. assert (WC : wfBB (bbC p us)) by (apply wf_bbC; auto using U; apply G). apply firstSome_in in H as (f & If & H). cbv beta in H. apply in_bbList in If as [Hf Sf]; [exact (far_rook1 cl one t e f m H1 Ht He O1 O2 S1 Ct EX PD PT' DG FD Hf Sf H)|].
  apply wf_or; [apply wf_or|]; match goal with |- wfBB (if ?c then _ else _) => destruct c end; try exact wf_zero; [apply wf_and_r, wf_and_r; exact WC| |]; unfold bbTC; apply wf_and_r, wf_and_r; exact WC. 
Qed.
Lemma far_bishop1 one t e f m : one < 81 -> t < 81 -> In e allDirs -> offs ko e 1 one -> offs ko e 2 t -> at_ bd one = 0 -> isCol bd us t = false -> exceptPawnExists (handOf p th) = false -> canPawnDrop p th one = false -> (ptOf (at_ bd t) = 1 -> makeFile t = makeFile one -> handExists (handOf p th) 0 = false) -> (fst e <> 0 /\ snd e <> 0)%Z -> f < 81 -> isSet (bbOr (if andIsAny (bishopAttackToEdge t) (bbAnd (bbT2 p Bishop Horse) (bbC p us)) then bbAnd (bishopAttack t (occBB p)) (bbAnd (bbT2 p Bishop Horse) (bbC p us)) else allZeroBB) (if andIsAny (kingAttack t) (bbTC p Horse us) then bbAnd (kingAttack t) (bbTC p Horse us) else allZeroBB)) f = true ->
  (if isPinnedIllegal f t k (pinnedBB p) then None
   else if canPieceCapture2 p th one (setMaskBB t) (discoveredCheckBB false p) (bbXor (occBB p) (setMaskBB f)) then None
   else if canPieceCapture2 p th t allZeroBB (discoveredCheckBB false p) (bbXor (occBB p) (setMaskBB f)) then None
   else if isAny (bbAnd (kingAttack ko) (bbNot (bbOr (bbOr (bbOr (bbC p th) (attacksAroundAvoiding p th f (bbOr (bbXor (occBB p) (setMaskBB f)) (setMaskBB t)))) (rookAttackToEdge t)) (bishopAttackToEdge t)))) then None
   else Some (if canPromote2 us f t && (N.land (ptOf (pieceAt p f)) 8 =? 0) then makePromoteMove p (ptOf (pieceAt p f)) f t else makeCaptureMove p (ptOf (pieceAt p f)) f t)) = Some m -> found p m.
Proof.
  intros H1 Ht He O1 O2 S1 Ct EX PD PT' DG Hf Sf H. pose proof U as Hu. pose proof T as Hth.
  assert (CLR : forall f, clear (isSet (occBB p)) f t = clear (occOf bd) f t) by (intros ?; apply clear_same; intros w Iw; apply (bOcc p bd); auto; now apply betw_lt in Iw).
  assert (WC : wfBB (bbC p us)) by (apply wf_bbC; auto; apply G).
  assert (SS : forall pt f, f < 81 -> sreach pt us f t = true -> (forall d, In d (slidesOf pt us) -> sameClass d e) -> clear (occOf bd) f t = true -> srcOf bd f t e).
  { intros pt x Hx S CF CL. left. apply sreach_iff in S as (d & j & Hd & Hj & O); auto. exists d, j. repeat (split; auto). now apply slides_allDirs in Hd. }
  assert (SA : forall f, isCol bd us f = true -> reach (ptOf (at_ bd f)) us f t = true -> clear (occOf bd) f t = true -> att bd f t = true).
  { intros x C R CL. unfold att, attOcc. unfold isCol in C. apply andb_prop in C as [C0 C1]. apply N.eqb_eq in C1. rewrite C0, C1, R, CL. reflexivity. }
    assert (SRC : isCol bd us f = true /\ (ptOf (at_ bd f) = 5 \/ ptOf (at_ bd f) = 13) /\ att bd f t = true /\ srcOf bd f t e).
    { rewrite isSet_or in Sf. destruct (reach_unions us f t Hu Hf Ht) as (_ & _ & _ & U13 & U14). apply orb_prop in Sf as [Sf|Sf]; (match type of Sf with isSet (if ?c then _ else _) _ = _ => destruct c; [|rewrite isSet_zero in Sf; discriminate Sf] end).
      - rewrite !isSet_and in Sf. unfold bbT2 in Sf. rewrite isSet_or in Sf. unfold Bishop, Horse in Sf. rewrite !(wT p bd G Ebd), (bCol p us bd G Eus Ebd f Hf), (back_bishop us t (occBB p) f Hu Hf Ht), CLR in Sf by (auto; lia). rewrite !andb_true_iff, orb_true_iff, !N.eqb_eq in Sf. destruct Sf as [[R CL] [K C]].
        split; auto. split; auto. split; [apply SA; auto; destruct K as [K|K]; rewrite K; [exact R|rewrite U13, R; auto using orb_true_r]|]. apply (SS 5 f Hf R); auto. intros d Hd. apply bishop_dir in Hd as [_ Hd]. right. auto.
      - unfold bbTC in Sf. rewrite !isSet_and in Sf. unfold Horse in Sf. rewrite (wT p bd G Ebd), (bCol p us bd G Eus Ebd f Hf), (back_king us t (occBB p) f Hu Hf Ht), CLR in Sf by (auto; lia). rewrite !andb_true_iff, N.eqb_eq in Sf. destruct Sf as [[R CL] [K C]].
        split; auto. split; auto. split; [apply SA; auto; rewrite K, U13, R; auto using orb_true_r|]. right. destruct (adj_N us f t Hu Hf Ht R) as (A & B & _). auto. }
    destruct SRC as (Cf & KD & Af & SRC). rewrite (gAt p bd Ebd) in H.
    destruct (isPinnedIllegal f t k (pinnedBB p)) eqn:PI; [discriminate H|]. 
    destruct (canPieceCapture2 p th one (setMaskBB t) (discoveredCheckBB false p) (bbXor (occBB p) (setMaskBB f))) eqn:CO; [discriminate H|].
    destruct (canPieceCapture2 p th t allZeroBB (discoveredCheckBB false p) (bbXor (occBB p) (setMaskBB f))) eqn:CT; [discriminate H|].
    match type of H with (if isAny ?b then _ else _) = _ => destruct (isAny b) eqn:KS; [discriminate H|] end. injection H as <-.
    assert (KN : negb (ptOf (at_ bd f) =? Lance) = true) by (destruct KD as [E|E]; rewrite E; reflexivity).
    rewrite <- (andb_true_l (canPromote2 us f t)), <- KN.
    apply (far_go f t one e true (ptOf (at_ bd f)) _ (bbOr (rookAttackToEdge t) (bishopAttackToEdge t))); auto.
    + apply not_true_iff_false. intros X. apply isAny_true_ex in X as (w & Hw & X); [|apply wf_and_l, kingAttack_ok; auto]. rewrite (isAny_ex_true _ w) in KS; [discriminate KS|]. rewrite isSet_and, isSet_not, !isSet_or in X by auto. rewrite isSet_and, isSet_not, !isSet_or by auto. rewrite <- orb_assoc. exact X.
    + intros y Hy R S. rewrite isSet_or in S. apply orb_prop in S as [S|S].
      * exfalso. apply rook_edge in S as (d & i & A & B & C & D); auto. destruct (adj_N th ko y Hth Ho Hy R) as (A1 & A2 & _). exact (edge_bishop_orth ko t y e d i He A B O2 C A1 A2 DG D).
      * apply bishop_edge in S as (d & i & A & B & C & D); auto. exists d, i. repeat (split; auto). left. right. auto.
Qed.
Lemma far_bishops one t e m : one < 81 -> t < 81 -> In e allDirs -> offs ko e 1 one -> offs ko e 2 t -> at_ bd one = 0 -> isCol bd us t = false -> exceptPawnExists (handOf p th) = false -> canPawnDrop p th one = false -> (ptOf (at_ bd t) = 1 -> makeFile t = makeFile one -> handExists (handOf p th) 0 = false) -> (fst e <> 0 /\ snd e <> 0)%Z -> firstSome (fun f => (if isPinnedIllegal f t k (pinnedBB p) then None
   else if canPieceCapture2 p th one (setMaskBB t) (discoveredCheckBB false p) (bbXor (occBB p) (setMaskBB f)) then None
   else if canPieceCapture2 p th t allZeroBB (discoveredCheckBB false p) (bbXor (occBB p) (setMaskBB f)) then None
   else if isAny (bbAnd (kingAttack ko) (bbNot (bbOr (bbOr (bbOr (bbC p th) (attacksAroundAvoiding p th f (bbOr (bbXor (occBB p) (setMaskBB f)) (setMaskBB t)))) (rookAttackToEdge t)) (bishopAttackToEdge t)))) then None
   else Some (if canPromote2 us f t && (N.land (ptOf (pieceAt p f)) 8 =? 0) then makePromoteMove p (ptOf (pieceAt p f)) f t else makeCaptureMove p (ptOf (pieceAt p f)) f t))) (bbList (bbOr (if andIsAny (bishopAttackToEdge t) (bbAnd (bbT2 p Bishop Horse) (bbC p us)) then bbAnd (bishopAttack t (occBB p)) (bbAnd (bbT2 p Bishop Horse) (bbC p us)) else allZeroBB) (if andIsAny (kingAttack t) (bbTC p Horse us) then bbAnd (kingAttack t) (bbTC p Horse us) else allZeroBB))) = Some m -> found p m.
Proof.
  intros H1 Ht He O1 O2 S1 Ct EX PD PT' DG H. assert (WC : wfBB (bbC p us)) by (apply wf_bbC; auto using U; apply G). apply firstSome_in in H as (f & If & H). cbv beta in H. apply in_bbList in If as [Hf Sf]; [exact (far_bishop1 one t e f m H1 Ht He O1 O2 S1 Ct EX PD PT' DG Hf Sf H)|].
  apply wf_or; match goal with |- wfBB (if ?c then _ else _) => destruct c end; try exact wf_zero; [apply wf_and_r, wf_and_r; exact WC|unfold bbTC; apply wf_and_r, wf_and_r; exact WC]. 
Qed.
Lemma far_sound m : mateFar p = Some m -> found p m.
Proof.
  pose proof U as Hu. pose proof T as Hth. rewrite mateFar_eq. cbv zeta. rewrite Eus, Eth, (bKo p us th ko bd G Eus Eth Ebd Eo).
  assert (EKu : kingSquare p us = k) by (rewrite kingSquare_view, Ebd by (auto; apply G); exact Ek). rewrite EKu.
  destruct (exceptPawnExists (handOf p th)) eqn:EX; [discriminate|]. match goal with |- (if ?c then _ else _) = _ -> _ => destruct c; [discriminate|] end.
  intros H. apply firstSome_in in H as (one & I & H). apply in_bbList in I as [H1 S1]; [|apply wf_and_r, kingAttack_ok; auto]. rewrite isSet_and in S1. apply andb_prop in S1 as [S1 S2]. apply empty_in in S1; auto.
  rewrite (bOcc p bd) in S1 by auto. unfold occOf in S1. apply negb_false_iff, N.eqb_eq in S1. assert (R1 : reach 8 th ko one = true) by (rewrite <- (af8 th ko allZeroBB), toEdge in S2 by (auto; lia); exact S2). clear S2.
  destruct (dir_to p us th k ko bd G Eus Eth Ek Hk Eo Ho NC ND one H1 R1) as (e & He & O1).
  destruct (N.eqb_spec (nextSquare ko one) 81) as [|N81]; [discriminate H|]. destruct (next_off ko one e 1 He Ho H1 ltac:(lia) O1 N81) as [Ht O2]. clear N81. revert Ht O2 H. generalize (nextSquare ko one) as t. intros t Ht O2 H.
  pose proof (off_add _ _ _ _ _ _ O1 O2) as O3. change (1 + 1)%Z with 2%Z in O3. clear O2. rename O3 into O2.
  destruct (negb (pieceAt p t =? Empty) && (colorOf (pieceAt p t) =? us)) eqn:Ct; [discriminate H|]. rewrite (gAt p bd Ebd) in Ct. change (isCol bd us t = false) in Ct.
  destruct (canPawnDrop p th one) eqn:PD; [discriminate H|]. destruct ((ptOf (pieceAt p t) =? Pawn) && (makeFile t =? makeFile one) && handExists (handOf p th) 0) eqn:PT; [discriminate H|].
  assert (PT' : ptOf (at_ bd t) = 1 -> makeFile t = makeFile one -> handExists (handOf p th) 0 = false).
  { intros A B. rewrite (gAt p bd Ebd), A, B in PT. unfold Pawn in PT. rewrite !N.eqb_refl, !andb_true_l in PT. exact PT. }
  clear PT. pose proof (front_dir p us th k ko bd G Eus Eth Ek Hk Eo Ho NC ND one e He O1) as FD. revert FD H. generalize ((makeFile ko =? makeFile one) && (one =? (if us =? Black then ko + 1 else ko - 1))) as cl. intros cl FD H.
  assert (DG : exists dg, negb (makeFile ko =? makeFile one) && negb (makeRank ko =? makeRank one) = dg /\ if dg then (fst e <> 0 /\ snd e <> 0)%Z else (fst e = 0 \/ snd e = 0)%Z).
  { exists (negb (makeFile ko =? makeFile one) && negb (makeRank ko =? makeRank one)). split; auto. rewrite (file_eq p us th k ko bd Eus Eth Ek Hk Eo Ho NC ND ko one e 1), (rank_eq p us th k ko bd Eus Eth Ek Hk Eo Ho NC ND ko one e 1) by (auto; lia). destruct (Z.eqb_spec (fst e) 0), (Z.eqb_spec (snd e) 0); cbn [negb andb]; auto. }
  destruct DG as (dg & ED & DG). rewrite ED in H. clear ED.
  match type of H with match ?x with _ => _ end = _ => destruct x as [m'|] eqn:HD; [injection H as <-|] end.
  { clear - HD p us th k ko bd G Eus Eth Ebd Ek Hk Eo Ho NC ND Hu Hth EX H1 Ht S1 He O1 O2 PD FD DG. cbv zeta in HD. revert HD. match goal with |- (if (?a =? 0) || _ then _ else _) = _ -> _ => assert (HP : a <> 0 -> 2 <= a <= 7 /\ handExists (handOf p us) (ptToHand a) = true /\ forall n s, s < 81 -> (1 <= n)%Z -> offs ko e n s -> sreach a us s ko = true) end.
    { assert (LR := line_reach p us th k ko bd Eus Eth Ek Hk Eo Ho NC ND). destruct dg.
      - destruct (handExists (handOf p us) 5) eqn:X; [|congruence]. intros _. unfold Bishop. split; [lia|]. split; [exact X|]. intros n s Hs Hn O. apply (LR 5 s e n); auto.
      - destruct (cl && handExists (handOf p us) 1) eqn:X.
        + apply andb_prop in X as [X1 X2]. intros _. unfold Lance. split; [lia|]. split; [exact X2|]. intros n s Hs Hn O. apply (LR 2 s e n); auto.
        + clear X. destruct (handExists (handOf p us) 6) eqn:X; [|congruence]. intros _. unfold Rook. split; [lia|]. split; [exact X|]. intros n s Hs Hn O. apply (LR 6 s e n); auto. }
    intros HD. apply (far_drops _ _ (if dg then bishopAttackToEdge else rookAttackToEdge) one t e m' H1 Ht He O1 O2 S1) in HD; auto.
    intros s y Hs Hy S. destruct dg; [apply bishop_edge in S as (d & i & A & B & C & D)|apply rook_edge in S as (d & i & A & B & C & D)]; auto; exists d, i; unfold sameClass; tauto. }
  clear HD.
  assert (DG' : if negb dg then (fst e = 0 \/ snd e = 0)%Z else (fst e <> 0 /\ snd e <> 0)%Z) by (destruct dg; exact DG). clear DG. rename DG' into DG. revert DG H. generalize (negb dg) as ng. intros ng DG H. destruct ng; cbv iota in H; [exact (far_rooks cl one t e m H1 Ht He O1 O2 S1 Ct EX PD PT' DG FD H)|].
  - exact (far_bishops one t e m H1 Ht He O1 O2 S1 Ct EX PD PT' DG H).
Qed.
End F.
