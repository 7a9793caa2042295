(* The piece generators enumerate, without repetition, the moves of their kind of piece to the target squares. *)
From Verif Require Export EnumN.
Local Open Scope N_scope.

(* when a move of piece type pt from s to t is written with (a) and without (b) promotion *)
Definition ruleA (pt us s t : N) : bool :=
  if (pt =? 1) || (pt =? 2) || (pt =? 3) then zoneB us t else if (pt =? 4) || (pt =? 5) || (pt =? 6) then zoneB us s || zoneB us t else false.
Definition ruleB (np : bool) (pt us s t : N) : bool :=
  if pt =? 1 then negb (zoneB us t) || (np && negb (rankFor us t =? 1))
  else if pt =? 2 then negb (zoneB us t) || (if np then 1 <? rankFor us t else 2 <? rankFor us t)
  else if pt =? 3 then negb (zoneB us t) || (2 <? rankFor us t)
  else if (pt =? 5) || (pt =? 6) then negb (zoneB us s || zoneB us t) || np
  else true.
Definition goSet (p : Position) (np : bool) (K : N -> bool) (target : BB) : mset := fun f t pr =>
  f < 81 /\ isCol (board p) (turn p) f = true /\ K (ptOf (pieceAt p f)) = true /\ att (board p) f t = true /\ isSet target t = true /\
  (if pr then ruleA (ptOf (pieceAt p f)) (turn p) f t else ruleB np (ptOf (pieceAt p f)) (turn p) f t) = true.

Lemma Enum_pn p s t (a b : bool) : s < 81 -> t < 81 ->
  Enum p (fun f' t' pr => f' = s /\ t' = t /\ (if pr then a else b) = true) ((if a then [enc p s t true] else []) ++ (if b then [enc p s t false] else [])).
Proof.
  intros Hs Ht. eapply Enum_ext; [apply Enum_app|].
  - apply Enum_if. intros _. apply Enum_one; lia.
  - apply Enum_if. intros _. apply Enum_one; lia.
  - intros f t' pr _ _ (_ & _ & _ & ->) (_ & _ & _ & X). discriminate X.
  - intros f t' pr _ _. cbv beta. split.
    + intros [(A & -> & -> & ->)|(A & -> & -> & ->)]; auto.
    + intros (-> & -> & X). destruct pr; auto.
Qed.
Lemma flat_map_ext_in {A B} (f g : A -> list B) l : (forall x, In x l -> f x = g x) -> flat_map f l = flat_map g l.
Proof. induction l as [|a l IH]; intros H; cbn [flat_map]; [reflexivity|]. rewrite H by now left. rewrite IH by (intros; apply H; now right). reflexivity. Qed.

Section G.
Variables (p : Position) (us : N) (bd : list N) (target : BB).
Hypotheses (V : views p) (Eus : turn p = us) (Ebd : board p = bd) (WT : wfBB target).
Lemma gUs : us < 2. Proof. rewrite <- Eus. apply V. Qed.
Lemma gOk s : s < 81 -> vpc (at_ bd s) = true. Proof. rewrite <- Ebd. apply (v_board p V). Qed.
Lemma gAt s : pieceAt p s = at_ bd s. Proof. rewrite <- Ebd. reflexivity. Qed.

(* the inner loop over the target squares of one piece *)
Lemma in_targets s t : s < 81 -> isCol bd us s = true ->
  (In t (bbList (bbAnd (attacksFrom (ptOf (pieceAt p s)) us s (occBB p)) target)) <-> t < 81 /\ att bd s t = true /\ isSet target t = true).
Proof.
  intros Hs C. rewrite in_bbList by now apply wf_and_r. rewrite isSet_and, andb_true_iff. unfold isCol in C. apply andb_prop in C as [C0 C1]. apply N.eqb_eq in C1.
  assert (Hp : 1 <= ptOf (at_ bd s) < 15) by (apply negb_true_iff, N.eqb_neq in C0; apply (vpc_facts _ (gOk s Hs) C0)).
  rewrite gAt. split.
  - intros (Ht & A & T). split; auto. split; auto. rewrite attacksFrom_spec in A by (auto using gUs). unfold att, attOcc. rewrite C0, C1, andb_true_l.
    rewrite (clear_ext (isSet (occBB p)) (occOf bd)) in A by (intros x Hx; rewrite <- Ebd; now apply isSet_occ_fun). exact A.
  - intros (Ht & A & T). split; auto. split; auto. rewrite attacksFrom_spec by (auto using gUs). unfold att, attOcc in A. rewrite C0, C1, andb_true_l in A.
    rewrite (clear_ext (isSet (occBB p)) (occOf bd)) by (intros x Hx; rewrite <- Ebd; now apply isSet_occ_fun). exact A.
Qed.
Lemma Enum_from L (g : N -> N -> list N) (a b : N -> N -> bool) : NoDup L -> (forall s, In s L -> s < 81 /\ isCol bd us s = true) ->
  (forall s t, In s L -> t < 81 -> att bd s t = true -> g s t = (if a s t then [enc p s t true] else []) ++ (if b s t then [enc p s t false] else [])) ->
  Enum p (fun f t pr => In f L /\ att bd f t = true /\ isSet target t = true /\ (if pr then a f t else b f t) = true)
    (flat_map (fun from => flat_map (g from) (bbList (bbAnd (attacksFrom (ptOf (pieceAt p from)) us from (occBB p)) target))) L).
Proof.
  intros N HL HG. eapply Enum_ext; [apply (Enum_flat p (fun s f t pr => f = s /\ att bd s t = true /\ isSet target t = true /\ (if pr then a s t else b s t) = true))|]; auto.
  - intros s Is. destruct (HL s Is) as [Hs Cs].
    eapply Enum_ext; [apply (Enum_flat p (fun t' f t pr => f = s /\ t = t' /\ (if pr then a s t' else b s t') = true))|].
    + apply NoDup_bbList. now apply wf_and_r.
    + intros t It. apply in_targets in It as (Ht & At & _); auto. rewrite HG by auto. now apply Enum_pn.
    + intros x y f t pr _ _ _ _ (_ & -> & _) (_ & E & _). exact E.
    + intros f t pr Hf Ht. cbv beta. split.
      * intros (t' & It & -> & -> & X). apply in_targets in It as (_ & A & T); auto.
      * intros (-> & A & T & X). exists t. split; auto. apply in_targets; auto.
  - intros x y f t pr _ _ _ _ (-> & _) (E & _). exact E.
  - intros f t pr Hf Ht. cbv beta. split.
    + intros (s & Is & -> & X). auto.
    + intros (Is & X). exists f. auto.
Qed.
Lemma in_bbTC pt s : 1 <= pt < 15 -> (In s (bbList (bbTC p pt us)) <-> s < 81 /\ isCol bd us s = true /\ ptOf (pieceAt p s) = pt).
Proof.
  intros Hp. unfold bbTC. rewrite in_bbList by (apply wf_and_r, wf_bbC; auto using gUs). rewrite isSet_and, andb_true_iff. split.
  - intros (Hs & A & B). rewrite isSet_bbT in A by auto. rewrite isSet_bbC in B by (auto using gUs). unfold isCol. rewrite <- gAt. split; auto. split; auto. now apply N.eqb_eq.
  - intros (Hs & A & B). split; auto. rewrite isSet_bbT, isSet_bbC by (auto using gUs). unfold isCol in A. rewrite <- gAt in A. split; auto. now apply N.eqb_eq.
Qed.
Lemma nodup_bbTC pt : NoDup (bbList (bbTC p pt us)).
Proof. apply NoDup_bbList. apply wf_and_r, wf_bbC; auto using gUs. Qed.
Lemma Enum_kind pt (np : bool) (g : N -> N -> list N) : 1 <= pt < 15 ->
  (forall s t, s < 81 -> t < 81 -> ptOf (pieceAt p s) = pt -> att bd s t = true ->
     g s t = (if ruleA pt us s t then [enc p s t true] else []) ++ (if ruleB np pt us s t then [enc p s t false] else [])) ->
  Enum p (goSet p np (N.eqb pt) target) (flat_map (fun from => flat_map (g from) (bbList (bbAnd (attacksFrom pt us from (occBB p)) target))) (bbList (bbTC p pt us))).
Proof.
  intros Hp HG.
  rewrite (flat_map_ext_in _ (fun from => flat_map (g from) (bbList (bbAnd (attacksFrom (ptOf (pieceAt p from)) us from (occBB p)) target))))
    by (intros s Is; apply in_bbTC in Is as (_ & _ & ->); auto).
  eapply Enum_ext; [apply (Enum_from _ g (ruleA pt us) (ruleB np pt us))|].
  - apply nodup_bbTC.
  - intros s Is. apply in_bbTC in Is; tauto.
  - intros s t Is Ht A. apply in_bbTC in Is as (Hs & _ & E); auto.
  - intros f t pr Hf Ht. cbv beta. unfold goSet. rewrite Eus, Ebd. rewrite in_bbTC by auto. split.
    + intros ((Hs & C & E) & A & T & X). rewrite E, N.eqb_refl. auto 10.
    + intros (Hs & C & E & A & T & X). apply N.eqb_eq in E. rewrite <- E in X. auto.
Qed.
Lemma Enum_bishopRook np pt : pt = 5 \/ pt = 6 -> Enum p (goSet p np (N.eqb pt) target) (genBishopRook np pt p target).
Proof.
  intros Hp. unfold genBishopRook. cbv zeta. rewrite Eus. apply Enum_kind; [unfold Lance, Knight, Silver; lia|]. intros s t Hs Ht E A.
  rewrite promote_code, nonpromote_code by auto. rewrite !canPromote_zone by (auto using gUs). unfold ruleA, ruleB.
  destruct Hp as [-> | ->]; cbv [N.eqb Pos.eqb orb]; destruct (zoneB us s), (zoneB us t), np; reflexivity.
Qed.
Lemma Enum_lance np : Enum p (goSet p np (N.eqb 2) target) (genLance np p target).
Proof.
  unfold genLance. cbv zeta. rewrite Eus. apply Enum_kind; [unfold Lance, Knight, Silver; lia|]. intros s t Hs Ht E A. change Lance with 2.
  rewrite promote_code, nonpromote_code by auto. rewrite !canPromote_zone, behind1, behind2 by (auto using gUs). unfold ruleA, ruleB.
  cbv [N.eqb Pos.eqb orb]; destruct (zoneB us t), np, (1 <? rankFor us t), (2 <? rankFor us t); reflexivity.
Qed.
Lemma Enum_knight np : Enum p (goSet p np (N.eqb 3) target) (genKnight p target).
Proof.
  unfold genKnight. cbv zeta. rewrite Eus. apply Enum_kind; [unfold Lance, Knight, Silver; lia|]. intros s t Hs Ht E A. change Knight with 3.
  rewrite promote_code, nonpromote_code by auto. rewrite !canPromote_zone, behind2 by (auto using gUs). unfold ruleA, ruleB.
  cbv [N.eqb Pos.eqb orb]; destruct (zoneB us t), (2 <? rankFor us t); reflexivity.
Qed.
Lemma Enum_silver np : Enum p (goSet p np (N.eqb 4) target) (genSilver p target).
Proof.
  unfold genSilver. cbv zeta. rewrite Eus. apply Enum_kind; [unfold Lance, Knight, Silver; lia|]. intros s t Hs Ht E A. change Silver with 4.
  rewrite promote_code, nonpromote_code by auto. rewrite !canPromote_zone by (auto using gUs). unfold ruleA, ruleB. reflexivity.
Qed.
Definition ghd (pt : N) : bool := (pt =? 7) || (9 <=? pt).
Lemma Enum_ghd np : Enum p (goSet p np ghd target) (genGoldHorseDragon p target).
Proof.
  unfold genGoldHorseDragon. cbv zeta. rewrite Eus.
  assert (IN : forall s, In s (bbList (bbAnd (bbOr (golds p) (bbT2 p Horse Dragon)) (bbC p us))) <-> s < 81 /\ isCol bd us s = true /\ ghd (ptOf (pieceAt p s)) = true).
  { intros s. rewrite in_bbList by (apply wf_and_r, wf_bbC; auto using gUs). rewrite isSet_and. unfold bbT2. rewrite !isSet_or.
    split; intros (Hs & X); (split; [auto|]).
    - rewrite isSet_golds, !isSet_bbT, isSet_bbC in X by (auto using gUs; unfold Horse, Dragon; lia). rewrite gAt in *. fold (isCol bd us s) in X. apply andb_prop in X as [X Y]. split; auto.
      rewrite !orb_true_iff in X. unfold ghd, isGoldPt, Horse, Dragon in *. lia.
    - rewrite isSet_golds, !isSet_bbT, isSet_bbC by (auto using gUs; unfold Horse, Dragon; lia). rewrite gAt in *. fold (isCol bd us s). destruct X as [C X]. rewrite C, andb_true_r.
      unfold isCol in C. apply andb_prop in C as [C0 _]. apply negb_true_iff, N.eqb_neq in C0. destruct (vpc_facts _ (gOk s Hs) C0) as (Hp & _). unfold ghd, isGoldPt, Horse, Dragon in *. lia. }
  eapply Enum_ext.
  - erewrite flat_map_ext_in; [apply (Enum_from (bbList (bbAnd (bbOr (golds p) (bbT2 p Horse Dragon)) (bbC p us))) (fun s t => [makeNonPromoteMove p (ptOf (pieceAt p s)) s t]) (fun _ _ => false) (fun _ _ => true))|].
    + apply NoDup_bbList. apply wf_and_r, wf_bbC; auto using gUs.
    + intros s Is. apply IN in Is. tauto.
    + intros s t Is Ht A. apply IN in Is as (Hs & _). now rewrite nonpromote_code by auto.
    + intros s Is. cbv beta. apply map_flat.
  - intros f t pr Hf Ht. cbv beta. rewrite IN. unfold goSet. rewrite Eus, Ebd.
    assert (R : ghd (ptOf (pieceAt p f)) = true -> ruleA (ptOf (pieceAt p f)) us f t = false /\ ruleB np (ptOf (pieceAt p f)) us f t = true).
    { generalize (ptOf (pieceAt p f)). intros q Q. unfold ghd in Q. unfold ruleA, ruleB. apply orb_prop in Q as [Q|Q].
      - apply N.eqb_eq in Q. subst q. split; reflexivity.
      - apply N.leb_le in Q. destruct (N.eqb_spec q 1); [lia|]. destruct (N.eqb_spec q 2); [lia|]. destruct (N.eqb_spec q 3); [lia|]. destruct (N.eqb_spec q 4); [lia|]. destruct (N.eqb_spec q 5); [lia|]. destruct (N.eqb_spec q 6); [lia|]. split; reflexivity. }
    split.
    + intros ((Hs & C & E) & A & T & X). destruct (R E) as [R1 R2]. rewrite R1, R2. auto 10.
    + intros (Hs & C & E & A & T & X). destruct (R E) as [R1 R2]. rewrite R1, R2 in X. auto 10.
Qed.
Lemma Enum_king np k : kingOf bd us = k -> k < 81 -> oneKing bd -> Enum p (goSet p np (N.eqb 8) target) (genKing p target).
Proof.
  intros Ek Hk O. unfold genKing. cbv zeta. rewrite Eus, kingSquare_view by (auto using gUs). rewrite Ebd, Ek.
  pose proof (kingOf_at bd us k Ek Hk) as K. assert (PK : ptOf (pieceAt p k) = 8) by (rewrite gAt, K, pt_mk; auto using gUs; unfold King; lia).
  assert (CK : isCol bd us k = true) by (unfold isCol; rewrite K, mk_nz, col_mk, N.eqb_refl by (auto using gUs; unfold King; lia); reflexivity).
  assert (E : map (makeNonPromoteMove p King k) (bbList (bbAnd (kingAttack k) target)) =
    flat_map (fun from => flat_map (fun t => [makeNonPromoteMove p (ptOf (pieceAt p from)) from t]) (bbList (bbAnd (attacksFrom (ptOf (pieceAt p from)) us from (occBB p)) target))) [k]).
  { cbn [flat_map]. rewrite app_nil_r, PK, af8. apply map_flat. }
  rewrite E. eapply Enum_ext; [apply (Enum_from [k] (fun s t => [makeNonPromoteMove p (ptOf (pieceAt p s)) s t]) (fun _ _ => false) (fun _ _ => true))|].
  - constructor; [intros []|constructor].
  - intros s [<-|[]]. auto.
  - intros s t [<-|[]] Ht A. now rewrite nonpromote_code by auto.
  - intros f t pr Hf Ht. cbv beta. unfold goSet. rewrite Eus, Ebd. split.
    + intros ([<-|[]] & A & T & X). rewrite PK. cbv [ruleA ruleB N.eqb Pos.eqb orb]. repeat split; auto.
    + intros (Hs & C & P8 & A & T & X). apply N.eqb_eq in P8. rewrite <- P8 in X. cbv [ruleA ruleB N.eqb Pos.eqb orb] in X. split; [left|auto].
      rewrite <- Ek. apply kingOf_here; auto using gUs. unfold isKing. apply N.eqb_eq. unfold isCol in C. apply andb_prop in C as [C0 C1]. apply negb_true_iff, N.eqb_neq in C0. apply N.eqb_eq in C1.
      destruct (vpc_facts _ (gOk f Hs) C0) as (_ & _ & Q). rewrite gAt in P8. rewrite Q, C1, <- P8. reflexivity.
Qed.
End G.
