(* Pawn moves: the generator shifts the whole set of pawns by one square. *)
From Verif Require Export GenN.
Local Open Scope N_scope.

Lemma testbit_w64 x i : N.testbit (w64 x) i = (i <? 64) && N.testbit x i.
Proof.
  unfold w64. change 0x10000000000000000 with (2 ^ 64). destruct (N.ltb_spec i 64) as [L|L]; [now rewrite N.mod_pow2_bits_low|now rewrite N.mod_pow2_bits_high].
Qed.
Lemma pawn_shift c b t : wfBB b -> t < 81 ->
  isSet (pawnAttackBB c b) t = if c =? 0 then negb (t =? 62) && negb (t =? 80) && isSet b (t + 1) else negb (t =? 0) && negb (t =? 63) && isSet b (t - 1).
Proof.
  intros [W0 W1] Ht. unfold pawnAttackBB. destruct (c =? 0); rewrite !isSet_tst; unfold tst.
  - unfold bbShr. cbn [p0 p1]. destruct (N.ltb_spec t 63) as [L|L]; rewrite N.shiftr_spec by apply N.le_0_l.
    + destruct (N.eqb_spec t 62) as [->|N]; cbn [negb andb]; [apply (lt_bits 63); auto; lia|]. destruct (N.eqb_spec t 80); [lia|]. destruct (N.ltb_spec (t + 1) 63); [|lia]. reflexivity.
    + destruct (N.eqb_spec t 62); [lia|]. destruct (N.eqb_spec t 80) as [->|N]; cbn [negb andb]; [apply (lt_bits 18); auto; lia|]. destruct (N.ltb_spec (t + 1) 63); [lia|]. f_equal. lia.
  - unfold bbShl. cbn [p0 p1]. rewrite !testbit_w64. destruct (N.ltb_spec t 63) as [L|L].
    + destruct (N.eqb_spec t 63); [lia|]. destruct (N.ltb_spec t 64); [|lia]. rewrite andb_true_l. destruct (N.eqb_spec t 0) as [->|N]; cbn [negb andb]; [apply N.shiftl_spec_low; lia|].
      rewrite N.shiftl_spec_high' by lia. destruct (N.ltb_spec (t - 1) 63); [|lia]. reflexivity.
    + destruct (N.eqb_spec t 0); [lia|]. destruct (N.ltb_spec (t - 63) 64); [|lia]. rewrite andb_true_l. destruct (N.eqb_spec t 63) as [->|N]; cbn [negb andb]; [apply N.shiftl_spec_low; lia|].
      rewrite N.shiftl_spec_high' by lia. destruct (N.ltb_spec (t - 1) 63); [lia|]. f_equal. lia.
Qed.
Definition behindSq (us t : N) : N := if us =? Black then t + 1 else t - 1.
Lemma pawn_reach us s t : us < 2 -> s < 81 -> t < 81 ->
  (reach 1 us s t = true <-> (if us =? 0 then t mod 9 <> 8 /\ s = t + 1 else t mod 9 <> 0 /\ s = t - 1)).
Proof.
  intros Hu Hs Ht. unfold reach. assert (C : us = 0 \/ us = 1) by lia. destruct C as [-> | ->]; cbn [stepsOf slidesOf existsb]; rewrite !orb_false_r, stepHits_iff by auto; unfold off, fz, rz; cbn [fst snd].
  - change (fwd 0) with (-1)%Z. change (0 =? 0) with true. cbv iota. split; intros; lia.
  - change (fwd 1) with 1%Z. change (1 =? 0) with false. cbv iota. split; intros; lia.
Qed.
Section P.
Variables (p : Position) (us : N) (bd : list N) (target : BB).
Hypotheses (V : views p) (Eus : turn p = us) (Ebd : board p = bd) (WT : wfBB target).
Hypothesis ND : forall s, s < 81 -> isCol bd us s = true -> ptOf (pieceAt p s) = 1 -> rankFor us s <> 1.
Lemma pawn_from s t : s < 81 -> t < 81 -> isCol bd us s = true -> ptOf (pieceAt p s) = 1 ->
  (att bd s t = true <-> (if us =? 0 then t mod 9 <> 8 /\ s = t + 1 else t mod 9 <> 0 /\ s = t - 1)).
Proof.
  intros Hs Ht C P1. pose proof (gUs p us V Eus) as Hu. rewrite <- pawn_reach by auto. unfold isCol in C. apply andb_prop in C as [C0 C1]. apply N.eqb_eq in C1. rewrite (gAt p bd Ebd) in P1.
  unfold att, attOcc. rewrite C0, C1, P1, andb_true_l. unfold reach. cbn [stepsOf slidesOf]. rewrite andb_true_iff. split; [tauto|]. intros R. split; auto.
  apply (stepsOf_clear 1 us); auto; [lia|]. rewrite orb_false_r in R. exact R.
Qed.
Lemma pawn_target t : t < 81 -> (isSet (pawnAttackBB us (bbTC p 1 us)) t = true <->
  behindSq us t < 81 /\ isCol bd us (behindSq us t) = true /\ ptOf (pieceAt p (behindSq us t)) = 1 /\ att bd (behindSq us t) t = true).
Proof.
  intros Ht. pose proof (gUs p us V Eus) as Hu. assert (WP : wfBB (bbTC p 1 us)) by (apply wf_and_r, wf_bbC; auto).
  rewrite pawn_shift by auto. unfold behindSq, Black.
  assert (IS : forall s, s < 81 -> (isSet (bbTC p 1 us) s = true <-> isCol bd us s = true /\ ptOf (pieceAt p s) = 1)).
  { intros s Hs. pose proof (in_bbTC p us bd V Eus Ebd 1 s) as H. rewrite in_bbList in H by auto. assert (H' := H ltac:(lia)). tauto. }
  destruct (N.eqb_spec us 0) as [E|E].
  - rewrite !andb_true_iff, !negb_true_iff, !N.eqb_neq. split.
    + intros ((N1 & N2) & S). assert (L : t + 1 < 81) by lia. apply IS in S as [C P1]; auto. split; auto. split; auto. split; auto. apply pawn_from; auto. rewrite E. change (0 =? 0) with true. cbv iota. split; auto.
      pose proof (ND (t + 1) L C P1) as R. unfold rankFor in R. rewrite E in R. change (0 =? 0) with true in R. cbv iota in R. lia.
    + intros (L & C & P1 & A). apply pawn_from in A; auto. rewrite E in A. change (0 =? 0) with true in A. cbv iota in A. split; [lia|]. now apply IS.
  - rewrite !andb_true_iff, !negb_true_iff, !N.eqb_neq. split.
    + intros ((N1 & N2) & S). assert (L : t - 1 < 81) by lia. apply IS in S as [C P1]; auto. split; auto. split; auto. split; auto. apply pawn_from; auto. rewrite (proj2 (N.eqb_neq _ _) E). split; auto.
      pose proof (ND (t - 1) L C P1) as R. unfold rankFor in R. rewrite (proj2 (N.eqb_neq _ _) E) in R. lia.
    + intros (L & C & P1 & A). apply pawn_from in A; auto. rewrite (proj2 (N.eqb_neq _ _) E) in A. split; [lia|]. now apply IS.
Qed.
Lemma Enum_pawn np : Enum p (goSet p np (N.eqb 1) target) (genPawn np p target).
Proof.
  pose proof (gUs p us V Eus) as Hu. unfold genPawn. cbv zeta. rewrite Eus. change Pawn with 1. change Black with 0.
  set (toBB := bbAnd (pawnAttackBB us (bbTC p 1 us)) target). assert (WB : wfBB toBB) by (now apply wf_and_r).
  set (zone := inFrontMask us (if us =? 0 then 3 else 5)).
  assert (Z : forall t, t < 81 -> isSet zone t = zoneB us t) by (intros t Ht; now apply isSet_front123).
  set (rest := if isAny (bbAnd toBB zone) then bbAndNot toBB zone else toBB).
  assert (WR : wfBB rest) by (unfold rest; destruct (isAny _); auto; now apply wf_andnot).
  assert (IZ : forall t, In t (bbList (bbAnd toBB zone)) <-> t < 81 /\ isSet toBB t = true /\ zoneB us t = true).
  { intros t. rewrite in_bbList by now apply wf_and_l. rewrite isSet_and, andb_true_iff. split; intros (A & B & C); repeat split; auto; [rewrite <- Z by auto|rewrite Z by auto]; auto. }
  assert (IR : forall t, In t (bbList rest) <-> t < 81 /\ isSet toBB t = true /\ zoneB us t = false).
  { intros t. rewrite in_bbList by auto. unfold rest. destruct (isAny (bbAnd toBB zone)) eqn:A; split; intros [Ht X]; (split; [auto|]).
    - rewrite isSet_andnot in X by auto. apply andb_prop in X as [X Y]. rewrite Z in Y by auto. split; auto. now apply negb_true_iff.
    - destruct X as [X Y]. rewrite isSet_andnot, X, Z, Y by auto. reflexivity.
    - split; auto. apply isAny_false with (s := t) in A. rewrite isSet_and, X, Z in A by auto. exact A.
    - tauto. }
  assert (TB : forall t, t < 81 -> (isSet toBB t = true <-> (behindSq us t < 81 /\ isCol bd us (behindSq us t) = true /\ ptOf (pieceAt p (behindSq us t)) = 1 /\ att bd (behindSq us t) t = true) /\ isSet target t = true)).
  { intros t Ht. unfold toBB. rewrite isSet_and, andb_true_iff, pawn_target by auto. tauto. }
  fold (behindSq us). change (fun to : N => if us =? 0 then to + 1 else to - 1) with (behindSq us).
  assert (R9 : forall t, makeRank t = (if us =? 0 then 0 else 8) <-> rankFor us t = 1).
  { intros t. unfold makeRank, rankFor. pose proof (N.mod_lt t 9). destruct (us =? 0); lia. }
  eapply Enum_ext; [apply Enum_app|].
  - apply (Enum_flat p (fun t0 f t pr => t = t0 /\ f = behindSq us t0 /\ (if pr then true else np && negb (rankFor us t0 =? 1)) = true)).
    + apply NoDup_bbList. now apply wf_and_l.
    + intros t It. apply IZ in It as (Ht & Tt & Zt). apply TB in Tt as ((Lb & Cb & Pb & Ab) & _); auto.
      rewrite promote_code, nonpromote_code by auto.
      apply (Enum_ext p (fun f' t' pr => f' = behindSq us t /\ t' = t /\ (if pr then true else np && negb (rankFor us t =? 1)) = true)); [|intros f t' pr Hf Ht'; split; intros X].
      * pose proof (Enum_pn p (behindSq us t) t true (np && negb (rankFor us t =? 1)) Lb Ht) as X.
        replace (enc p (behindSq us t) t true :: _) with ((if true then [enc p (behindSq us t) t true] else []) ++ (if np && negb (rankFor us t =? 1) then [enc p (behindSq us t) t false] else [])); [exact X|].
        cbn [app]. f_equal. destruct np; [|reflexivity]. cbn [andb]. destruct (N.eqb_spec (makeRank t) (if us =? 0 then 0 else 8)) as [Q|Q]; rewrite R9 in Q.
        -- now rewrite Q.
        -- apply N.eqb_neq in Q. now rewrite Q.
      * destruct X as (-> & -> & X). auto.
      * destruct X as (-> & -> & X). auto.
    + intros x y f t pr _ _ _ _ (-> & _) (E & _). exact E.
  - rewrite map_flat. apply (Enum_flat p (fun t0 f t pr => t = t0 /\ f = behindSq us t0 /\ pr = false)).
    + now apply NoDup_bbList.
    + intros t It. apply IR in It as (Ht & Tt & Zt). apply TB in Tt as ((Lb & Cb & Pb & Ab) & _); auto. rewrite nonpromote_code by auto.
      eapply Enum_ext; [apply (Enum_one p (behindSq us t) t false); lia|]. intros f t' pr _ _. cbv beta. tauto.
    + intros x y f t pr _ _ _ _ (-> & _) (E & _). exact E.
  - intros f t pr _ _ (x & Ix & -> & _) (y & Iy & <- & _). apply IZ in Ix. apply IR in Iy. destruct Ix as (_ & _ & Q), Iy as (_ & _ & Q'). congruence.
  - intros f t pr Hf Ht. cbv beta. unfold goSet. rewrite Eus, Ebd. split.
    + intros [(x & Ix & -> & -> & X)|(x & Ix & -> & -> & ->)].
      * apply IZ in Ix as (Hx & Tx & Zx). apply TB in Tx as ((Lb & Cb & Pb & Ab) & Tx); auto. rewrite Pb. unfold ruleA, ruleB. cbv [N.eqb Pos.eqb orb]. rewrite Zx. cbn [negb]. repeat split; auto.
      * apply IR in Ix as (Hx & Tx & Zx). apply TB in Tx as ((Lb & Cb & Pb & Ab) & Tx); auto. rewrite Pb. unfold ruleB. cbv [N.eqb Pos.eqb orb]. rewrite Zx. cbn [negb]. repeat split; auto.
    + intros (Hs & C & P1 & A & T & X). apply N.eqb_eq in P1. symmetry in P1. assert (FB : f = behindSq us t) by (apply pawn_from in A; auto; unfold behindSq, Black; destruct (us =? 0); tauto).
      rewrite P1 in X. unfold ruleA, ruleB in X. cbv [N.eqb Pos.eqb orb] in X.
      assert (TT : isSet toBB t = true) by (apply TB; auto; rewrite <- FB; auto 10).
      destruct (zoneB us t) eqn:Zt.
      * left. exists t. split; [apply IZ; auto|]. cbn [negb] in X. split; [reflexivity|]. split; [exact FB|]. destruct pr; [reflexivity|exact X].
      * right. exists t. split; [apply IR; auto|]. split; [reflexivity|]. split; [exact FB|]. destruct pr; [discriminate X|reflexivity].
Qed.
(* all seven piece generators *)
Lemma goSet_kinds np K K' : (forall q, 1 <= q < 15 -> K q = K' q) -> forall f t pr, f < 128 -> t < 81 -> goSet p np K target f t pr <-> goSet p np K' target f t pr.
Proof.
  intros H f t pr _ _. unfold goSet. split; intros (A & B & C & D); (split; [exact A|]; split; [exact B|]; split; [|exact D]).
  - rewrite <- H; auto. unfold isCol in B. apply andb_prop in B as [B _]. apply negb_true_iff, N.eqb_neq in B. apply (vpc_facts _ (proj2 (v_board p V) f A) B).
  - rewrite H; auto. unfold isCol in B. apply andb_prop in B as [B _]. apply negb_true_iff, N.eqb_neq in B. apply (vpc_facts _ (proj2 (v_board p V) f A) B).
Qed.
Lemma Enum_or np K K' l l' : Enum p (goSet p np K target) l -> Enum p (goSet p np K' target) l' -> (forall q, K q = true -> K' q = true -> False) ->
  Enum p (goSet p np (fun q => K q || K' q) target) (l ++ l').
Proof.
  intros A B D. eapply Enum_ext; [apply Enum_app; [exact A|exact B|]|].
  - intros f t pr _ _ (_ & _ & X & _) (_ & _ & Y & _). eauto.
  - intros f t pr _ _. unfold goSet. cbv beta. rewrite orb_true_iff. tauto.
Qed.
Lemma Enum_pieces np : Enum p (goSet p np (fun q => negb (q =? 8)) target) (genPieces np p target).
Proof.
  unfold genPieces. eapply Enum_ext.
  - apply Enum_or; [apply Enum_pawn| |].
    + apply Enum_or; [apply (Enum_lance p us bd); auto| |].
      * apply Enum_or; [apply (Enum_knight p us bd); auto| |].
        { apply Enum_or; [apply (Enum_silver p us bd); auto| |].
          - apply Enum_or; [apply (Enum_bishopRook p us bd target V Eus Ebd WT np 5); auto| |].
            + apply Enum_or; [apply (Enum_bishopRook p us bd target V Eus Ebd WT np 6); auto|apply (Enum_ghd p us bd); auto|].
              intros q; cbv beta; unfold ghd; rewrite ?orb_true_iff, ?N.eqb_eq, ?N.leb_le; lia.
            + intros q; cbv beta; unfold ghd; rewrite ?orb_true_iff, ?N.eqb_eq, ?N.leb_le; lia.
          - intros q; cbv beta; unfold ghd; rewrite ?orb_true_iff, ?N.eqb_eq, ?N.leb_le; lia. }
        { intros q; cbv beta; unfold ghd; rewrite ?orb_true_iff, ?N.eqb_eq, ?N.leb_le; lia. }
      * intros q; cbv beta; unfold ghd; rewrite ?orb_true_iff, ?N.eqb_eq, ?N.leb_le; lia.
    + intros q; cbv beta; unfold ghd; rewrite ?orb_true_iff, ?N.eqb_eq, ?N.leb_le; lia.
  - apply goSet_kinds. intros q Hq. cbv beta. unfold ghd.
    destruct (pt_cases q Hq) as [->|[->|[->|[->|[->|[->|[->|[->|[->|[->|[->|[->|[->| ->]]]]]]]]]]]]]; reflexivity.
Qed.
End P.
