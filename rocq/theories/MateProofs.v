(* The mate search is sound. *)
From Verif Require Export MateMoves DrawFinal.
Local Open Scope Z_scope.

Lemma existsb_In (A : Type) (f : A -> bool) l : existsb f l = true -> exists x, In x l /\ f x = true.
Proof. apply existsb_exists. Qed.
Lemma firstOf_some f l m : firstOf f l = Some (Some m) -> In m l /\ f m = Some true.
Proof.
  induction l as [|x l IH]; cbn [firstOf]; [discriminate|]. destruct (f x) as [[|]|] eqn:E; try discriminate.
  - intros [= <-]. split; [now left|exact E].
  - intros H. destruct (IH H). split; auto. now right.
Qed.
Lemma allOf_true f l : allOf f l = Some true -> forall m, In m l -> f m = Some true.
Proof.
  induction l as [|x l IH]; cbn [allOf]; [intros _ m []|]. destruct (f x) as [[|]|] eqn:E; try discriminate. intros H m [<-|I]; auto.
Qed.

Local Open Scope N_scope.
(* the moves of the defender's list *)
Lemma ruleB_mono q us f t : ruleB false q us f t = true -> ruleB true q us f t = true.
Proof.
  unfold ruleB. intros H. repeat match type of H with context [if ?c then _ else _] => destruct c end; auto; apply orb_prop in H as [H|H]; rewrite ?H; auto using orb_true_r; try discriminate H.
  apply N.ltb_lt in H. rewrite (proj2 (N.ltb_lt 1 (rankFor us t))); [apply orb_true_r|lia].
Qed.
Lemma in_part (A : Type) (c : bool) (m : A) k g g' d : (In m g -> In m g') -> In m (if c then k else k ++ g ++ d) -> In m (if c then k else k ++ g' ++ d).
Proof. destruct c; auto. rewrite !in_app_iff. tauto. Qed.
Lemma ev_sub z p m : good p -> cached z p -> kingOf (board p) (turn p) < 81 ->
  (forall s, s < 81 -> isCol (board p) (turn p) s = true -> ptOf (pieceAt p s) = 1 -> rankFor (turn p) s <> 1) ->
  In m (genEvasion false p) -> In m (genEvasion true p).
Proof.
  intros G C Hk ND. rewrite !ev_split. pose proof (g_views p G) as V. apply in_part.
  assert (W : wfBB (evTarget2 p)).
  { apply wf_or; [|apply (wf_checkers z p G C)]. apply wf_betweenBB.
    - destruct (last_in _ 0 (bbList (checkers p))) as [->|L]; [lia|]. apply in_bbList in L; [tauto|apply (wf_checkers z p G C)].
    - rewrite kingSquare_view by auto using good_turn. exact Hk. }
  pose proof (proj2 (Enum_pieces p (turn p) (board p) (evTarget2 p) V eq_refl eq_refl W ND true) m) as E1.
  pose proof (proj2 (Enum_pieces p (turn p) (board p) (evTarget2 p) V eq_refl eq_refl W ND false) m) as E2.
  rewrite E1, E2. intros (f & t & pr & Hf & Ht & (L & Cf & Kf & A & T & Ru) & ->). exists f, t, pr. do 2 (split; auto). split; [|reflexivity]. unfold goSet. do 5 (split; auto).
  destruct pr; auto using ruleB_mono.
Qed.
Lemma and_sound z b m : okZob z -> reachable z b -> playable (abs (bpos b)) -> inCheck (bpos b) = true -> In m (andMoves (bpos b)) ->
  exists mv, m = code (bpos b) mv /\ legal (abs (bpos b)) mv.
Proof.
  intros Z R K IC I. assert (J : In m (legalMoves (bpos b))).
  { destruct (reachable_ok z b Z R) as [G C]. destruct K as [K D]. revert G C K D IC I. generalize (bpos b) as p. clear R. intros p G C K D IC I.
    assert (Hk : kingOf (board p) (turn p) < 81) by (apply king_there; auto using good_turn).
    unfold andMoves, removeIllegal in I. cbv zeta in I. apply (Permutation_in _ (removeLoop_perm _ _ _ (le_n _))) in I. apply filter_In in I as [I Kp].
    unfold legalMoves, genLegalAll. rewrite IC. unfold removeIllegal. cbv zeta. apply (Permutation_in _ (Permutation_sym (removeLoop_perm _ _ _ (le_n _)))). apply filter_In. split; auto.
    exact (ev_sub z p m G C Hk (no_dead p G D) I). }
  destruct (reachable_ok z b Z R) as [G C]. apply (proj2 (list_exact z (bpos b) G C K)) in J as (mv & L & E). eauto.
Qed.
Local Close Scope N_scope.
Section S.
Variables (z : Zob) (b : Board) (V : list move -> Rep -> Prop) (L : Z).
Hypotheses (Z : okZob z).
Let P := abs (bpos b).
Hypothesis HV : forall ms r, legal_line no_double_pass P (map Some ms) -> Z.of_nat (length ms) <= L -> r = RepetitionWin \/ r = RepetitionLose -> isDraw (bpos (replay z b (map Some ms))) 16 = Some r -> V ms r.
Definition here (ms : list move) (b' : Board) : Prop :=
  b' = replay z b (map Some ms) /\ reachable z b' /\ well_formed (abs (bpos b')) /\ same_position (abs (bpos b')) (now P ms) /\ legal_line no_double_pass P (map Some ms).
Notation pos b' := (abs (bpos b')).

Lemma here_start : reachable z b -> well_formed P -> here [] b.
Proof. intros R W. split; [reflexivity|]. split; [exact R|]. split; [exact W|]. split; [apply same_refl|exact I]. Qed.
Lemma here_push ms b' mv : here ms b' -> legal (pos b') mv -> here (mv :: ms) (push z b' (code (bpos b') mv)).
Proof.
  intros (E & R & W & S & Ln) [L0 _]. destruct (check_after_push z b' mv Z R L0) as (SP & _). split; [now rewrite E|]. split; [now apply reachable_push|]. split.
  - eapply well_formed_same; [apply same_sym; exact SP|]. now apply play_well_formed.
  - split; [eapply same_trans; [exact SP|]; now apply play_same|]. split; [|exact Ln]. eapply legal0_same; [exact S|exact L0].
Qed.
Lemma here_legal ms b' mv : here ms b' -> (legal (pos b') mv <-> legal (now P ms) mv).
Proof. intros (_ & _ & _ & S & _). split; apply legal_same; auto using same_sym. Qed.
Lemma here_check ms b' : here ms b' -> (inCheck (bpos b') = true <-> in_check (now P ms) (side (now P ms))).
Proof.
  intros (_ & R & _ & S & _). destruct (check_status z b' Z R) as [C _]. rewrite C, (proj2 (proj2 S)). split; apply in_check_same; auto using same_sym.
Qed.
Lemma here_checks ms b' mv : here ms b' -> legal (pos b') mv -> in_check (play (pos b') mv) (other (side (pos b'))) -> in_check (play (now P ms) mv) (other (side (now P ms))).
Proof. intros (_ & _ & _ & S & _) _ H. rewrite <- (proj2 (proj2 S)). eapply in_check_same; [apply play_same; exact S|exact H]. Qed.
Lemma here_gives ms b' mv : here ms b' -> legal (pos b') mv ->
  moveGivesCheck (bpos b') (code (bpos b') mv) (checkInfo (bpos b')) = inCheck (bpos (push z b' (code (bpos b') mv))) /\
  doMoveCI z (bpos b') (code (bpos b') mv) (checkInfo (bpos b')) (moveGivesCheck (bpos b') (code (bpos b') mv) (checkInfo (bpos b'))) = bpos (push z b' (code (bpos b') mv)).
Proof. intros (_ & R & _ & _) [L0 _]. destruct (check_after_push z b' mv Z R L0) as (_ & _ & E & _). split; [exact E|reflexivity]. Qed.
Lemma here_held ms b' mv : here ms b' -> held_back (pos b') mv -> held_back (now P ms) mv.
Proof.
  intros (_ & _ & _ & S & _) (s & t & k & -> & Lg & A & K). exists s, t, k. split; [reflexivity|]. split; [eapply legal_same; eauto|]. destruct S as (S1 & _ & S3). rewrite <- S1, <- S3. auto.
Qed.
(* the attacker's moves: legal, checking, and doMove told so *)
Lemma or_step ms b' m : here ms b' -> In m (orMoves (inCheck (bpos b')) (bpos b')) ->
  exists mv, m = code (bpos b') mv /\ legal (now P ms) mv /\ in_check (play (now P ms) mv) (other (side (now P ms))) /\
    here (mv :: ms) (push z b' m) /\ inCheck (bpos (push z b' m)) = true /\ doMoveCI z (bpos b') m (checkInfo (bpos b')) true = bpos (push z b' m).
Proof.
  intros H I. pose proof H as (_ & R & W & _). destruct (or_sound z b' m Z R (wf_playable _ W) I) as (mv & -> & Lg & IC). exists mv. split; [reflexivity|].
  split; [now apply (here_legal ms b')|]. pose proof (here_checks ms b' mv H Lg IC) as IC'. split; [exact IC'|]. pose proof (here_push ms b' mv H Lg) as H'. split; [exact H'|].
  assert (C : inCheck (bpos (push z b' (code (bpos b') mv))) = true).
  { apply (here_check _ _ H'). change (now P (mv :: ms)) with (play (now P ms) mv). replace (side (play (now P ms) mv)) with (other (side (now P ms))) by (now destruct mv). exact IC'. }
  split; [exact C|]. destruct (here_gives ms b' mv H Lg) as [E1 E2]. rewrite E1, C in E2. exact E2.
Qed.
(* the defender's moves *)
Lemma and_step (n : nat) ms b' : here ms b' -> inCheck (bpos b') = true ->
  (forall mv, legal (pos b') mv -> In (code (bpos b') mv) (andMoves (bpos b')) -> here (mv :: ms) (push z b' (code (bpos b') mv)) -> wins V P n (mv :: ms)) -> lost V P (S n) ms.
Proof.
  intros H C F. pose proof H as (_ & R & W & _). apply l_replies; [now apply (here_check ms b')|]. intros r Lr. apply (here_legal ms b' r H) in Lr.
  destruct (and_complete z b' r Z R (wf_playable _ W) C Lr) as [I|I]; [right|left; now apply (here_held ms b')]. apply F; auto. now apply here_push.
Qed.
Lemma one_ply ms b' : here ms b' -> inCheck (bpos b') = false -> mateMoveIn1Ply (bpos b') <> 0%N -> wins V P 1 ms.
Proof.
  intros H C M. pose proof H as (_ & R & W & S & _). destruct (check_status z b' Z R) as [CS _].
  assert (NC : ~ in_check (pos b') (side (pos b'))) by (rewrite <- CS, C; discriminate).
  destruct (search_board z b' Z R (wf_playable _ W) NC M) as [(Lg & IC & NR) _]. revert Lg IC NR. generalize (moveN (mateMoveIn1Ply (bpos b'))) as mv. intros mv Lg IC NR.
  pose proof (here_checks ms b' mv H Lg IC) as IC'. apply (w_move V P 0 ms mv); [now apply (here_legal ms b')|exact IC'|].
  apply l_mated.
  - change (now P (mv :: ms)) with (play (now P ms) mv). replace (side (play (now P ms) mv)) with (other (side (now P ms))) by (now destruct mv). exact IC'.
  - intros r Lr. apply (NR r). change (now P (mv :: ms)) with (play (now P ms) mv) in Lr. eapply legal_same; [|exact Lr]. apply play_same. apply same_sym. exact S.
Qed.
Lemma three_ply ms b' : here ms b' -> mate3 z (inCheck (bpos b')) (bpos b') = true -> wins V P 3 ms.
Proof.
  intros H M. unfold mate3 in M. cbv zeta in M. apply existsb_In in M as (m & I & M). destruct (or_step ms b' m H I) as (mv & _ & Lg & IC & H1 & C1 & E1). rewrite E1 in M.
  apply (w_move V P 2 ms mv Lg IC). apply (and_step 1 _ _ H1 C1). intros r Lr Ir H2. pose proof (proj1 (forallb_forall _ _) M _ Ir) as Q. cbv beta in Q. apply andb_prop in Q as [Q1 Q2].
  destruct (here_gives _ _ r H1 Lr) as [G1 G2]. apply negb_true_iff in Q1. rewrite Q1 in G1, G2. rewrite G2 in Q2. apply (one_ply _ _ H2); [now symmetry|]. now apply negb_true_iff, N.eqb_neq in Q2.
Qed.
Lemma here_rule ms b' r : here ms b' -> Z.of_nat (length ms) <= L -> r = RepetitionWin \/ r = RepetitionLose -> isDraw (bpos b') 16 = Some r -> V ms r.
Proof. intros (-> & _ & _ & _ & Ln) B R E. now apply HV. Qed.
Lemma odd_ply even (n : nat) ms b' d m : here ms b' -> Z.of_nat (S (length ms)) <= L ->
  (forall ms' b1, length ms' = S (length ms) -> here ms' b1 -> inCheck (bpos b1) = true -> even (bpos b1) (d - 1) = Some true -> lost V P n ms') ->
  oddPly even z (inCheck (bpos b')) (bpos b') d = Some (Some m) ->
  exists mv, m = code (bpos b') mv /\ legal (now P ms) mv /\ in_check (play (now P ms) mv) (other (side (now P ms))) /\ lost V P n (mv :: ms).
Proof.
  intros H B F E. unfold oddPly in E. cbv zeta in E. apply firstOf_some in E as [I E]. destruct (or_step ms b' m H I) as (mv & Em & Lg & IC & H1 & C1 & E1). rewrite E1 in E.
  exists mv. do 3 (split; auto). destruct (isDraw (bpos (push z b' m)) 16) as [r|] eqn:D; [|discriminate E].
  destruct r; try discriminate E; try (now apply (F (mv :: ms) (push z b' m))).
  apply l_rule. apply (here_rule _ _ _ H1); auto. 
Qed.
Lemma even_ply fuel : forall (n : nat) ms b', here ms b' -> inCheck (bpos b') = true -> (1 <= n)%nat -> Z.of_nat (length ms) + Z.max 1 (2 * Z.of_nat n - 3) <= L ->
  evenPly z fuel (bpos b') (2 * Z.of_nat n) = Some true -> lost V P (2 * n) ms.
Proof.
  induction fuel as [|fuel IH]; intros n ms b' H C Hn B E; [discriminate E|]. cbn [evenPly] in E. cbv zeta in E. pose proof (allOf_true _ _ E) as A. clear E.
  replace (2 * n)%nat with (S (2 * n - 1)) by lia. apply (and_step _ _ _ H C). intros mv Lg I H1. specialize (A _ I). cbv beta zeta in A.
  destruct (here_gives _ _ mv H Lg) as [G1 G2]. rewrite G2 in A. rewrite G1 in A. clear G1 G2. revert A H1. generalize (push z b' (code (bpos b') mv)) as b1. intros b1 A H1.
  destruct (isDraw (bpos b1) 16) as [r|] eqn:D; [|discriminate A].
  assert (Go : (if 2 * Z.of_nat n =? 4 then Some (mate3 z (inCheck (bpos b1)) (bpos b1))
                else if 2 * Z.of_nat n =? 2 then Some (negb (inCheck (bpos b1)) && negb (mateMoveIn1Ply (bpos b1) =? 0)%N)
                else option_map (fun r => match r with Some _ => true | None => false end) (oddPly (evenPly z fuel) z (inCheck (bpos b1)) (bpos b1) (2 * Z.of_nat n - 1))) = Some true ->
          wins V P (2 * n - 1) (mv :: ms)).
  { clear A. intros A. destruct (Z.eqb_spec (2 * Z.of_nat n) 4) as [E4|N4].
    - assert (n = 2%nat) as -> by lia. injection A as A. now apply (three_ply _ b1).
    - destruct (Z.eqb_spec (2 * Z.of_nat n) 2) as [E2|N2].
      + assert (n = 1%nat) as -> by lia. injection A as A. apply andb_prop in A as [A1 A2]. apply (one_ply _ b1); auto; [now apply negb_true_iff|now apply negb_true_iff, N.eqb_neq in A2].
      + destruct (oddPly (evenPly z fuel) z (inCheck (bpos b1)) (bpos b1) (2 * Z.of_nat n - 1)) as [[m|]|] eqn:O; try discriminate A.
        assert (Len : length (mv :: ms) = S (length ms)) by reflexivity.
        destruct (odd_ply (evenPly z fuel) (2 * (n - 1)) (mv :: ms) b1 (2 * Z.of_nat n - 1) m H1) as (mv2 & _ & Lg2 & IC2 & Lo); [rewrite Len; lia| |exact O|].
        * intros ms' b2 L' H2 C2 E2. apply (IH (n - 1)%nat ms' b2 H2 C2); [lia|rewrite L', Len; lia|]. replace (2 * Z.of_nat (n - 1)) with (2 * Z.of_nat n - 1 - 1) by lia. exact E2.
        * replace (2 * n - 1)%nat with (S (2 * (n - 1))) by lia. now apply (w_move V P _ _ mv2). }
  destruct r; try discriminate A; try (exact (Go A)). apply w_rule. apply (here_rule _ b1); auto. cbn [length]. lia.
Qed.
(* the search ends, and no state outside the history is read *)
Lemma firstOf_defined f l : (forall m, In m l -> exists r, f m = Some r) -> exists r, firstOf f l = Some r.
Proof.
  induction l as [|x l IH]; cbn [firstOf]; intros H; [eauto|]. destruct (H x) as ([|] & ->); [now left|eauto|]. apply IH. intros m I. apply H. now right.
Qed.
Lemma allOf_defined f l : (forall m, In m l -> exists r, f m = Some r) -> exists r, allOf f l = Some r.
Proof.
  induction l as [|x l IH]; cbn [allOf]; intros H; [eauto|]. destruct (H x) as ([|] & ->); [now left| |eauto]. apply IH. intros m I. apply H. now right.
Qed.
Hypothesis HD : forall ms, legal_line no_double_pass P (map Some ms) -> exists r, isDraw (bpos (replay z b (map Some ms))) 16 = Some r.
Lemma here_draw ms b' : here ms b' -> exists r, isDraw (bpos b') 16 = Some r.
Proof. intros (-> & _ & _ & _ & Ln). now apply HD. Qed.
Lemma odd_defined even ms b' d : here ms b' ->
  (forall mv b1, here (mv :: ms) b1 -> inCheck (bpos b1) = true -> exists r, even (bpos b1) (d - 1) = Some r) -> exists r, oddPly even z (inCheck (bpos b')) (bpos b') d = Some r.
Proof.
  intros H F. unfold oddPly. cbv zeta. apply firstOf_defined. intros m I. destruct (or_step ms b' m H I) as (mv & Em & Lg & IC & H1 & C1 & E1). rewrite E1.
  destruct (here_draw _ _ H1) as (r & ->). specialize (F mv _ H1 C1). destruct r; eauto.
Qed.
Lemma even_defined fuel : forall (n : nat) ms b', here ms b' -> inCheck (bpos b') = true -> (1 <= n <= fuel)%nat -> exists r, evenPly z fuel (bpos b') (2 * Z.of_nat n) = Some r.
Proof. clear HV V L.
  induction fuel as [|fuel IH]; intros n ms b' H C Hn; [lia|]. cbn [evenPly]. cbv zeta. apply allOf_defined. intros m I. pose proof H as (_ & R & W & _).
  destruct (and_sound z b' m Z R (wf_playable _ W) C I) as (mv & -> & Lg). destruct (here_gives _ _ mv H Lg) as [_ G2]. rewrite G2. destruct (here_gives _ _ mv H Lg) as [G1 _]. rewrite G1. clear G1 G2.
  pose proof (here_push ms b' mv H Lg) as H1. revert H1. generalize (push z b' (code (bpos b') mv)) as b1. intros b1 H1. destruct (here_draw _ _ H1) as (r & ->).
  assert (Go : exists r', (if 2 * Z.of_nat n =? 4 then Some (mate3 z (inCheck (bpos b1)) (bpos b1))
                else if 2 * Z.of_nat n =? 2 then Some (negb (inCheck (bpos b1)) && negb (mateMoveIn1Ply (bpos b1) =? 0)%N)
                else option_map (fun r => match r with Some _ => true | None => false end) (oddPly (evenPly z fuel) z (inCheck (bpos b1)) (bpos b1) (2 * Z.of_nat n - 1))) = Some r').
  { destruct (Z.eqb_spec (2 * Z.of_nat n) 4) as [E4|N4]; [eauto|]. destruct (Z.eqb_spec (2 * Z.of_nat n) 2) as [E2|N2]; [eauto|].
    destruct (odd_defined (evenPly z fuel) (mv :: ms) b1 (2 * Z.of_nat n - 1) H1) as (o & ->); [|cbn [option_map]; eauto].
    intros mv2 b2 H2 C2. replace (2 * Z.of_nat n - 1 - 1) with (2 * Z.of_nat (n - 1)) by lia. apply (IH (n - 1)%nat _ _ H2 C2). lia. }
  destruct r; eauto.
Qed.
End S.
