(* Step attacks, the piece-type dispatch attacksFrom and betweenBB agree with the geometry. *)
From Verif Require Export GeoProofs BitboardProofs AttackProofs Position.

Lemma colors2 c : c < 2 -> In c [0; 1].
Proof. intros H. assert (c = 0 \/ c = 1) as [->| ->] by lia; cbn; auto. Qed.
Lemma forallb_colors (f : N -> bool) : forallb f [0; 1] = true -> forall c, c < 2 -> f c = true.
Proof. intros H c Hc. rewrite forallb_forall in H. apply H. now apply colors2. Qed.

(* t is one step from s in one of the directions *)
Definition stepIn (ds : list dir) (s t : N) : bool := existsb (fun d => stepHits d s t) ds.
Definition rayIn (ds : list dir) (s t : N) : bool := existsb (fun d => memN t (ray d s)) ds.
Lemma reach_eq pt c s t : reach pt c s t = stepIn (stepsOf pt c) s t || rayIn (slidesOf pt c) s t.
Proof. reflexivity. Qed.

(* the squares one step away *)
Definition stepList (ds : list dir) (s : N) : list N :=
  flat_map (fun d => match stepTo d s with Some u => [u] | None => [] end) ds.
Lemma stepList_lt ds s x : In x (stepList ds s) -> x < 81.
Proof.
  unfold stepList. rewrite in_flat_map. intros (d & _ & H). destruct (stepTo d s) as [u|] eqn:E; [|destruct H].
  destruct H as [<-|[]]. now apply stepTo_lt in E.
Qed.
Lemma stepList_stepIn ds s t : existsb (N.eqb t) (stepList ds s) = stepIn ds s t.
Proof.
  unfold stepList, stepIn, stepHits. induction ds as [|d ds IH]; cbn [flat_map existsb]; [reflexivity|].
  rewrite existsb_app, IH. f_equal. destruct (stepTo d s) as [u|]; cbn [existsb]; [|reflexivity]. now rewrite orb_false_r, N.eqb_sym.
Qed.
Definition stepCheck (f : N -> BB) (ds : list dir) : bool :=
  forallb (fun s => bbEq (f s) (list2bb (stepList ds s))) squares.
Lemma stepCheck_sound f ds : stepCheck f ds = true -> forall s, s < 81 ->
  wfBB (f s) /\ forall t, t < 81 -> isSet (f s) t = stepIn ds s t.
Proof.
  intros H s Hs. pose proof (forallb_squares _ H s Hs) as G. cbv beta zeta in G. apply bbEq_true in G. rewrite G.
  split; [apply wf_list2bb, stepList_lt|]. intros t Ht. rewrite isSet_list2bb by (auto; apply stepList_lt). apply stepList_stepIn.
Qed.

(* the tables start from the sliding attacks on a full board, which are single steps *)
Definition rst (s : N) : BB := list2bb (stepList rookDirs s).
Definition bst (s : N) : BB := list2bb (stepList bishopDirs s).
Lemma walk_full l : walk (fun _ => true) l = match l with [] => [] | a :: _ => [a] end.
Proof. now destruct l. Qed.
Lemma ray_full d s : walk (isSet allOneBB) (ray d s) = match stepTo d s with Some u => [u] | None => [] end.
Proof.
  rewrite (walk_ext _ (fun _ => true)) by (intros x Hx; apply isSet_ones; now apply ray_lt in Hx).
  rewrite walk_full. unfold ray. cbn [rayF]. now destruct (stepTo d s).
Qed.
Lemma rookAttack_full s : s < 81 -> rookAttack s allOneBB = rst s.
Proof.
  intros Hs. apply BB_ext; [now apply wf_rookAttack|apply wf_list2bb, stepList_lt|].
  intros x Hx. unfold rst. rewrite rookAttack_walk, isSet_list2bb by (auto; apply stepList_lt). unfold walkBB.
  rewrite !isSet_or, !isSet_list2bb, !ray_full by (auto; apply walk_lt). unfold stepList, rookDirs. cbn [flat_map]. rewrite !existsb_app. cbn [existsb].
  destruct (existsb _ (match stepTo dN s with Some u => _ | None => _ end)), (existsb _ (match stepTo dS s with Some u => _ | None => _ end)),
    (existsb _ (match stepTo dE s with Some u => _ | None => _ end)), (existsb _ (match stepTo dW s with Some u => _ | None => _ end)); reflexivity.
Qed.
Lemma bishopAttack_full s : s < 81 -> bishopAttack s allOneBB = bst s.
Proof.
  intros Hs. apply BB_ext; [now apply wf_bishopAttack|apply wf_list2bb, stepList_lt|].
  intros x Hx. unfold bst. rewrite bishopAttack_walk, isSet_list2bb by (auto; apply stepList_lt). unfold walkBB.
  rewrite !isSet_or, !isSet_list2bb, !ray_full by (auto; apply walk_lt). unfold stepList, bishopDirs. cbn [flat_map]. rewrite !existsb_app. cbn [existsb].
  destruct (existsb _ (match stepTo dNW s with Some u => _ | None => _ end)), (existsb _ (match stepTo dNE s with Some u => _ | None => _ end)),
    (existsb _ (match stepTo dSW s with Some u => _ | None => _ end)), (existsb _ (match stepTo dSE s with Some u => _ | None => _ end)); reflexivity.
Qed.
(* the table definitions of Attack.v over rst and bst *)
Definition king1 (sq : N) : BB := bbOr (rst sq) (bst sq).
Definition gold1 (c sq : N) : BB := bbOr (bbAnd (king1 sq) (inFrontMask c (makeRank sq))) (rst sq).
Definition silver1 (c sq : N) : BB := bbOr (bbAnd (king1 sq) (inFrontMask c (makeRank sq))) (bst sq).
Definition pawn1 (c sq : N) : BB := bbXor (silver1 c sq) (bst sq).
Definition bishopStep1 (sq : N) : BB := bbAnd (silver1 0 sq) (silver1 1 sq).
Definition rookStep1 (sq : N) : BB := bbAnd (gold1 0 sq) (gold1 1 sq).
Definition knight1 (c sq : N) : BB :=
  let bb := pawn1 c sq in
  if isAny bb then bbAnd (bishopStep1 (firstSq bb)) (inFrontMask c (makeRank sq)) else allZeroBB.
Lemma king1_eq s : s < 81 -> kingAttack s = king1 s.
Proof. intros Hs. unfold kingAttack, king1. now rewrite rookAttack_full, bishopAttack_full. Qed.
Lemma gold1_eq c s : s < 81 -> goldAttack c s = gold1 c s.
Proof. intros Hs. unfold goldAttack, gold1. now rewrite rookAttack_full, king1_eq. Qed.
Lemma silver1_eq c s : s < 81 -> silverAttack c s = silver1 c s.
Proof. intros Hs. unfold silverAttack, silver1. now rewrite bishopAttack_full, king1_eq. Qed.
Lemma pawn1_eq c s : s < 81 -> pawnAttack c s = pawn1 c s.
Proof. intros Hs. unfold pawnAttack, pawn1. now rewrite bishopAttack_full, silver1_eq. Qed.
Lemma bishopStep1_eq s : s < 81 -> bishopStepAttacks s = bishopStep1 s.
Proof. intros Hs. unfold bishopStepAttacks, bishopStep1. now rewrite !silver1_eq. Qed.
Lemma rookStep1_eq s : s < 81 -> rookStepAttacks s = rookStep1 s.
Proof. intros Hs. unfold rookStepAttacks, rookStep1. now rewrite !gold1_eq. Qed.

Lemma pawn_check : forallb (fun c => stepCheck (pawn1 c) (stepsOf 1 c)) [0; 1] = true. Proof. vmtrue. Qed.
Lemma knight_check : forallb (fun c => stepCheck (knight1 c) (stepsOf 3 c)) [0; 1] = true. Proof. vmtrue. Qed.
Lemma silver_check : forallb (fun c => stepCheck (silver1 c) (stepsOf 4 c)) [0; 1] = true. Proof. vmtrue. Qed.
Lemma gold_check : forallb (fun c => stepCheck (gold1 c) (stepsOf 7 c)) [0; 1] = true. Proof. vmtrue. Qed.
Lemma king_check : stepCheck king1 allDirs = true. Proof. vmtrue. Qed.
Lemma bishopStep_check : stepCheck bishopStep1 bishopDirs = true. Proof. vmtrue. Qed.
Lemma rookStep_check : stepCheck rookStep1 rookDirs = true. Proof. vmtrue. Qed.
Lemma knight1_eq c s : c < 2 -> s < 81 -> knightAttack c s = knight1 c s.
Proof.
  intros Hc Hs. unfold knightAttack, knight1. rewrite pawn1_eq by auto. cbv zeta. destruct (isAny (pawn1 c s)) eqn:E; [|reflexivity].
  rewrite bishopStep1_eq; [reflexivity|]. apply firstSq_spec; [|auto]. now apply (stepCheck_sound _ _ (forallb_colors _ pawn_check c Hc)).
Qed.

Lemma pawnAttack_ok c s : c < 2 -> s < 81 -> wfBB (pawnAttack c s) /\ forall t, t < 81 -> isSet (pawnAttack c s) t = stepIn (stepsOf 1 c) s t.
Proof. intros Hc Hs. rewrite pawn1_eq by auto. apply (stepCheck_sound _ _ (forallb_colors _ pawn_check c Hc)); auto. Qed.
Lemma knightAttack_ok c s : c < 2 -> s < 81 -> wfBB (knightAttack c s) /\ forall t, t < 81 -> isSet (knightAttack c s) t = stepIn (stepsOf 3 c) s t.
Proof. intros Hc Hs. rewrite knight1_eq by auto. apply (stepCheck_sound _ _ (forallb_colors _ knight_check c Hc)); auto. Qed.
Lemma silverAttack_ok c s : c < 2 -> s < 81 -> wfBB (silverAttack c s) /\ forall t, t < 81 -> isSet (silverAttack c s) t = stepIn (stepsOf 4 c) s t.
Proof. intros Hc Hs. rewrite silver1_eq by auto. apply (stepCheck_sound _ _ (forallb_colors _ silver_check c Hc)); auto. Qed.
Lemma goldAttack_ok c s : c < 2 -> s < 81 -> wfBB (goldAttack c s) /\ forall t, t < 81 -> isSet (goldAttack c s) t = stepIn (stepsOf 7 c) s t.
Proof. intros Hc Hs. rewrite gold1_eq by auto. apply (stepCheck_sound _ _ (forallb_colors _ gold_check c Hc)); auto. Qed.
Lemma kingAttack_ok s : s < 81 -> wfBB (kingAttack s) /\ forall t, t < 81 -> isSet (kingAttack s) t = stepIn allDirs s t.
Proof. intros Hs. rewrite king1_eq by auto. apply (stepCheck_sound _ _ king_check); auto. Qed.
Lemma bishopStep_ok s : s < 81 -> wfBB (bishopStepAttacks s) /\ forall t, t < 81 -> isSet (bishopStepAttacks s) t = stepIn bishopDirs s t.
Proof. intros Hs. rewrite bishopStep1_eq by auto. apply (stepCheck_sound _ _ bishopStep_check); auto. Qed.
Lemma rookStep_ok s : s < 81 -> wfBB (rookStepAttacks s) /\ forall t, t < 81 -> isSet (rookStepAttacks s) t = stepIn rookDirs s t.
Proof. intros Hs. rewrite rookStep1_eq by auto. apply (stepCheck_sound _ _ rookStep_check); auto. Qed.

(* geometry facts over all pairs of squares *)
Definition nilb (l : list N) : bool := match l with [] => true | _ => false end.
Definition stepDirs (c : N) : list dir := allDirs ++ stepsOf 3 c.
Lemma stepDir_cases c d : In d (stepDirs c) -> In d allDirs \/ (Z.abs (fst d) = 1 /\ Z.abs (snd d) = 2)%Z.
Proof.
  unfold stepDirs. rewrite in_app_iff. intros [H|H]; [now left|right]. unfold stepsOf, fwd in H.
  destruct (c =? 0); cbn in H; intuition (subst; reflexivity).
Qed.
Lemma stepIn_clear c s t occ : c < 2 -> s < 81 -> t < 81 -> stepIn (stepDirs c) s t = true -> clear occ s t = true.
Proof.
  intros Hc Hs Ht H. apply clear_iff. intros x Hx. exfalso. apply betw_iff in Hx as (Lx & d & a & b & Hd & Ha & Hb & [F1 R1] & [F2 R2]); auto.
  apply existsb_exists in H as (d' & Hd' & H). apply stepHits_iff in H as [F R]; auto.
  pose proof (unit_allDirs d Hd) as (A & B & C).
  apply stepDir_cases in Hd' as [Hd'|Hd'].
  - pose proof (unit_allDirs d' Hd') as (A' & B' & C').
    assert (fst d = -1 \/ fst d = 0 \/ fst d = 1)%Z as [Ea|[Ea|Ea]] by lia;
    assert (snd d = -1 \/ snd d = 0 \/ snd d = 1)%Z as [Eb|[Eb|Eb]] by lia; rewrite Ea, Eb in *; lia.
  - assert (fst d = -1 \/ fst d = 0 \/ fst d = 1)%Z as [Ea|[Ea|Ea]] by lia;
    assert (snd d = -1 \/ snd d = 0 \/ snd d = 1)%Z as [Eb|[Eb|Eb]] by lia; rewrite Ea, Eb in *; lia.
Qed.
Lemma stepIn_incl ds ds' s t : incl ds ds' -> stepIn ds s t = true -> stepIn ds' s t = true.
Proof.
  intros Hi H. unfold stepIn in *. apply existsb_exists in H as (d & Hd & E). apply existsb_exists. exists d. auto.
Qed.
Lemma dir_dec : forall x y : dir, {x = y} + {x <> y}.
Proof. decide equality; apply Z.eq_dec. Defined.
Definition inclb (l l' : list dir) : bool := forallb (fun d => if in_dec dir_dec d l' then true else false) l.
Lemma inclb_sound l l' : inclb l l' = true -> incl l l'.
Proof.
  unfold inclb. rewrite forallb_forall. intros H d Hd. specialize (H d Hd). destruct (in_dec dir_dec d l'); [auto|discriminate].
Qed.
Lemma steps_incl_check : forallb (fun c => forallb (fun pt => inclb (stepsOf pt c) (stepDirs c)) (seqN 1 14)) [0; 1] = true.
Proof. vmtrue. Qed.
Lemma steps_incl pt c : c < 2 -> 1 <= pt < 15 -> incl (stepsOf pt c) (stepDirs c).
Proof.
  intros Hc Hp. apply inclb_sound. pose proof (forallb_colors _ steps_incl_check c Hc) as G. cbv beta in G.
  apply (forallb_seqN _ _ _ G). lia.
Qed.
Lemma stepsOf_clear pt c s t occ : c < 2 -> 1 <= pt < 15 -> s < 81 -> t < 81 ->
  stepIn (stepsOf pt c) s t = true -> clear occ s t = true.
Proof. intros Hc Hp Hs Ht H. apply (stepIn_clear c); auto. eapply stepIn_incl; [|exact H]. now apply steps_incl. Qed.

Lemma step_clear_eq pt c s t occ : c < 2 -> 1 <= pt < 15 -> s < 81 -> t < 81 ->
  stepIn (stepsOf pt c) s t = stepIn (stepsOf pt c) s t && clear occ s t.
Proof.
  intros. destruct (stepIn (stepsOf pt c) s t) eqn:E; [|reflexivity]. now rewrite (stepsOf_clear pt c).
Qed.

Lemma stepHits_ray d s t : stepHits d s t = true -> memN t (ray d s) = true.
Proof.
  unfold stepHits, ray. cbn [rayF]. destruct (stepTo d s) as [u|]; [|discriminate]. intros H.
  apply N.eqb_eq in H. subst u. unfold memN. cbn [existsb]. now rewrite N.eqb_refl.
Qed.
Lemma stepIn_rayIn ds s t : implb (stepIn ds s t) (rayIn ds s t) = true.
Proof.
  destruct (stepIn ds s t) eqn:E; [|reflexivity]. cbn [implb]. apply existsb_exists in E as (d & Hd & E).
  apply existsb_exists. exists d. split; [auto|]. now apply stepHits_ray.
Qed.

Lemma horseAttack_set s occ t : s < 81 -> t < 81 ->
  isSet (horseAttack s occ) t = reach 13 0 s t && clear (isSet occ) s t.
Proof.
  intros Hs Ht. unfold horseAttack. rewrite isSet_or, isSet_bishopAttack by auto.
  destruct (kingAttack_ok s Hs) as [_ K]. rewrite K by auto.
  change (existsb (fun d => memN t (ray d s)) bishopDirs) with (rayIn bishopDirs s t).
  change (reach 13 0 s t) with (stepIn rookDirs s t || rayIn bishopDirs s t).
  unfold stepIn, allDirs. rewrite existsb_app. fold (stepIn rookDirs s t) (stepIn bishopDirs s t).
  pose proof (stepIn_rayIn bishopDirs s t) as G.
  pose proof (stepIn_clear 0 s t (isSet occ) ltac:(lia) Hs Ht) as C.
  destruct (stepIn rookDirs s t) eqn:ER.
  - rewrite C; [rewrite !andb_true_r; destruct (rayIn _ s t); reflexivity|].
    eapply stepIn_incl; [|exact ER]. intros d Hd. unfold stepDirs, allDirs. rewrite !in_app_iff. tauto.
  - destruct (stepIn bishopDirs s t) eqn:EB; cbn [implb] in G.
    + rewrite G. rewrite C; [reflexivity|]. eapply stepIn_incl; [|exact EB]. intros d Hd. unfold stepDirs, allDirs. rewrite !in_app_iff. tauto.
    + now rewrite orb_false_r.
Qed.
Lemma dragonAttack_set s occ t : s < 81 -> t < 81 ->
  isSet (dragonAttack s occ) t = reach 14 0 s t && clear (isSet occ) s t.
Proof.
  intros Hs Ht. unfold dragonAttack. rewrite isSet_or, isSet_rookAttack by auto.
  destruct (kingAttack_ok s Hs) as [_ K]. rewrite K by auto.
  change (existsb (fun d => memN t (ray d s)) rookDirs) with (rayIn rookDirs s t).
  change (reach 14 0 s t) with (stepIn bishopDirs s t || rayIn rookDirs s t).
  unfold stepIn, allDirs. rewrite existsb_app. fold (stepIn rookDirs s t) (stepIn bishopDirs s t).
  pose proof (stepIn_rayIn rookDirs s t) as G.
  pose proof (stepIn_clear 0 s t (isSet occ) ltac:(lia) Hs Ht) as C.
  destruct (stepIn bishopDirs s t) eqn:ER.
  - rewrite C; [rewrite !andb_true_r; destruct (rayIn _ s t), (stepIn rookDirs s t); reflexivity|].
    eapply stepIn_incl; [|exact ER]. intros d Hd. unfold stepDirs, allDirs. rewrite !in_app_iff. tauto.
  - destruct (stepIn rookDirs s t) eqn:EB; cbn [implb] in G.
    + rewrite G. rewrite C; [reflexivity|]. eapply stepIn_incl; [|exact EB]. intros d Hd. unfold stepDirs, allDirs. rewrite !in_app_iff. tauto.
    + now rewrite !orb_false_r.
Qed.

Lemma fwd_vdir c : c < 2 -> [(0%Z, fwd c)] = [vdir c].
Proof. intros H. assert (c = 0 \/ c = 1) as [->| ->] by lia; reflexivity. Qed.

Lemma pt_cases pt : 1 <= pt < 15 -> pt = 1 \/ pt = 2 \/ pt = 3 \/ pt = 4 \/ pt = 5 \/ pt = 6 \/ pt = 7 \/
  pt = 8 \/ pt = 9 \/ pt = 10 \/ pt = 11 \/ pt = 12 \/ pt = 13 \/ pt = 14.
Proof. lia. Qed.

(* the dispatch of position.cpp:239-258 *)
Theorem attacksFrom_spec pt c s occ t : c < 2 -> 1 <= pt < 15 -> s < 81 -> t < 81 ->
  isSet (attacksFrom pt c s occ) t = reach pt c s t && clear (isSet occ) s t.
Proof.
  intros Hc Hp Hs Ht.
  assert (Hstep : forall pt, 1 <= pt < 15 -> slidesOf pt c = [] ->
    reach pt c s t && clear (isSet occ) s t = stepIn (stepsOf pt c) s t).
  { intros q Hq E. rewrite reach_eq, E. cbn [rayIn existsb]. rewrite orb_false_r. symmetry. now apply step_clear_eq. }
  destruct (pt_cases pt Hp) as [->|[->|[->|[->|[->|[->|[->|[->|[->|[->|[->|[->|[->| ->]]]]]]]]]]]]].
  - rewrite Hstep by (auto; lia). apply (pawnAttack_ok c s Hc Hs); auto.
  - rewrite reach_eq. cbn [stepsOf stepIn existsb orb slidesOf]. rewrite fwd_vdir by auto.
    cbn [rayIn existsb]. rewrite orb_false_r. now apply (isSet_lanceAttack c s occ t).
  - rewrite Hstep by (auto; lia). apply (knightAttack_ok c s Hc Hs); auto.
  - rewrite Hstep by (auto; lia). apply (silverAttack_ok c s Hc Hs); auto.
  - exact (isSet_bishopAttack s occ t Hs Ht).
  - exact (isSet_rookAttack s occ t Hs Ht).
  - rewrite Hstep by (auto; lia). apply (goldAttack_ok c s Hc Hs); auto.
  - rewrite Hstep by (auto; lia). apply (kingAttack_ok s Hs); auto.
  - rewrite Hstep by (auto; lia). apply (goldAttack_ok c s Hc Hs); auto.
  - rewrite Hstep by (auto; lia). apply (goldAttack_ok c s Hc Hs); auto.
  - rewrite Hstep by (auto; lia). apply (goldAttack_ok c s Hc Hs); auto.
  - rewrite Hstep by (auto; lia). apply (goldAttack_ok c s Hc Hs); auto.
  - exact (horseAttack_set s occ t Hs Ht).
  - exact (dragonAttack_set s occ t Hs Ht).
Qed.
Lemma wf_attacksFrom pt c s occ : c < 2 -> 1 <= pt < 15 -> s < 81 -> wfBB (attacksFrom pt c s occ).
Proof.
  intros Hc Hp Hs.
  destruct (pt_cases pt Hp) as [->|[->|[->|[->|[->|[->|[->|[->|[->|[->|[->|[->|[->| ->]]]]]]]]]]]]].
  - exact (proj1 (pawnAttack_ok c s Hc Hs)).
  - exact (wf_lanceAttack c s occ Hc Hs).
  - exact (proj1 (knightAttack_ok c s Hc Hs)).
  - exact (proj1 (silverAttack_ok c s Hc Hs)).
  - exact (wf_bishopAttack s occ Hs).
  - exact (wf_rookAttack s occ Hs).
  - exact (proj1 (goldAttack_ok c s Hc Hs)).
  - exact (proj1 (kingAttack_ok s Hs)).
  - exact (proj1 (goldAttack_ok c s Hc Hs)).
  - exact (proj1 (goldAttack_ok c s Hc Hs)).
  - exact (proj1 (goldAttack_ok c s Hc Hs)).
  - exact (proj1 (goldAttack_ok c s Hc Hs)).
  - exact (wf_or _ _ (wf_bishopAttack s occ Hs) (proj1 (kingAttack_ok s Hs))).
  - exact (wf_or _ _ (wf_rookAttack s occ Hs) (proj1 (kingAttack_ok s Hs))).
Qed.

(* betweenBB *)
Definition onlyBB (s t : N) : bool := s =? t.
Definition walk1 (t : N) (ds : list dir) (s : N) : list N := flat_map (fun d => walk (N.eqb t) (ray d s)) ds.
Lemma rookAttack_one s t : s < 81 -> t < 81 -> rookAttack s (setMaskBB t) = list2bb (walk1 t rookDirs s).
Proof.
  intros Hs Ht. assert (L : forall x, In x (walk1 t rookDirs s) -> x < 81).
  { intros x Hx. unfold walk1 in Hx. apply in_flat_map in Hx as (d & _ & Hx). now apply walk_lt in Hx. }
  apply BB_ext; [now apply wf_rookAttack|now apply wf_list2bb|].
  intros x Hx. rewrite isSet_list2bb by auto. rewrite rookAttack_walk by auto. unfold walkBB.
  rewrite !isSet_or, !isSet_list2bb by (auto; apply walk_lt).
  unfold walk1, rookDirs. cbn [flat_map]. rewrite !existsb_app. cbn [existsb].
  assert (W : forall d, walk (isSet (setMaskBB t)) (ray d s) = walk (N.eqb t) (ray d s)).
  { intros d. apply walk_ext. intros y Hy. apply isSet_mask; auto. now apply ray_lt in Hy. }
  rewrite !W.
  destruct (existsb _ (walk _ (ray dN s))), (existsb _ (walk _ (ray dS s))), (existsb _ (walk _ (ray dW s))), (existsb _ (walk _ (ray dE s))); reflexivity.
Qed.
Lemma bishopAttack_one s t : s < 81 -> t < 81 -> bishopAttack s (setMaskBB t) = list2bb (walk1 t bishopDirs s).
Proof.
  intros Hs Ht. assert (L : forall x, In x (walk1 t bishopDirs s) -> x < 81).
  { intros x Hx. unfold walk1 in Hx. apply in_flat_map in Hx as (d & _ & Hx). now apply walk_lt in Hx. }
  apply BB_ext; [now apply wf_bishopAttack|now apply wf_list2bb|].
  intros x Hx. rewrite isSet_list2bb by auto. rewrite bishopAttack_walk by auto. unfold walkBB.
  rewrite !isSet_or, !isSet_list2bb by (auto; apply walk_lt).
  unfold walk1, bishopDirs. cbn [flat_map]. rewrite !existsb_app. cbn [existsb].
  assert (W : forall d, walk (isSet (setMaskBB t)) (ray d s) = walk (N.eqb t) (ray d s)).
  { intros d. apply walk_ext. intros y Hy. apply isSet_mask; auto. now apply ray_lt in Hy. }
  rewrite !W.
  destruct (existsb _ (walk _ (ray dNW s))), (existsb _ (walk _ (ray dNE s))), (existsb _ (walk _ (ray dSW s))), (existsb _ (walk _ (ray dSE s))); reflexivity.
Qed.
Definition between1 (s1 s2 : N) : BB :=
  if s1 =? s2 then allZeroBB
  else let d := squareRelation s1 s2 in
    if negb (N.land d DirecCross =? 0) then
      bbAnd (list2bb (walk1 s2 rookDirs s1)) (list2bb (walk1 s1 rookDirs s2))
    else if negb (N.land d DirecDiag =? 0) then
      bbAnd (list2bb (walk1 s2 bishopDirs s1)) (list2bb (walk1 s1 bishopDirs s2))
    else allZeroBB.
Lemma between1_eq s t : s < 81 -> t < 81 -> betweenBB s t = between1 s t.
Proof.
  intros Hs Ht. unfold betweenBB, between1. destruct (s =? t); [reflexivity|]. cbv zeta.
  destruct (negb (N.land (squareRelation s t) DirecCross =? 0)); [now rewrite !rookAttack_one|].
  destruct (negb (N.land (squareRelation s t) DirecDiag =? 0)); [now rewrite !bishopAttack_one|reflexivity].
Qed.
Lemma between_check : forallb (fun s => forallb (fun t => bbEq (between1 s t) (list2bb (betw s t))) squares) squares = true.
Proof. vmtrue. Qed.
Lemma betweenBB_list s t : s < 81 -> t < 81 -> betweenBB s t = list2bb (betw s t).
Proof. intros Hs Ht. rewrite between1_eq by auto. apply bbEq_true. exact (forallb_squares2 _ between_check s t Hs Ht). Qed.
Lemma isSet_betweenBB s t x : s < 81 -> t < 81 -> x < 81 -> isSet (betweenBB s t) x = memN x (betw s t).
Proof. intros Hs Ht Hx. rewrite betweenBB_list by auto. apply isSet_list2bb; auto. apply betw_lt. Qed.
Lemma wf_betweenBB s t : s < 81 -> t < 81 -> wfBB (betweenBB s t).
Proof. intros. rewrite betweenBB_list by auto. apply wf_list2bb, betw_lt. Qed.

(* symmetry *)
Lemma steps_in pt c : c < 2 -> 1 <= pt < 15 -> forall d, In d (stepsOf pt c) <-> In (nd d) (stepsOf pt (opp c)).
Proof.
  intros Hc Hp. assert (H : forallb (fun pt => forallb (fun c => inclb (map nd (stepsOf pt c)) (stepsOf pt (opp c))) [0; 1]) (seqN 1 14) = true) by vmtrue.
  pose proof (forallb_seqN _ _ _ H pt ltac:(lia)) as G. cbv beta in G.
  assert (I : forall c, c < 2 -> forall d, In d (stepsOf pt c) -> In (nd d) (stepsOf pt (opp c))).
  { intros c' Hc' d Hd. apply (inclb_sound _ _ (forallb_colors _ G c' Hc')). now apply in_map. }
  intros d. split; [now apply I|]. intros Hd. rewrite <- (nd_nd d). replace c with (opp (opp c)).
  - apply I; [|exact Hd]. assert (c = 0 \/ c = 1) as [->| ->] by lia; reflexivity.
  - assert (c = 0 \/ c = 1) as [->| ->] by lia; reflexivity.
Qed.
Lemma slides_in pt c : c < 2 -> 1 <= pt < 15 -> forall d, In d (slidesOf pt c) <-> In (nd d) (slidesOf pt (opp c)).
Proof.
  intros Hc Hp. assert (H : forallb (fun pt => forallb (fun c => inclb (map nd (slidesOf pt c)) (slidesOf pt (opp c))) [0; 1]) (seqN 1 14) = true) by vmtrue.
  pose proof (forallb_seqN _ _ _ H pt ltac:(lia)) as G. cbv beta in G.
  assert (I : forall c, c < 2 -> forall d, In d (slidesOf pt c) -> In (nd d) (slidesOf pt (opp c))).
  { intros c' Hc' d Hd. apply (inclb_sound _ _ (forallb_colors _ G c' Hc')). now apply in_map. }
  intros d. split; [now apply I|]. intros Hd. rewrite <- (nd_nd d). replace c with (opp (opp c)).
  - apply I; [|exact Hd]. assert (c = 0 \/ c = 1) as [->| ->] by lia; reflexivity.
  - assert (c = 0 \/ c = 1) as [->| ->] by lia; reflexivity.
Qed.
Lemma slides_allDirs pt c d : In d (slidesOf pt c) -> In d allDirs.
Proof.
  assert (R : forall d, In d rookDirs -> In d allDirs) by (intros x Hx; unfold allDirs; apply in_or_app; now left).
  assert (B : forall d, In d bishopDirs -> In d allDirs) by (intros x Hx; unfold allDirs; apply in_or_app; now right).
  assert (F : forall d, In d [(0%Z, fwd c)] -> In d allDirs).
  { intros x [<-|[]]. apply unit_cases. unfold unit, fwd. destruct (c =? 0); cbn; lia. }
  unfold slidesOf. destruct pt as [|[[[[]|[]|]|[[]|[]|]|]|[[[]|[]|]|[[]|[]|]|]|]]; auto; intros [].
Qed.
Lemma existsb_iff {A B} (f : A -> bool) (g : B -> bool) l l' :
  (forall a, In a l -> f a = true -> exists b, In b l' /\ g b = true) ->
  (forall b, In b l' -> g b = true -> exists a, In a l /\ f a = true) -> existsb f l = existsb g l'.
Proof.
  intros H1 H2. apply eq_true_iff_eq. rewrite !existsb_exists. split.
  - intros (a & Ha & E). destruct (H1 a Ha E) as (b & Hb & E'). eauto.
  - intros (b & Hb & E). destruct (H2 b Hb E) as (a & Ha & E'). eauto.
Qed.
Lemma reach_sym pt c s t : c < 2 -> 1 <= pt < 15 -> s < 81 -> t < 81 -> reach pt c s t = reach pt (opp c) t s.
Proof.
  intros Hc Hp Hs Ht. unfold reach. f_equal; apply existsb_iff.
  - intros d Hd E. exists (nd d). split; [now apply (steps_in pt c Hc Hp)|]. now rewrite <- stepHits_sym.
  - intros d Hd E. exists (nd d). split; [apply (steps_in pt c Hc Hp); now rewrite nd_nd|]. now rewrite stepHits_sym, nd_nd by auto.
  - intros d Hd E. exists (nd d). split; [now apply (slides_in pt c Hc Hp)|]. rewrite <- memN_ray_sym; auto. now apply slides_allDirs in Hd.
  - intros d Hd E. exists (nd d). split; [apply (slides_in pt c Hc Hp); now rewrite nd_nd|].
    rewrite memN_ray_sym, nd_nd; auto. apply nd_in. now apply slides_allDirs in Hd.
Qed.
