(* Every move of the check generator is a pseudo-legal move that gives check. *)
From Verif Require Export CheckGen Mate1Discover.
Local Open Scope N_scope.

Lemma file_fz a b : a < 81 -> b < 81 -> makeFile a = makeFile b <-> fz a = fz b.
Proof. unfold fz, makeFile. lia. Qed.
Lemma rank_rz a b : a < 81 -> b < 81 -> makeRank a = makeRank b <-> rz a = rz b.
Proof. unfold rz, makeRank. lia. Qed.
Lemma pawn_off c s t : s < 81 -> t < 81 -> reach 1 c s t = true <-> GeoProofs.off s (0, fwd c)%Z 1 t.
Proof.
  intros Hs Ht. rewrite <- stepHits_iff by auto. unfold reach. cbn [stepsOf slidesOf existsb]. now rewrite !orb_false_r.
Qed.
Lemma lance_off c s t : s < 81 -> t < 81 -> sreach 2 c s t = true <-> exists n, (1 <= n)%Z /\ GeoProofs.off s (0, fwd c)%Z n t.
Proof.
  intros Hs Ht. rewrite sreach_iff by auto. cbn [slidesOf]. split.
  - intros (d & n & [<-|[]] & Hn & O). eauto.
  - intros (n & Hn & O). exists (0, fwd c)%Z, n. split; [now left|auto].
Qed.
Lemma lance_sreach c s t : reach 2 c s t = sreach 2 c s t.
Proof. reflexivity. Qed.
Lemma gold_off c s t : s < 81 -> t < 81 -> reach 7 c s t = true -> exists d, In d (stepsOf 7 c) /\ GeoProofs.off s d 1 t.
Proof.
  intros Hs Ht R. unfold reach in R. apply orb_prop in R as [R|R]; [|discriminate R]. apply existsb_exists in R as (d & I & S). exists d. split; auto. now apply stepHits_iff.
Qed.
Lemma gold_file c s t : s < 81 -> t < 81 -> reach 7 c s t = true -> fz s = fz t -> GeoProofs.off s (0, fwd c)%Z 1 t \/ GeoProofs.off t (0, fwd c)%Z 1 s.
Proof.
  intros Hs Ht R F. destruct (gold_off c s t Hs Ht R) as (d & I & [O1 O2]). cbn [stepsOf] in I. unfold GeoProofs.off. cbn [fst snd].
  destruct I as [<-|[<-|[<-|[<-|[<-|[<-|[]]]]]]]; cbn [fst snd] in O1, O2; lia.
Qed.
Lemma pawn_gold c s t : s < 81 -> t < 81 -> reach 1 c s t = true -> reach 7 c s t = true.
Proof. intros Hs Ht R. apply pawn_off in R; auto. apply (step_reach 7 c s (0, fwd c)%Z t); auto. cbn [stepsOf]. now left. Qed.
Lemma wf_pawnAttack c s : c < 2 -> s < 81 -> wfBB (pawnAttack c s).
Proof. intros Hc Hs. rewrite <- (af1 c s allZeroBB). apply wf_attacksFrom; auto; lia. Qed.
Lemma wf_goldAttack c s : c < 2 -> s < 81 -> wfBB (goldAttack c s).
Proof. intros Hc Hs. rewrite <- (af7 c s allZeroBB). apply wf_attacksFrom; auto; lia. Qed.
Lemma pawn_back c s t : c < 2 -> s < 81 -> t < 81 -> isSet (pawnAttack (opp c) s) t = true -> reach 1 c t s = true.
Proof. intros Hc Hs Ht S. rewrite (back_pawn c s allZeroBB t) in S by auto. now apply andb_prop in S. Qed.
Lemma gold_back' c s t : c < 2 -> s < 81 -> t < 81 -> isSet (goldAttack (opp c) s) t = true -> reach 7 c t s = true.
Proof. intros Hc Hs Ht S. rewrite (back_gold c s allZeroBB t) in S by auto. now apply andb_prop in S. Qed.
Lemma zone123 c t : c < 2 -> t < 81 -> isSet (tRank123 c) t = canPromote c t.
Proof. intros Hc Ht. unfold tRank123. rewrite isSet_front123, canPromote_zone by auto. reflexivity. Qed.
Lemma lance_back c s t : c < 2 -> s < 81 -> t < 81 -> isSet (lanceAttackToEdge (opp c) s) t = true -> sreach 2 c t s = true.
Proof. intros Hc Hs Ht S. unfold lanceAttackToEdge in S. rewrite (back_lance c s allZeroBB t) in S by auto. now apply andb_prop in S. Qed.

(* ---- the tables ---- *)
Lemma pawn_tab c sq f t : c < 2 -> sq < 81 -> f < 81 -> t < 81 -> isSet (pawnCheckTable c sq) f = true -> reach 1 c f t = true ->
  (canPromote c t = true -> reach 7 c t sq = true) /\ (canPromote c t = false -> reach 1 c t sq = true) /\ (fz t = fz sq -> reach 1 c t sq = true).
Proof.
  intros Hc Hs Hf Ht S R. unfold pawnCheckTable in S. cbv zeta in S. rewrite isSet_andnot, isSet_mask in S by auto. apply andb_prop in S as [S NE]. apply negb_true_iff, N.eqb_neq in NE. rewrite isSet_or in S.
  assert (Same : forall x, x < 81 -> isSet (pawnAttack (opp c) x) f = true -> x = t).
  { intros x Hx X. apply pawn_back in X; auto. apply pawn_off in X, R; auto. exact (off_fun f (0, fwd c)%Z 1%Z x t Hx Ht X R). }
  pose proof (opp_lt c Hc) as Ho. apply orb_prop in S as [S|S].
  - apply in_union in S as (x & Hx & S1 & S2); [|now apply wf_pawnAttack]. apply Same in S2; auto. subst x. apply pawn_back in S1; auto. split; [intros _; now apply pawn_gold|auto].
  - apply in_union in S as (x & Hx & S1 & S2); [|apply wf_and_l; now apply wf_goldAttack]. apply Same in S2; auto. subst x. rewrite isSet_and, zone123 in S1 by auto. apply andb_prop in S1 as [S1 Z]. apply gold_back' in S1; auto.
    split; [auto|]. split; [congruence|]. intros F. destruct (gold_file c t sq Ht Hs S1 F) as [O|O]; [now apply pawn_off|]. exfalso. apply NE. apply pawn_off in R; auto.
    destruct O as [O1 O2], R as [R1 R2]. cbn [fst snd] in *. apply sq_ext; auto; lia.
Qed.
Lemma lance_tab c sq f : c < 2 -> sq < 81 -> f < 81 -> isSet (lanceCheckTable c sq) f = true -> fz f = fz sq -> sreach 2 c f sq = true.
Proof.
  intros Hc Hs Hf S F. unfold lanceCheckTable in S. cbv zeta in S. rewrite isSet_andnot, isSet_or in S by auto. apply andb_prop in S as [S NE]. rewrite isSet_or, isSet_mask in NE by auto. apply negb_true_iff, orb_false_elim in NE as [NE _]. apply N.eqb_neq in NE.
  pose proof (opp_lt c Hc) as Ho. apply orb_prop in S as [S|S]; [now apply lance_back|].
  apply in_union in S as (x & Hx & S1 & S2); [|apply wf_and_l; now apply wf_goldAttack]. rewrite isSet_and in S1. apply andb_prop in S1 as [S1 _]. apply gold_back' in S1; auto. apply lance_back in S2; auto. apply lance_off in S2 as (n & Hn & O); auto.
  apply lance_off; auto. assert (Fx : fz x = fz sq) by (destruct O as [O _]; cbn [fst] in O; lia). destruct (gold_file c x sq Hx Hs S1 Fx) as [[O1 O2]|[O1 O2]]; destruct O as [O3 O4]; cbn [fst snd] in *.
  - exists (n + 1)%Z. split; [lia|]. split; cbn [fst snd]; lia.
  - assert (n <> 1%Z) by (intros ->; apply NE; apply sq_ext; auto; lia). exists (n - 1)%Z. split; [lia|]. split; cbn [fst snd]; lia.
Qed.

Lemma diag_sreach pt us f ko : pt = 5 \/ pt = 13 -> f < 81 -> ko < 81 -> f <> ko -> sameDiag ko f = true -> sreach pt us f ko = true.
Proof.
  intros E Hf Ho N S. unfold sameDiag, absDiff in S. apply N.eqb_eq in S. assert (X : (Z.abs (fz ko - fz f) = Z.abs (rz ko - rz f))%Z) by (unfold fz, rz, makeFile, makeRank in *; lia).
  assert (Y : fz f <> fz ko) by (intros Y; apply N; apply sq_ext; auto; lia). apply sreach_iff; auto.
  exists (Z.sgn (fz ko - fz f), Z.sgn (rz ko - rz f)), (Z.abs (fz ko - fz f)). split; [|split; [lia|split; cbn [fst snd]; lia]].
  assert (D : slidesOf pt us = bishopDirs) by (destruct E as [->| ->]; reflexivity). rewrite D. clear D. unfold bishopDirs, dNW, dNE, dSW, dSE. cbn [In].
  assert (A1 : (Z.sgn (fz ko - fz f) = 1 \/ Z.sgn (fz ko - fz f) = -1)%Z) by lia. assert (A2 : (Z.sgn (rz ko - rz f) = 1 \/ Z.sgn (rz ko - rz f) = -1)%Z) by lia. destruct A1 as [-> | ->], A2 as [-> | ->]; tauto.
Qed.
Lemma line_sreach pt us f ko : pt = 6 \/ pt = 14 -> f < 81 -> ko < 81 -> f <> ko -> sameLine ko f = true -> sreach pt us f ko = true.
Proof.
  intros E Hf Ho N S. unfold sameLine in S. assert (X : fz f = fz ko \/ rz f = rz ko) by (apply orb_prop in S as [S|S]; apply N.eqb_eq in S; unfold fz, rz, makeFile, makeRank in *; lia).
  assert (Y : fz f <> fz ko \/ rz f <> rz ko) by (destruct (Z.eq_dec (fz f) (fz ko)); [right; intros Y; apply N; apply sq_ext; auto|now left]). apply sreach_iff; auto.
  exists (Z.sgn (fz ko - fz f), Z.sgn (rz ko - rz f)), (Z.abs (fz ko - fz f) + Z.abs (rz ko - rz f))%Z. split; [|split; [lia|split; cbn [fst snd]; lia]].
  assert (D : slidesOf pt us = rookDirs) by (destruct E as [->| ->]; reflexivity). rewrite D. clear D. unfold rookDirs, dN, dS, dW, dE. cbn [In].
  assert (A : (Z.sgn (fz ko - fz f) = 0 /\ (Z.sgn (rz ko - rz f) = 1 \/ Z.sgn (rz ko - rz f) = -1) \/ Z.sgn (rz ko - rz f) = 0 /\ (Z.sgn (fz ko - fz f) = 1 \/ Z.sgn (fz ko - fz f) = -1))%Z) by lia.
  destruct A as [[-> [-> | ->]]|[-> [-> | ->]]]; tauto.
Qed.
Lemma slide_through (occ : N -> bool) pt us f ko t : f < 81 -> ko < 81 -> t < 81 -> sreach pt us f ko = true -> sole occ f ko t = true ->
  reach pt us f t = true /\ clear occ f t = true /\ reach pt us t ko = true /\ clear occ t ko = true.
Proof.
  intros Hf Ho Ht S So. assert (So' := So). unfold sole in So. rewrite !andb_true_iff in So. destruct So as [[B _] _]. apply memN_In in B. apply sreach_iff in S as (d & n & Id & Hn & O); auto. pose proof (slides_allDirs pt us d Id) as Ad.
  apply (betw_line f d n ko t) in B as (_ & i & Hi & Oi); auto. assert (Oj : GeoProofs.off t d (n - i) ko) by exact (off_sub f d i t n ko Oi O).
  repeat split.
  - apply sreach_reach, sreach_iff; auto. exists d, i. repeat split; auto; try apply Oi; lia.
  - apply clear_iff. intros w I. pose proof (betw_lt _ _ _ I) as Hw. apply (betw_line f d i t w) in I as (_ & j & Hj & Ow); auto; [|lia]. destruct (occ w) eqn:E; auto. exfalso.
    assert (w = t) by (apply (sole_other occ f ko t w So'); auto; apply memN_In, (betw_line f d n ko w); auto; split; auto; exists j; split; auto; lia). subst w.
    destruct (off_uniq f t d d j i Ad Ad ltac:(lia) ltac:(lia) Ow Oi) as [_ X]. lia.
  - apply sreach_reach, sreach_iff; auto. exists d, (n - i)%Z. repeat split; auto; try apply Oj; lia.
  - apply clear_iff. intros w I. pose proof (betw_lt _ _ _ I) as Hw. apply (betw_line t d (n - i) ko w) in I as (_ & j & Hj & Ow); auto; [|lia]. destruct (occ w) eqn:E; auto. exfalso.
    pose proof (off_add f d i t j w Oi Ow) as Ow'.
    assert (w = t) by (apply (sole_other occ f ko t w So'); auto; apply memN_In, (betw_line f d n ko w); auto; split; auto; exists (i + j)%Z; split; auto; lia). subst w.
    destruct (off_uniq f t d d (i + j) i Ad Ad ltac:(lia) ltac:(lia) Ow' Oi) as [_ X]. lia.
Qed.

Lemma live_rule pt us f t ko : us < 2 -> f < 81 -> t < 81 -> ko < 81 -> reach pt us t ko = true -> ruleB true pt us f t = true.
Proof.
  intros Hu Hf Ht Ho R. unfold ruleB. destruct (N.eqb_spec pt 1) as [->|]; [|destruct (N.eqb_spec pt 2) as [->|]; [|destruct (N.eqb_spec pt 3) as [->|]; [|destruct ((pt =? 5) || (pt =? 6)); [apply orb_true_r|reflexivity]]]].
  - pose proof (forward_rank 1 us t ko Hu Ht Ho ltac:(lia) R). assert (1 <= rankFor us ko) by (unfold rankFor; destruct (us =? 0); lia). closedN. apply orb_true_intro. right. apply negb_true_iff, N.eqb_neq. lia.
  - pose proof (forward_rank 2 us t ko Hu Ht Ho ltac:(lia) R). assert (1 <= rankFor us ko) by (unfold rankFor; destruct (us =? 0); lia). closedN. apply orb_true_intro. right. apply N.ltb_lt. lia.
  - assert (3 <= rankFor us t); [|closedN; apply orb_true_intro; right; apply N.ltb_lt; lia].
    unfold reach in R. cbn [stepsOf slidesOf existsb] in R. rewrite !orb_false_r in R. unfold fwd in R. unfold rankFor. apply orb_prop in R as [R|R]; apply stepHits_iff in R as [_ R]; auto; cbn [snd] in R; unfold rz in R; destruct (us =? 0); lia.
Qed.
Lemma back_horse c sq occ s : c < 2 -> s < 81 -> sq < 81 -> isSet (horseAttack sq occ) s = true -> reach 13 c s sq = true /\ clear (isSet occ) s sq = true.
Proof.
  intros Hc Hs Hq S. destruct (reach_unions c s sq Hc Hs Hq) as (_ & _ & _ & E & _). unfold horseAttack in S. rewrite isSet_or, (back_bishop c sq occ s), (back_king c sq occ s) in S by auto. rewrite E.
  apply orb_prop in S as [S|S]; apply andb_prop in S as [-> ->]; rewrite ?orb_true_r; auto.
Qed.
Lemma back_dragon c sq occ s : c < 2 -> s < 81 -> sq < 81 -> isSet (dragonAttack sq occ) s = true -> reach 14 c s sq = true /\ clear (isSet occ) s sq = true.
Proof.
  intros Hc Hs Hq S. destruct (reach_unions c s sq Hc Hs Hq) as (_ & _ & _ & _ & E). unfold dragonAttack in S. rewrite isSet_or, (back_rook c sq occ s), (back_king c sq occ s) in S by auto. rewrite E.
  apply orb_prop in S as [S|S]; apply andb_prop in S as [-> ->]; rewrite ?orb_true_r; auto.
Qed.
Lemma aligned_file c f t ko : f < 81 -> t < 81 -> ko < 81 -> reach 1 c f t = true -> isAligned f t ko = true -> fz t = fz ko.
Proof.
  intros Hf Ht Ho R A. apply pawn_off in R; auto. assert (F : In (0, fwd c)%Z allDirs) by (unfold fwd; destruct (c =? 0); unfold allDirs, rookDirs, bishopDirs, dN, dS; cbn; tauto).
  pose proof (rel_off f (0, fwd c)%Z 1 t F Hf Ht ltac:(lia) R) as Q. unfold isAligned in A. apply N.eqb_eq in A. rewrite Q in A. destruct R as [R _]. cbn [fst] in R. change (relOf (0, fwd c)%Z) with DirecFile in A.
  unfold squareRelation in A. cbv zeta in A. destruct (f =? ko); [discriminate|]. destruct (N.eqb_spec (makeFile f) (makeFile ko)) as [E|].
  - apply file_fz in E; auto. lia.
  - exfalso. destruct (_ =? _); [discriminate|]. destruct (_ =? _); [discriminate|]. destruct (_ =? _); discriminate.
Qed.

Lemma back_pawn' c f t occ : isSet (pawnAttack c f) t = isSet (attacksFrom 1 c f occ) t.
Proof. now rewrite af1. Qed.
Lemma near_clear1 pt c s t (occ : BB) : c < 2 -> s < 81 -> t < 81 -> pt = 1 \/ pt = 7 -> reach pt c s t = true -> clear (isSet occ) s t = true.
Proof.
  intros Hc Hs Ht E R. assert (R7 : reach 7 c s t = true) by (destruct E as [->| ->]; auto using pawn_gold). pose proof (back_gold c t occ s Hc Hs Ht) as B. rewrite (back_gold c t allZeroBB s Hc Hs Ht), R7, !andb_true_l in B. rewrite <- B. apply clear_iff. intros. apply isSet_zero.
Qed.

Lemma gold_like k c s t : k = 1 \/ k = 2 \/ k = 3 \/ k = 4 -> reach (k + 8) c s t = reach 7 c s t.
Proof. intros [->|[->|[->| ->]]]; reflexivity. Qed.
Lemma ruleA_small pt us s t : pt = 1 \/ pt = 2 \/ pt = 3 -> zoneB us t = true -> ruleA pt us s t = true.
Proof. intros [->|[->| ->]] Z; unfold ruleA; closedN; exact Z. Qed.
Lemma ruleA_big pt us s t : pt = 4 \/ pt = 5 \/ pt = 6 -> zoneB us t || zoneB us s = true -> ruleA pt us s t = true.
Proof. intros [->|[->| ->]] Z; unfold ruleA; closedN; now rewrite orb_comm. Qed.
(* membership in the short lists the generator builds *)
Lemma pick1 (a b : N) (z x : bool) m : In m (if z then a :: (if x then [b] else []) else [b]) -> z = true /\ m = a \/ z = true /\ x = true /\ m = b \/ z = false /\ m = b.
Proof. destruct z, x; cbn [In]; intuition. Qed.
Lemma pick2 (a b : N) (z x : bool) m : In m (if z then a :: (if x then [b] else []) else if x then [b] else []) -> z = true /\ m = a \/ x = true /\ m = b.
Proof. destruct z, x; cbn [In]; intuition. Qed.
Lemma pick3 (a b : N) (z : bool) m : In m (if z then [a; b] else [b]) -> z = true /\ m = a \/ m = b.
Proof. destruct z; cbn [In]; intuition. Qed.
Lemma pick4 (a : N) (z : bool) m : In m (if z then [a] else []) -> z = true /\ m = a.
Proof. destruct z; cbn [In]; intuition. Qed.
Lemma pickIf (b : bool) (x y : list N) m : In m (if negb b then x else y) -> b = true /\ In m y \/ b = false /\ In m x.
Proof. destruct b; cbn [negb]; auto. Qed.
Lemma inIf (b : bool) (x y : BB) t : In t (bbList (if b then x else y)) -> b = true /\ In t (bbList x) \/ b = false /\ In t (bbList y).
Proof. destruct b; auto. Qed.
(* the cases of directMoves, one equation each *)
Definition dirMoves (p : Position) (us them ksq from pt : N) : list N :=
  let occ := occBB p in
  let target := bbNot (bbC p us) in
  let pro := makePromoteMove p pt from in
  let non := makeNonPromoteMove p pt from in
  let zone := fun to => canPromote us to || canPromote us from in
  match pt with
  | 1 => flat_map (fun to => if canPromote us to then pro to :: (if isSet (pawnAttack them ksq) to then [non to] else []) else [non to])
           (bbList (bbAnd (pawnAttack us from) target))
  | 2 => if negb (makeFile ksq =? makeFile from)
         then flat_map (fun to => if canPromote us to then [pro to] else [])
                (bbList (bbAnd (bbAnd (goldAttack them ksq) (lanceAttack us from occ)) target))
         else flat_map (fun to => if isSet (pawnAttack them ksq) to && canPromote us to then [pro to; non to] else [non to]) (soleEnemy p from ksq)
  | 3 => map non (bbList (bbAnd (bbAnd (knightAttack them ksq) (knightAttack us from)) target)) ++
         flat_map (fun to => if canPromote us to then [pro to] else []) (bbList (bbAnd (bbAnd (goldAttack them ksq) (knightAttack us from)) target))
  | 4 => map non (bbList (bbAnd (bbAnd (silverAttack them ksq) (silverAttack us from)) target)) ++
         flat_map (fun to => if zone to then [pro to] else []) (bbList (bbAnd (bbAnd (goldAttack them ksq) (silverAttack us from)) target))
  | 7 | 9 | 10 | 11 | 12 => map non (bbList (bbAnd (bbAnd (goldAttack them ksq) (goldAttack us from)) target))
  | 5 => if negb (sameDiag ksq from)
         then flat_map (fun to => if zone to then pro to :: (if isSet (bishopAttack ksq occ) to then [non to] else [])
                                  else if isSet (bishopAttack ksq occ) to then [non to] else [])
                (bbList (bbAnd (bbAnd (horseAttack ksq occ) (bishopAttack from occ)) target))
         else flat_map (fun to => if zone to then [pro to; non to] else [non to]) (soleEnemy p from ksq)
  | 6 => if negb (sameLine ksq from)
         then flat_map (fun to => if zone to then pro to :: (if isSet (rookAttack ksq occ) to then [non to] else [])
                                  else if isSet (rookAttack ksq occ) to then [non to] else [])
                (bbList (bbAnd (bbAnd (dragonAttack ksq occ) (rookAttack from occ)) target))
         else flat_map (fun to => if zone to then [pro to; non to] else [non to]) (soleEnemy p from ksq)
  | 13 => if negb (sameDiag ksq from)
          then map non (bbList (bbAnd (bbAnd (horseAttack ksq occ) (horseAttack from occ)) target))
          else map non (soleEnemy p from ksq)
  | 14 => if negb (sameLine ksq from)
          then map non (bbList (bbAnd (bbAnd (dragonAttack ksq occ) (dragonAttack from occ)) target))
          else let dstBB := bbAnd (betweenBB from ksq) occ in
               let toBB := bbAnd (bbAnd (kingAttack ksq) (kingAttack from)) target in
               map non (bbList (if isOneBit_merged dstBB && isAny (bbAnd dstBB (bbC p them)) then bbOr toBB dstBB else toBB))
  | _ => []
  end.
Lemma dm_eq p f : directMoves p f = dirMoves p (turn p) (opp (turn p)) (kingSquare p (opp (turn p))) f (ptOf (pieceAt p f)).
Proof. reflexivity. Qed.
Lemma dir1_eq p us them ksq from : dirMoves p us them ksq from 1 = flat_map (fun to => if canPromote us to then makePromoteMove p 1 from to :: (if isSet (pawnAttack them ksq) to then [makeNonPromoteMove p 1 from to] else []) else [makeNonPromoteMove p 1 from to])
           (bbList (bbAnd (pawnAttack us from) (bbNot (bbC p us)))).
Proof. reflexivity. Qed.
Lemma dir2_eq p us them ksq from : dirMoves p us them ksq from 2 = if negb (makeFile ksq =? makeFile from)
         then flat_map (fun to => if canPromote us to then [makePromoteMove p 2 from to] else [])
                (bbList (bbAnd (bbAnd (goldAttack them ksq) (lanceAttack us from (occBB p))) (bbNot (bbC p us))))
         else flat_map (fun to => if isSet (pawnAttack them ksq) to && canPromote us to then [makePromoteMove p 2 from to; makeNonPromoteMove p 2 from to] else [makeNonPromoteMove p 2 from to]) (soleEnemy p from ksq).
Proof. reflexivity. Qed.
Lemma dir3_eq p us them ksq from : dirMoves p us them ksq from 3 = map (makeNonPromoteMove p 3 from) (bbList (bbAnd (bbAnd (knightAttack them ksq) (knightAttack us from)) (bbNot (bbC p us)))) ++
         flat_map (fun to => if canPromote us to then [makePromoteMove p 3 from to] else []) (bbList (bbAnd (bbAnd (goldAttack them ksq) (knightAttack us from)) (bbNot (bbC p us)))).
Proof. reflexivity. Qed.
Lemma dir4_eq p us them ksq from : dirMoves p us them ksq from 4 = map (makeNonPromoteMove p 4 from) (bbList (bbAnd (bbAnd (silverAttack them ksq) (silverAttack us from)) (bbNot (bbC p us)))) ++
         flat_map (fun to => if canPromote us to || canPromote us from then [makePromoteMove p 4 from to] else []) (bbList (bbAnd (bbAnd (goldAttack them ksq) (silverAttack us from)) (bbNot (bbC p us)))).
Proof. reflexivity. Qed.
Lemma dir7_eq p us them ksq from : dirMoves p us them ksq from 7 = map (makeNonPromoteMove p 7 from) (bbList (bbAnd (bbAnd (goldAttack them ksq) (goldAttack us from)) (bbNot (bbC p us)))).
Proof. reflexivity. Qed.
Lemma dir9_eq p us them ksq from : dirMoves p us them ksq from 9 = map (makeNonPromoteMove p 9 from) (bbList (bbAnd (bbAnd (goldAttack them ksq) (goldAttack us from)) (bbNot (bbC p us)))).
Proof. reflexivity. Qed.
Lemma dir10_eq p us them ksq from : dirMoves p us them ksq from 10 = map (makeNonPromoteMove p 10 from) (bbList (bbAnd (bbAnd (goldAttack them ksq) (goldAttack us from)) (bbNot (bbC p us)))).
Proof. reflexivity. Qed.
Lemma dir11_eq p us them ksq from : dirMoves p us them ksq from 11 = map (makeNonPromoteMove p 11 from) (bbList (bbAnd (bbAnd (goldAttack them ksq) (goldAttack us from)) (bbNot (bbC p us)))).
Proof. reflexivity. Qed.
Lemma dir12_eq p us them ksq from : dirMoves p us them ksq from 12 = map (makeNonPromoteMove p 12 from) (bbList (bbAnd (bbAnd (goldAttack them ksq) (goldAttack us from)) (bbNot (bbC p us)))).
Proof. reflexivity. Qed.
Lemma dir5_eq p us them ksq from : dirMoves p us them ksq from 5 = if negb (sameDiag ksq from)
         then flat_map (fun to => if canPromote us to || canPromote us from then makePromoteMove p 5 from to :: (if isSet (bishopAttack ksq (occBB p)) to then [makeNonPromoteMove p 5 from to] else [])
                                  else if isSet (bishopAttack ksq (occBB p)) to then [makeNonPromoteMove p 5 from to] else [])
                (bbList (bbAnd (bbAnd (horseAttack ksq (occBB p)) (bishopAttack from (occBB p))) (bbNot (bbC p us))))
         else flat_map (fun to => if canPromote us to || canPromote us from then [makePromoteMove p 5 from to; makeNonPromoteMove p 5 from to] else [makeNonPromoteMove p 5 from to]) (soleEnemy p from ksq).
Proof. reflexivity. Qed.
Lemma dir6_eq p us them ksq from : dirMoves p us them ksq from 6 = if negb (sameLine ksq from)
         then flat_map (fun to => if canPromote us to || canPromote us from then makePromoteMove p 6 from to :: (if isSet (rookAttack ksq (occBB p)) to then [makeNonPromoteMove p 6 from to] else [])
                                  else if isSet (rookAttack ksq (occBB p)) to then [makeNonPromoteMove p 6 from to] else [])
                (bbList (bbAnd (bbAnd (dragonAttack ksq (occBB p)) (rookAttack from (occBB p))) (bbNot (bbC p us))))
         else flat_map (fun to => if canPromote us to || canPromote us from then [makePromoteMove p 6 from to; makeNonPromoteMove p 6 from to] else [makeNonPromoteMove p 6 from to]) (soleEnemy p from ksq).
Proof. reflexivity. Qed.
Lemma dir13_eq p us them ksq from : dirMoves p us them ksq from 13 = if negb (sameDiag ksq from)
          then map (makeNonPromoteMove p 13 from) (bbList (bbAnd (bbAnd (horseAttack ksq (occBB p)) (horseAttack from (occBB p))) (bbNot (bbC p us))))
          else map (makeNonPromoteMove p 13 from) (soleEnemy p from ksq).
Proof. reflexivity. Qed.
Lemma dir14_eq p us them ksq from : dirMoves p us them ksq from 14 = if negb (sameLine ksq from)
          then map (makeNonPromoteMove p 14 from) (bbList (bbAnd (bbAnd (dragonAttack ksq (occBB p)) (dragonAttack from (occBB p))) (bbNot (bbC p us))))
          else 
               
               map (makeNonPromoteMove p 14 from) (bbList (if isOneBit_merged (bbAnd (betweenBB from ksq) (occBB p)) && isAny (bbAnd (bbAnd (betweenBB from ksq) (occBB p)) (bbC p them)) then bbOr (bbAnd (bbAnd (kingAttack ksq) (kingAttack from)) (bbNot (bbC p us))) (bbAnd (betweenBB from ksq) (occBB p)) else (bbAnd (bbAnd (kingAttack ksq) (kingAttack from)) (bbNot (bbC p us))))).
Proof. reflexivity. Qed.
Lemma dir8_eq p us them ksq from : dirMoves p us them ksq from 8 = [].
Proof. reflexivity. Qed.
Global Opaque dirMoves.

Definition ruleOf (pr : bool) (pt us f t : N) : bool := if pr then ruleA pt us f t else ruleB true pt us f t.
Section C.
Variables (p : Position) (us th ko : N) (bd : list N).
Hypotheses (G : good p) (Eus : turn p = us) (Eth : opp us = th) (Ebd : board p = bd) (Eo : kingOf bd th = ko) (Ho : ko < 81).
Lemma cU : us < 2. Proof. rewrite <- Eus. apply (good_turn p G). Qed.
Lemma cT : th < 2. Proof. rewrite <- Eth. apply opp_lt, cU. Qed.
Lemma cOT : opp th = us. Proof. rewrite <- Eth. apply opp_opp, cU. Qed.
Lemma cKs : kingSquare p th = ko. Proof. rewrite kingSquare_view, Ebd by (try apply cT; apply G). exact Eo. Qed.
Lemma pl_intro f t pr : f < 81 -> t < 81 -> isCol bd us f = true -> isSet (attacksFrom (ptOf (at_ bd f)) us f (occBB p)) t = true -> isCol bd us t = false ->
  ruleOf pr (ptOf (at_ bd f)) us f t = true -> plSet p f t pr.
Proof.
  intros Hf Ht C A Ct R. pose proof (bAtt p us bd G Eus Ebd f t Hf Ht C A) as At. unfold plSet. rewrite (proj2 (N.ltb_lt _ _) Hf). unfold plGoB. rewrite Ebd, Eus, C, Ct, At. cbn [andb negb].
  rewrite <- (rule_promo p f t pr); rewrite ?Eus, ?Ebd, ?(gAt p bd Ebd); auto using cU. rewrite <- Ebd. apply (good_ok p G).
Qed.
(* the board after the move *)
Lemma cAt f t pr : f < 81 -> t < 81 -> plSet p f t pr -> forall x, at_ (newBoard p (enc p f t pr)) x = if t =? x then mkPiece us (ptOf (at_ bd f) + (if pr then 8 else 0)) else if f =? x then 0 else at_ bd x.
Proof. intros Hf Ht P x. rewrite (at_go p f t pr G Hf Ht P), Eus, Ebd. reflexivity. Qed.
Lemma cPt f t pr : f < 81 -> plSet p f t pr -> at_ bd f = mkPiece us (ptOf (at_ bd f)) /\ 1 <= ptOf (at_ bd f) < 15 /\ 1 <= ptOf (at_ bd f) + (if pr then 8 else 0) < 15.
Proof.
  intros Hf P. destruct (pl_own p us bd Eus Ebd f t pr Hf P) as [C _]. unfold isCol in C. apply andb_prop in C as [C0 C1]. apply negb_true_iff, N.eqb_neq in C0. apply N.eqb_eq in C1.
  assert (V : vpc (at_ bd f) = true) by (rewrite <- Ebd; apply (good_ok p G); auto). destruct (vpc_facts _ V C0) as (Hp & _ & E). rewrite C1 in E. split; [exact E|]. split; [exact Hp|]. destruct pr; [|lia].
  unfold plSet in P. rewrite (proj2 (N.ltb_lt _ _) Hf) in P. unfold plGoB in P. rewrite !andb_true_iff in P. destruct P as [_ P]. unfold promoB in P. rewrite (gAt p bd Ebd) in P. rewrite !andb_true_iff in P. destruct P as [P _]. apply N.leb_le in P. lia.
Qed.
Lemma cNe f t pr : f < 81 -> t < 81 -> plSet p f t pr -> f <> t /\ t <> ko.
Proof.
  intros Hf Ht P. destruct (pl_own p us bd Eus Ebd f t pr Hf P) as [C A]. pose proof (pl_col p us bd Eus Ebd f t pr Ht P) as Ct. split; [intros ->; congruence|]. exact (not_king p us th ko bd G Eus Eth Ebd Eo Ho f t Hf Ht C A).
Qed.
Lemma uncover_check f t pr : f < 81 -> t < 81 -> plSet p f t pr -> isSet (discoveredCheckBB true p) f = true -> isAligned f t ko = false -> exists x, chkr th ko (newBoard p (enc p f t pr)) x.
Proof.
  intros Hf Ht P S AL. pose proof cU as Hu. pose proof cT as Hth. pose proof (cAt f t pr Hf Ht P) as At. destruct (pl_own p us bd Eus Ebd f t pr Hf P) as [Cf Af]. destruct (cNe f t pr Hf Ht P) as [Nft Ntk].
  revert At. generalize (newBoard p (enc p f t pr)) as bq. intros bq At. pose proof (isSet_hiddenCheckers false true p f (g_views p G) Hf) as H. cbv zeta in H. unfold discoveredCheckBB in S. rewrite H, Eus, Eth, Ebd, Eo, (proj2 (N.ltb_lt _ _) Ho), Cf, !andb_true_l in S. clear H.
  apply existsb_exists in S as (x & Hx & Hi). apply in_squares in Hx. exists x. unfold hid in Hi. rewrite !andb_true_iff in Hi. destruct Hi as [[Cx Sx] S].
  pose proof (pl_col p us bd Eus Ebd f t pr Ht P) as Ct. assert (Ntx : t <> x) by (intros ->; congruence).
  assert (B : isBetween x f ko) by (unfold sole in S; rewrite !andb_true_iff in S; destruct S as [[S _] _]; apply memN_betw in S; auto).
  assert (Nfx : f <> x) by (intros ->; unfold sole in S; rewrite !andb_true_iff in S; destruct S as [[S _] _]; apply memN_In in S; exact (proj1 (betw_ends x ko Hx Ho) S)).
  assert (MT : memN t (betw x ko) = false).
  { rewrite <- AL. symmetry. apply (aligned_between (occOf bd)); auto.
    - unfold isCol in Cx. now apply andb_prop in Cx as [Cx _].
    - unfold occOf. rewrite (kingOf_at bd th ko Eo Ho), mk_nz by (auto; unfold King; lia). reflexivity.
    - unfold att, attOcc in Af. rewrite !andb_true_iff in Af. tauto. }
  split; auto. rewrite cOT. unfold isCol, att, attOcc. rewrite At, (proj2 (N.eqb_neq t x)), (proj2 (N.eqb_neq f x)) by auto. unfold isCol in Cx. apply andb_prop in Cx as [C0 C1]. rewrite C0, C1. apply N.eqb_eq in C1. rewrite C1, (sreach_reach _ _ _ _ Sx). cbn [andb]. split; auto.
  apply clear_iff. intros w I. unfold occOf. rewrite At. destruct (N.eqb_spec t w) as [<-|Nw]; [apply memN_In in I; congruence|]. destruct (N.eqb_spec f w) as [<-|Nf]; [reflexivity|].
  destruct (negb (at_ bd w =? 0)) eqn:O; [|reflexivity]. exfalso. apply Nf. symmetry. apply (sole_other (occOf bd) x ko f w S); auto. now apply memN_In.
Qed.
Lemma arrive_check f t pr : f < 81 -> t < 81 -> plSet p f t pr -> reach (ptOf (at_ bd f) + (if pr then 8 else 0)) us t ko = true -> clear (isSet (occBB p)) t ko = true -> exists x, chkr th ko (newBoard p (enc p f t pr)) x.
Proof.
  intros Hf Ht P R C. exists t. pose proof cU as Hu. pose proof (cAt f t pr Hf Ht P) as At. destruct (cPt f t pr Hf P) as (_ & _ & Hp). revert At. generalize (newBoard p (enc p f t pr)) as bq. intros bq At. split; auto. rewrite cOT. split.
  - unfold isCol. rewrite At, N.eqb_refl, mk_nz, col_mk, N.eqb_refl by auto. reflexivity.
  - unfold att, attOcc. rewrite At, N.eqb_refl, mk_nz, pt_mk, col_mk, R by auto. cbn [negb andb]. rewrite clear_iff in *. intros w I. specialize (C w I). assert (Hw : w < 81) by now apply betw_lt in I. rewrite (bOcc p bd G Ebd w Hw) in C. unfold occOf in *. rewrite At.
    destruct (N.eqb_spec t w) as [<-|_]; [destruct (proj1 (betw_ends t ko Ht Ho) I)|]. destruct (f =? w); auto.
Qed.

(* what the generator promises of a board move *)
Definition boardCheck (f m : N) : Prop := exists t pr, t < 81 /\ plSet p f t pr /\ m = enc p f t pr /\ exists x, chkr th ko (newBoard p m) x.
Lemma direct f t pr : f < 81 -> t < 81 -> isCol bd us f = true -> isSet (attacksFrom (ptOf (at_ bd f)) us f (occBB p)) t = true -> isCol bd us t = false ->
  ruleOf pr (ptOf (at_ bd f)) us f t = true -> reach (ptOf (at_ bd f) + (if pr then 8 else 0)) us t ko = true -> clear (isSet (occBB p)) t ko = true -> boardCheck f (enc p f t pr).
Proof. intros Hf Ht C A Ct R Rk Cl. pose proof (pl_intro f t pr Hf Ht C A Ct R) as P. exists t, pr. repeat split; auto. now apply arrive_check. Qed.
Lemma gcm_in pt f t m : f < 81 -> t < 81 -> ptOf (at_ bd f) = pt -> 1 <= pt < 15 -> In m (generatCheckMoves p pt f t) -> exists pr, m = enc p f t pr /\ ruleOf pr pt us f t = true.
Proof.
  intros Hf Ht E Hp I. pose proof cU as Hu. unfold generatCheckMoves in I. cbv zeta in I. assert (E' : ptOf (pieceAt p f) = pt) by (now rewrite (gAt p bd Ebd f)).
  rewrite promote_code, nonpromote_code, Eus, !canPromote_zone, behind1, behind2 in I by auto. clear E E'.
  assert (X : m = enc p f t true /\ ruleA pt us f t = true \/ m = enc p f t false /\ ruleB true pt us f t = true); [|destruct X as [[X Y]|[X Y]]; eauto].
  revert I. generalize (enc p f t true) (enc p f t false). intros a b I. unfold ruleA, ruleB. pose proof (rank_bounds us t Hu) as RB. unfold zoneB in *.
  destruct (pt_cases pt Hp) as [->|[->|[->|[->|[->|[->|[->|[->|[->|[->|[->|[->|[->| ->]]]]]]]]]]]]];
    repeat match type of I with context [if ?b then _ else _] => destruct b eqn:? end; cbn [In app] in I;
    repeat match type of I with _ \/ _ => destruct I as [I|I] end; try (destruct I); first [left; split; [now symmetry|]; closedN; lia|right; split; [now symmetry|]; closedN; lia].
Qed.
Lemma isCol_bb c s : c < 2 -> s < 81 -> isSet (bbC p c) s = isCol bd c s.
Proof. intros Hc Hs. rewrite isSet_bbC by (auto; apply G). rewrite (gAt p bd Ebd). reflexivity. Qed.
Lemma col_both' s : isCol bd th s = true -> isCol bd us s = false.
Proof.
  unfold isCol. intros C. apply andb_prop in C as [_ C]. apply N.eqb_eq in C. rewrite C. apply andb_false_intro2, N.eqb_neq. rewrite <- Eth. apply Views.opp_neq, cU.
Qed.
Lemma one_enemy f t : f < 81 -> t < 81 -> let dst := bbAnd (betweenBB f ko) (occBB p) in isOneBit_merged dst && isAny (bbAnd dst (bbC p th)) = true -> isSet dst t = true ->
  sole (isSet (occBB p)) f ko t = true /\ isCol bd us t = false.
Proof.
  intros Hf Ht dst B S. subst dst. pose proof cT as Hth. apply andb_prop in B as [B1 B2]. rewrite oneBit_between in B1 by auto. rewrite isSet_and, isSet_betweenBB in S by auto. apply andb_prop in S as [S1 S2].
  assert (So : sole (isSet (occBB p)) f ko t = true) by (rewrite sole_one, B1, S1, S2 by auto; reflexivity). split; auto.
  apply isAny_true_ex in B2 as (y & Hy & Sy); [|apply wf_and_l, wf_and_l; now apply wf_betweenBB]. rewrite !isSet_and, isSet_betweenBB, isCol_bb in Sy by auto. rewrite !andb_true_iff in Sy. destruct Sy as [[Y1 Y2] Y3].
  rewrite (sole_other _ f ko t y So Y1 Y2) in Y3. now apply col_both'.
Qed.
Lemma in_soleEnemy f t : f < 81 -> In t (soleEnemy p f ko) -> t < 81 /\ sole (isSet (occBB p)) f ko t = true /\ isCol bd us t = false.
Proof.
  intros Hf I. unfold soleEnemy in I. cbv zeta in I. rewrite Eus, Eth in I. destruct (isOneBit_merged (bbAnd (betweenBB f ko) (occBB p)) && isAny (bbAnd (bbAnd (betweenBB f ko) (occBB p)) (bbC p th))) eqn:E; [|destruct I].
  assert (J : In t (bbList (bbAnd (betweenBB f ko) (occBB p)))) by (destruct (bbList (bbAnd (betweenBB f ko) (occBB p))) as [|a l]; cbn [firstn] in I; [destruct I|destruct I as [->|[]]; now left]).
  apply in_bbList in J as [Ht J]; [|apply wf_and_l; now apply wf_betweenBB]. split; auto. exact (one_enemy f t Hf Ht E J).
Qed.
(* one move of a piece that checks from its target *)
Lemma dnon pt f t : f < 81 -> t < 81 -> isCol bd us f = true -> ptOf (at_ bd f) = pt -> isSet (attacksFrom pt us f (occBB p)) t = true -> isCol bd us t = false ->
  reach pt us t ko = true -> clear (isSet (occBB p)) t ko = true -> boardCheck f (makeNonPromoteMove p pt f t).
Proof.
  intros Hf Ht C E A Ct R Cl. assert (E' : ptOf (pieceAt p f) = pt) by (now rewrite (gAt p bd Ebd f)). rewrite nonpromote_code by (auto; exact E'). rewrite <- E in A, R. apply direct; auto.
  - rewrite E in *. exact (live_rule pt us f t ko cU Hf Ht Ho R).
  - now rewrite N.add_0_r.
Qed.
Lemma dpro pt f t : f < 81 -> t < 81 -> isCol bd us f = true -> ptOf (at_ bd f) = pt -> isSet (attacksFrom pt us f (occBB p)) t = true -> isCol bd us t = false ->
  ruleA pt us f t = true -> reach (pt + 8) us t ko = true -> clear (isSet (occBB p)) t ko = true -> boardCheck f (makePromoteMove p pt f t).
Proof.
  intros Hf Ht C E A Ct RA R Cl. assert (E' : ptOf (pieceAt p f) = pt) by (now rewrite (gAt p bd Ebd f)). rewrite promote_code by (auto; exact E'). rewrite <- E in A, R, RA. apply direct; auto.
Qed.
Lemma dproG pt f t : pt = 1 \/ pt = 2 \/ pt = 3 -> f < 81 -> t < 81 -> isCol bd us f = true -> ptOf (at_ bd f) = pt -> isSet (attacksFrom pt us f (occBB p)) t = true -> isCol bd us t = false ->
  zoneB us t = true -> reach 7 us t ko = true -> clear (isSet (occBB p)) t ko = true -> boardCheck f (makePromoteMove p pt f t).
Proof. intros K Hf Ht C E A Ct Z R Cl. assert (R' : reach (pt + 8) us t ko = true) by (rewrite gold_like by tauto; exact R). exact (dpro pt f t Hf Ht C E A Ct (ruleA_small pt us f t K Z) R' Cl). Qed.
Lemma dproS f t : f < 81 -> t < 81 -> isCol bd us f = true -> ptOf (at_ bd f) = 4 -> isSet (attacksFrom 4 us f (occBB p)) t = true -> isCol bd us t = false ->
  zoneB us t || zoneB us f = true -> reach 7 us t ko = true -> clear (isSet (occBB p)) t ko = true -> boardCheck f (makePromoteMove p 4 f t).
Proof. intros Hf Ht C E A Ct Z R Cl. assert (R' : reach (4 + 8) us t ko = true) by (rewrite gold_like by tauto; exact R). assert (K : ruleA 4 us f t = true) by (apply ruleA_big; tauto). exact (dpro 4 f t Hf Ht C E A Ct K R' Cl). Qed.
Lemma dproB pt q f t : pt = 5 /\ q = 13 \/ pt = 6 /\ q = 14 -> f < 81 -> t < 81 -> isCol bd us f = true -> ptOf (at_ bd f) = pt -> isSet (attacksFrom pt us f (occBB p)) t = true -> isCol bd us t = false ->
  zoneB us t || zoneB us f = true -> reach q us t ko = true -> clear (isSet (occBB p)) t ko = true -> boardCheck f (makePromoteMove p pt f t).
Proof. intros K Hf Ht C E A Ct Z R Cl. assert (R' : reach (pt + 8) us t ko = true) by (replace (pt + 8) with q by lia; exact R). assert (K' : ruleA pt us f t = true) by (apply ruleA_big; tauto). exact (dpro pt f t Hf Ht C E A Ct K' R' Cl). Qed.
Lemma in_target B pt f t : f < 81 -> 1 <= pt < 15 -> In t (bbList (bbAnd (bbAnd B (attacksFrom pt us f (occBB p))) (bbNot (bbC p us)))) ->
  t < 81 /\ isSet B t = true /\ isSet (attacksFrom pt us f (occBB p)) t = true /\ isCol bd us t = false.
Proof.
  intros Hf Hp I. pose proof cU as Hu. apply in_bbList in I as [Ht I]; [|apply wf_and_l, wf_and_r; apply wf_attacksFrom; auto]. rewrite !isSet_and, isSet_not, isCol_bb in I by auto.
  rewrite !andb_true_iff in I. destruct I as [[I1 I2] I3]. apply negb_true_iff in I3. auto.
Qed.
Lemma in_target1 pt f t : f < 81 -> 1 <= pt < 15 -> In t (bbList (bbAnd (attacksFrom pt us f (occBB p)) (bbNot (bbC p us)))) ->
  t < 81 /\ isSet (attacksFrom pt us f (occBB p)) t = true /\ isCol bd us t = false.
Proof.
  intros Hf Hp I. pose proof cU as Hu. apply in_bbList in I as [Ht I]; [|apply wf_and_l; apply wf_attacksFrom; auto]. rewrite !isSet_and, isSet_not, isCol_bb in I by auto.
  rewrite !andb_true_iff in I. destruct I as [I2 I3]. apply negb_true_iff in I3. auto.
Qed.
Lemma direct_tab f pt : f < 81 -> ptOf (at_ bd f) = pt -> isSet (directBB p) f = true -> (pt = 1 -> isSet (pawnCheckTable us ko) f = true) /\ (pt = 2 -> isSet (lanceCheckTable us ko) f = true).
Proof.
  intros Hf E S. pose proof cU as Hu. pose proof cT as Hth. unfold directBB in S. cbv zeta in S. rewrite Eus, Eth, cKs in S. unfold bbT2 in S. rewrite !isSet_and, !isSet_or, !isSet_and, isSet_golds, !isSet_bbT in S by (first [exact Hf|apply G|split; [discriminate|reflexivity]|auto]).
  rewrite !(gAt p bd Ebd), E in S. revert S. generalize (isSet (pawnCheckTable us ko) f) (isSet (lanceCheckTable us ko) f). intros a b S. split; intros ->; closedN; rewrite ?andb_false_l, ?andb_false_r in S; now destruct a, b.
Qed.
Lemma aligned_sound f t m : f < 81 -> t < 81 -> isCol bd us f = true -> isSet (attacksFrom (ptOf (at_ bd f)) us f (occBB p)) t = true -> isCol bd us t = false ->
  isAligned f t ko = true -> isSet (directBB p) f = true -> In m (alignedCheck p (ptOf (at_ bd f)) f t) -> boardCheck f m.
Proof.
  intros Hf Ht C A Ct Al D I. pose proof cU as Hu. pose proof cT as Hth. remember (ptOf (at_ bd f)) as pt eqn:E. symmetry in E. destruct (direct_tab f pt Hf E D) as [D1 _]. clear D.
  assert (Hp : 1 <= pt < 15). { unfold isCol in C. apply andb_prop in C as [C0 _]. apply negb_true_iff, N.eqb_neq in C0. assert (V : vpc (at_ bd f) = true) by (rewrite <- Ebd; apply (good_ok p G); auto). destruct (vpc_facts _ V C0) as (Hp & _). now rewrite E in Hp. }
  unfold alignedCheck in I. cbv zeta in I. rewrite Eus, Eth, cKs, !canPromote_zone in I by auto.
  destruct (pt_cases pt Hp) as [->|[->|[->|[->|[->|[->|[->|[->|[->|[->|[->|[->|[->| ->]]]]]]]]]]]]]; try (destruct I; fail).
  - rewrite (back_pawn' us f t (occBB p)) in I. rewrite A in I. assert (R : reach 1 us f t = true) by (rewrite attacksFrom_spec in A by (auto; lia); now apply andb_prop in A).
    destruct (pawn_tab us ko f t Hu Ho Hf Ht (D1 eq_refl) R) as (T1 & _ & T3). specialize (T3 (aligned_file us f t ko Hf Ht Ho R Al)). rewrite canPromote_zone in T1 by auto.
    assert (Cl : clear (isSet (occBB p)) t ko = true) by (apply (near_clear1 1 us); auto).
    destruct (zoneB us t) eqn:Z.
    + destruct I as [<-|[<-|[]]]; [|now apply dnon]. apply dproG; auto.
    + destruct I as [<-|[]]. now apply dnon.
  - apply in_app_iff in I as [I|I].
    + rewrite isSet_and in I. destruct (isSet (silverAttack th ko) t) eqn:S; [|destruct I]. destruct (isSet (silverAttack us f) t); [|destruct I]. destruct I as [<-|[]]. rewrite <- Eth, (back_silver us ko (occBB p) t) in S by auto. apply andb_prop in S as [S1 S2]. now apply dnon.
    + rewrite isSet_and in I. destruct (isSet (goldAttack th ko) t) eqn:S; [|destruct I]. destruct (isSet (silverAttack us f) t); [|destruct I]. cbn [andb] in I. destruct (zoneB us t || zoneB us f) eqn:Z; [|destruct I]. destruct I as [<-|[]]. rewrite <- Eth, (back_gold us ko (occBB p) t) in S by auto. apply andb_prop in S as [S1 S2]. now apply dproS.
  - rewrite isSet_and in I. destruct (isSet (goldAttack th ko) t) eqn:S; [|destruct I]. destruct (isSet (goldAttack us f) t); [|destruct I]. destruct I as [<-|[]]. rewrite <- Eth, (back_gold us ko (occBB p) t) in S by auto. apply andb_prop in S as [S1 S2]. now apply dnon.
  - rewrite isSet_and in I. destruct (isSet (goldAttack th ko) t) eqn:S; [|destruct I]. destruct (isSet (goldAttack us f) t); [|destruct I]. destruct I as [<-|[]]. rewrite <- Eth, (back_gold us ko (occBB p) t) in S by auto. apply andb_prop in S as [S1 S2]. now apply dnon.
  - rewrite isSet_and in I. destruct (isSet (goldAttack th ko) t) eqn:S; [|destruct I]. destruct (isSet (goldAttack us f) t); [|destruct I]. destruct I as [<-|[]]. rewrite <- Eth, (back_gold us ko (occBB p) t) in S by auto. apply andb_prop in S as [S1 S2]. now apply dnon.
  - rewrite isSet_and in I. destruct (isSet (goldAttack th ko) t) eqn:S; [|destruct I]. destruct (isSet (goldAttack us f) t); [|destruct I]. destruct I as [<-|[]]. rewrite <- Eth, (back_gold us ko (occBB p) t) in S by auto. apply andb_prop in S as [S1 S2]. now apply dnon.
  - rewrite isSet_and in I. destruct (isSet (goldAttack th ko) t) eqn:S; [|destruct I]. destruct (isSet (goldAttack us f) t); [|destruct I]. destruct I as [<-|[]]. rewrite <- Eth, (back_gold us ko (occBB p) t) in S by auto. apply andb_prop in S as [S1 S2]. now apply dnon.
  - rewrite isSet_and in I. destruct (isSet (horseAttack ko (occBB p)) t) eqn:S; [|destruct I]. destruct (isSet (horseAttack f (occBB p)) t); [|destruct I]. destruct I as [<-|[]]. destruct (back_horse us ko (occBB p) t Hu Ht Ho S) as [S1 S2]. now apply dnon.
  - rewrite isSet_and in I. destruct (isSet (dragonAttack ko (occBB p)) t) eqn:S; [|destruct I]. destruct (isSet (dragonAttack f (occBB p)) t); [|destruct I]. destruct I as [<-|[]]. destruct (back_dragon us ko (occBB p) t Hu Ht Ho S) as [S1 S2]. now apply dnon.
Qed.
Lemma own_pt f : f < 81 -> isCol bd us f = true -> 1 <= ptOf (at_ bd f) < 15.
Proof.
  intros Hf C. unfold isCol in C. apply andb_prop in C as [C0 _]. apply negb_true_iff, N.eqb_neq in C0. assert (V : vpc (at_ bd f) = true) by (rewrite <- Ebd; apply (good_ok p G); auto). destruct (vpc_facts _ V C0) as (Hp & _). exact Hp.
Qed.
Lemma discovered_sound f m : f < 81 -> isCol bd us f = true -> isSet (discoveredCheckBB true p) f = true -> In m (discoveredMoves p f) -> boardCheck f m.
Proof.
  intros Hf C D I. pose proof (own_pt f Hf C) as Hp. unfold discoveredMoves in I. cbv zeta in I. apply in_flat_map in I as (t & It & I). rewrite Eus, Eth, cKs, (gAt p bd Ebd f) in *.
  apply in_target1 in It as (Ht & A & Ct); auto. destruct (isAligned f t ko) eqn:Al; cbn [negb] in I.
  - destruct (isSet (directBB p) f) eqn:S; [|destruct I]. exact (aligned_sound f t m Hf Ht C A Ct Al S I).
  - apply (gcm_in (ptOf (at_ bd f))) in I as (pr & -> & R); auto. pose proof (pl_intro f t pr Hf Ht C A Ct R) as P. exists t, pr. repeat split; auto. exact (uncover_check f t pr Hf Ht P D Al).
Qed.
Lemma own_not_king : isCol bd us ko = true -> False.
Proof.
  intros C. pose proof cT as Hth. unfold isCol in C. rewrite (kingOf_at bd th ko Eo Ho), col_mk in C by (auto; unfold King; lia). apply andb_prop in C as [_ C]. apply N.eqb_eq in C. rewrite <- Eth in C. exact (Views.opp_neq us cU C).
Qed.
Lemma wf_kingAttack s : s < 81 -> wfBB (kingAttack s).
Proof. intros Hs. rewrite <- (af8 0 s allZeroBB). apply wf_attacksFrom; auto; lia. Qed.
Lemma direct1 f m : f < 81 -> isCol bd us f = true -> ptOf (at_ bd f) = 1 -> isSet (directBB p) f = true -> In m (directMoves p f) -> boardCheck f m.
Proof.
  intros Hf C E D I. pose proof cU as Hu. pose proof cT as Hth. assert (N : f <> ko) by (intros ->; exact (own_not_king C)). rewrite dm_eq, Eus, Eth, cKs, (gAt p bd Ebd f), E, dir1_eq in I. destruct (direct_tab f 1 Hf E D) as [D1 D2]. clear D.
  apply in_flat_map in I as (t & It & I). rewrite <- (af1 us f (occBB p)) in It. apply in_target1 in It as (Ht & A & Ct); try lia. rewrite canPromote_zone in I by auto.
  assert (R : reach 1 us f t = true) by (rewrite attacksFrom_spec in A by (auto; lia); now apply andb_prop in A). destruct (pawn_tab us ko f t Hu Ho Hf Ht (D1 eq_refl) R) as (T1 & T2 & _). rewrite canPromote_zone in T1, T2 by auto.
  apply pick1 in I as [[Z ->]|[(Z & S & ->)|[Z ->]]].
  - specialize (T1 Z). apply dproG; auto. apply (near_clear1 7 us); auto.
  - rewrite <- Eth, (back_pawn us ko (occBB p) t) in S by auto. apply andb_prop in S as [S1 S2]. now apply dnon.
  - specialize (T2 Z). apply dnon; auto. apply (near_clear1 1 us); auto.
Qed.
Lemma direct2 f m : f < 81 -> isCol bd us f = true -> ptOf (at_ bd f) = 2 -> isSet (directBB p) f = true -> In m (directMoves p f) -> boardCheck f m.
Proof.
  intros Hf C E D I. pose proof cU as Hu. pose proof cT as Hth. assert (N : f <> ko) by (intros ->; exact (own_not_king C)). rewrite dm_eq, Eus, Eth, cKs, (gAt p bd Ebd f), E, dir2_eq in I. destruct (direct_tab f 2 Hf E D) as [D1 D2]. clear D.
  apply pickIf in I as [[F I]|[_ I]].
  - apply in_flat_map in I as (t & It & I). apply in_soleEnemy in It as (Ht & So & Ct); auto. rewrite canPromote_zone in I by auto. apply N.eqb_eq in F. apply file_fz in F; auto. pose proof (lance_tab us ko f Hu Ho Hf (D2 eq_refl) ltac:(lia)) as S.
    destruct (slide_through (isSet (occBB p)) 2 us f ko t Hf Ho Ht S So) as (R1 & C1 & R2 & C2). assert (A : isSet (attacksFrom 2 us f (occBB p)) t = true) by (rewrite attacksFrom_spec by (auto; lia); now rewrite R1, C1).
    apply pick3 in I as [[Sp ->]| ->]; [|now apply dnon]. apply andb_prop in Sp as [Sp Z]. rewrite <- Eth, (back_pawn us ko (occBB p) t) in Sp by auto. apply andb_prop in Sp as [P1 P2]. apply dproG; auto. now apply pawn_gold.
  - apply in_flat_map in I as (t & It & I). rewrite <- (af2 us f (occBB p)) in It. apply in_target in It as (Ht & S & A & Ct); try lia. rewrite canPromote_zone in I by auto. rewrite <- Eth, (back_gold us ko (occBB p) t) in S by auto. apply andb_prop in S as [S1 S2].
    apply pick4 in I as [Z ->]. apply dproG; auto.
Qed.
Lemma direct3 f m : f < 81 -> isCol bd us f = true -> ptOf (at_ bd f) = 3 -> isSet (directBB p) f = true -> In m (directMoves p f) -> boardCheck f m.
Proof.
  intros Hf C E D I. pose proof cU as Hu. pose proof cT as Hth. assert (N : f <> ko) by (intros ->; exact (own_not_king C)). rewrite dm_eq, Eus, Eth, cKs, (gAt p bd Ebd f), E, dir3_eq in I. destruct (direct_tab f 3 Hf E D) as [D1 D2]. clear D.
  rewrite <- (af3 us f (occBB p)) in I. apply in_app_iff in I as [I|I].
  - apply in_map_iff in I as (t & <- & It). apply in_target in It as (Ht & S & A & Ct); try lia. rewrite <- Eth, (back_knight us ko (occBB p) t) in S by auto. apply andb_prop in S as [S1 S2]. now apply dnon.
  - apply in_flat_map in I as (t & It & I). apply in_target in It as (Ht & S & A & Ct); try lia. rewrite <- Eth, (back_gold us ko (occBB p) t) in S by auto. apply andb_prop in S as [S1 S2]. rewrite canPromote_zone in I by auto. apply pick4 in I as [Z ->]. apply dproG; auto.
Qed.
Lemma direct4 f m : f < 81 -> isCol bd us f = true -> ptOf (at_ bd f) = 4 -> isSet (directBB p) f = true -> In m (directMoves p f) -> boardCheck f m.
Proof.
  intros Hf C E D I. pose proof cU as Hu. pose proof cT as Hth. assert (N : f <> ko) by (intros ->; exact (own_not_king C)). rewrite dm_eq, Eus, Eth, cKs, (gAt p bd Ebd f), E, dir4_eq in I. destruct (direct_tab f 4 Hf E D) as [D1 D2]. clear D.
  rewrite <- (af4 us f (occBB p)) in I. apply in_app_iff in I as [I|I].
  - apply in_map_iff in I as (t & <- & It). apply in_target in It as (Ht & S & A & Ct); try lia. rewrite <- Eth, (back_silver us ko (occBB p) t) in S by auto. apply andb_prop in S as [S1 S2]. now apply dnon.
  - apply in_flat_map in I as (t & It & I). apply in_target in It as (Ht & S & A & Ct); try lia. rewrite <- Eth, (back_gold us ko (occBB p) t) in S by auto. apply andb_prop in S as [S1 S2]. rewrite !canPromote_zone in I by auto. apply pick4 in I as [Z ->]. now apply dproS.
Qed.
Lemma direct7 f m : f < 81 -> isCol bd us f = true -> ptOf (at_ bd f) = 7 -> isSet (directBB p) f = true -> In m (directMoves p f) -> boardCheck f m.
Proof.
  intros Hf C E D I. pose proof cU as Hu. pose proof cT as Hth. assert (N : f <> ko) by (intros ->; exact (own_not_king C)). rewrite dm_eq, Eus, Eth, cKs, (gAt p bd Ebd f), E, dir7_eq in I. destruct (direct_tab f 7 Hf E D) as [D1 D2]. clear D.
  rewrite <- (af7 us f (occBB p)) in I. apply in_map_iff in I as (t & <- & It). apply in_target in It as (Ht & S & A & Ct); try lia. rewrite <- Eth, (back_gold us ko (occBB p) t) in S by auto. apply andb_prop in S as [S1 S2]. now apply dnon.
Qed.
Lemma direct9 f m : f < 81 -> isCol bd us f = true -> ptOf (at_ bd f) = 9 -> isSet (directBB p) f = true -> In m (directMoves p f) -> boardCheck f m.
Proof.
  intros Hf C E D I. pose proof cU as Hu. pose proof cT as Hth. assert (N : f <> ko) by (intros ->; exact (own_not_king C)). rewrite dm_eq, Eus, Eth, cKs, (gAt p bd Ebd f), E, dir9_eq in I. destruct (direct_tab f 9 Hf E D) as [D1 D2]. clear D.
  apply in_map_iff in I as (t & <- & It). change (goldAttack us f) with (attacksFrom 9 us f (occBB p)) in It. apply in_target in It as (Ht & S & A & Ct); try lia. rewrite <- Eth, (back_gold us ko (occBB p) t) in S by auto. apply andb_prop in S as [S1 S2]. now apply dnon.
Qed.
Lemma direct10 f m : f < 81 -> isCol bd us f = true -> ptOf (at_ bd f) = 10 -> isSet (directBB p) f = true -> In m (directMoves p f) -> boardCheck f m.
Proof.
  intros Hf C E D I. pose proof cU as Hu. pose proof cT as Hth. assert (N : f <> ko) by (intros ->; exact (own_not_king C)). rewrite dm_eq, Eus, Eth, cKs, (gAt p bd Ebd f), E, dir10_eq in I. destruct (direct_tab f 10 Hf E D) as [D1 D2]. clear D.
  apply in_map_iff in I as (t & <- & It). change (goldAttack us f) with (attacksFrom 10 us f (occBB p)) in It. apply in_target in It as (Ht & S & A & Ct); try lia. rewrite <- Eth, (back_gold us ko (occBB p) t) in S by auto. apply andb_prop in S as [S1 S2]. now apply dnon.
Qed.
Lemma direct11 f m : f < 81 -> isCol bd us f = true -> ptOf (at_ bd f) = 11 -> isSet (directBB p) f = true -> In m (directMoves p f) -> boardCheck f m.
Proof.
  intros Hf C E D I. pose proof cU as Hu. pose proof cT as Hth. assert (N : f <> ko) by (intros ->; exact (own_not_king C)). rewrite dm_eq, Eus, Eth, cKs, (gAt p bd Ebd f), E, dir11_eq in I. destruct (direct_tab f 11 Hf E D) as [D1 D2]. clear D.
  apply in_map_iff in I as (t & <- & It). change (goldAttack us f) with (attacksFrom 11 us f (occBB p)) in It. apply in_target in It as (Ht & S & A & Ct); try lia. rewrite <- Eth, (back_gold us ko (occBB p) t) in S by auto. apply andb_prop in S as [S1 S2]. now apply dnon.
Qed.
Lemma direct12 f m : f < 81 -> isCol bd us f = true -> ptOf (at_ bd f) = 12 -> isSet (directBB p) f = true -> In m (directMoves p f) -> boardCheck f m.
Proof.
  intros Hf C E D I. pose proof cU as Hu. pose proof cT as Hth. assert (N : f <> ko) by (intros ->; exact (own_not_king C)). rewrite dm_eq, Eus, Eth, cKs, (gAt p bd Ebd f), E, dir12_eq in I. destruct (direct_tab f 12 Hf E D) as [D1 D2]. clear D.
  apply in_map_iff in I as (t & <- & It). change (goldAttack us f) with (attacksFrom 12 us f (occBB p)) in It. apply in_target in It as (Ht & S & A & Ct); try lia. rewrite <- Eth, (back_gold us ko (occBB p) t) in S by auto. apply andb_prop in S as [S1 S2]. now apply dnon.
Qed.
Lemma direct5 f m : f < 81 -> isCol bd us f = true -> ptOf (at_ bd f) = 5 -> isSet (directBB p) f = true -> In m (directMoves p f) -> boardCheck f m.
Proof.
  intros Hf C E D I. pose proof cU as Hu. pose proof cT as Hth. assert (N : f <> ko) by (intros ->; exact (own_not_king C)). rewrite dm_eq, Eus, Eth, cKs, (gAt p bd Ebd f), E, dir5_eq in I. destruct (direct_tab f 5 Hf E D) as [D1 D2]. clear D.
  apply pickIf in I as [[SD I]|[_ I]].
  - apply in_flat_map in I as (t & It & I). apply in_soleEnemy in It as (Ht & So & Ct); auto. rewrite !canPromote_zone in I by auto. pose proof (diag_sreach 5 us f ko ltac:(now left) Hf Ho N SD) as S.
    destruct (slide_through (isSet (occBB p)) 5 us f ko t Hf Ho Ht S So) as (R1 & C1 & R2 & C2). assert (A : isSet (attacksFrom 5 us f (occBB p)) t = true) by (rewrite attacksFrom_spec by (auto; lia); now rewrite R1, C1).
    assert (R3 : reach 13 us t ko = true) by (destruct (reach_unions us t ko Hu Ht Ho) as (_ & _ & _ & U1 & U2); rewrite ?U1, ?U2, R2; apply orb_true_r).
    apply pick3 in I as [[Z ->]| ->]; [|now apply dnon]. apply (dproB 5 13); auto.
  - apply in_flat_map in I as (t & It & I). rewrite <- (af5 us f (occBB p)) in It. apply in_target in It as (Ht & S & A & Ct); try lia. rewrite !canPromote_zone in I by auto. destruct (back_horse us ko (occBB p) t Hu Ht Ho S) as [S1 S2].
    assert (X : isSet (bishopAttack ko (occBB p)) t = true -> reach 5 us t ko = true) by (intros X; rewrite (back_bishop us ko (occBB p) t) in X by auto; now apply andb_prop in X).
    apply pick2 in I as [[Z ->]|[Z ->]]; [apply (dproB 5 13); auto|]. specialize (X Z). now apply dnon.
Qed.
Lemma direct6 f m : f < 81 -> isCol bd us f = true -> ptOf (at_ bd f) = 6 -> isSet (directBB p) f = true -> In m (directMoves p f) -> boardCheck f m.
Proof.
  intros Hf C E D I. pose proof cU as Hu. pose proof cT as Hth. assert (N : f <> ko) by (intros ->; exact (own_not_king C)). rewrite dm_eq, Eus, Eth, cKs, (gAt p bd Ebd f), E, dir6_eq in I. destruct (direct_tab f 6 Hf E D) as [D1 D2]. clear D.
  apply pickIf in I as [[SD I]|[_ I]].
  - apply in_flat_map in I as (t & It & I). apply in_soleEnemy in It as (Ht & So & Ct); auto. rewrite !canPromote_zone in I by auto. pose proof (line_sreach 6 us f ko ltac:(now left) Hf Ho N SD) as S.
    destruct (slide_through (isSet (occBB p)) 6 us f ko t Hf Ho Ht S So) as (R1 & C1 & R2 & C2). assert (A : isSet (attacksFrom 6 us f (occBB p)) t = true) by (rewrite attacksFrom_spec by (auto; lia); now rewrite R1, C1).
    assert (R3 : reach 14 us t ko = true) by (destruct (reach_unions us t ko Hu Ht Ho) as (_ & _ & _ & U1 & U2); rewrite ?U1, ?U2, R2; apply orb_true_r).
    apply pick3 in I as [[Z ->]| ->]; [|now apply dnon]. apply (dproB 6 14); auto.
  - apply in_flat_map in I as (t & It & I). rewrite <- (af6 us f (occBB p)) in It. apply in_target in It as (Ht & S & A & Ct); try lia. rewrite !canPromote_zone in I by auto. destruct (back_dragon us ko (occBB p) t Hu Ht Ho S) as [S1 S2].
    assert (X : isSet (rookAttack ko (occBB p)) t = true -> reach 6 us t ko = true) by (intros X; rewrite (back_rook us ko (occBB p) t) in X by auto; now apply andb_prop in X).
    apply pick2 in I as [[Z ->]|[Z ->]]; [apply (dproB 6 14); auto|]. specialize (X Z). now apply dnon.
Qed.
Lemma direct13 f m : f < 81 -> isCol bd us f = true -> ptOf (at_ bd f) = 13 -> isSet (directBB p) f = true -> In m (directMoves p f) -> boardCheck f m.
Proof.
  intros Hf C E D I. pose proof cU as Hu. pose proof cT as Hth. assert (N : f <> ko) by (intros ->; exact (own_not_king C)). rewrite dm_eq, Eus, Eth, cKs, (gAt p bd Ebd f), E, dir13_eq in I. destruct (direct_tab f 13 Hf E D) as [D1 D2]. clear D.
  apply pickIf in I as [[SD I]|[_ I]]; apply in_map_iff in I as (t & <- & It).
  - apply in_soleEnemy in It as (Ht & So & Ct); auto. pose proof (diag_sreach 13 us f ko ltac:(now right) Hf Ho N SD) as S.
    destruct (slide_through (isSet (occBB p)) 13 us f ko t Hf Ho Ht S So) as (R1 & C1 & R2 & C2). assert (A : isSet (attacksFrom 13 us f (occBB p)) t = true) by (rewrite attacksFrom_spec by (auto; lia); now rewrite R1, C1). now apply dnon.
  - rewrite <- (af13 us f (occBB p)) in It. apply in_target in It as (Ht & S & A & Ct); try lia. destruct (back_horse us ko (occBB p) t Hu Ht Ho S) as [S1 S2]. now apply dnon.
Qed.
Lemma direct14 f m : f < 81 -> isCol bd us f = true -> ptOf (at_ bd f) = 14 -> isSet (directBB p) f = true -> In m (directMoves p f) -> boardCheck f m.
Proof.
  intros Hf C E D I. pose proof cU as Hu. pose proof cT as Hth. assert (N : f <> ko) by (intros ->; exact (own_not_king C)). rewrite dm_eq, Eus, Eth, cKs, (gAt p bd Ebd f), E, dir14_eq in I. destruct (direct_tab f 14 Hf E D) as [D1 D2]. clear D.
  apply pickIf in I as [[SD I]|[_ I]]; apply in_map_iff in I as (t & <- & It).
  - assert (Near : isSet (bbAnd (bbAnd (kingAttack ko) (kingAttack f)) (bbNot (bbC p us))) t = true -> t < 81 -> boardCheck f (makeNonPromoteMove p 14 f t)).
    { intros S Ht. rewrite !isSet_and, isSet_not, isCol_bb in S by auto. rewrite !andb_true_iff in S. destruct S as [[S1 S2] S3]. apply negb_true_iff in S3. rewrite (back_king us ko (occBB p) t) in S1 by auto. apply andb_prop in S1 as [S1 S4].
      assert (A : isSet (attacksFrom 14 us f (occBB p)) t = true) by (rewrite af14; unfold dragonAttack; rewrite isSet_or, S2; apply orb_true_r). apply dnon; auto. destruct (reach_unions us t ko Hu Ht Ho) as (_ & _ & _ & _ & U). now rewrite U, S1. }
    apply inIf in It as [[B It]|[_ It]].
    + apply in_bbList in It as [Ht It]; [|apply wf_or; [apply wf_and_l, wf_and_l, wf_kingAttack; auto|apply wf_and_l; now apply wf_betweenBB]]. rewrite isSet_or in It. apply orb_prop in It as [It|It]; [now apply Near|].
      destruct (one_enemy f t Hf Ht B It) as [So Ct]. pose proof (line_sreach 14 us f ko ltac:(now right) Hf Ho N SD) as S.
      destruct (slide_through (isSet (occBB p)) 14 us f ko t Hf Ho Ht S So) as (R1 & C1 & R2 & C2). assert (A : isSet (attacksFrom 14 us f (occBB p)) t = true) by (rewrite attacksFrom_spec by (auto; lia); now rewrite R1, C1). now apply dnon.
    + apply in_bbList in It as [Ht It]; [|apply wf_and_l, wf_and_l, wf_kingAttack; auto]. now apply Near.
  - rewrite <- (af14 us f (occBB p)) in It. apply in_target in It as (Ht & S & A & Ct); try lia. destruct (back_dragon us ko (occBB p) t Hu Ht Ho S) as [S1 S2]. now apply dnon.
Qed.
Lemma direct_sound f m : f < 81 -> isCol bd us f = true -> isSet (directBB p) f = true -> In m (directMoves p f) -> boardCheck f m.
Proof.
  intros Hf C D I. destruct (pt_cases _ (own_pt f Hf C)) as [E|[E|[E|[E|[E|[E|[E|[E|[E|[E|[E|[E|[E|E]]]]]]]]]]]]].
  - exact (direct1 f m Hf C E D I).
  - exact (direct2 f m Hf C E D I).
  - exact (direct3 f m Hf C E D I).
  - exact (direct4 f m Hf C E D I).
  - exact (direct5 f m Hf C E D I).
  - exact (direct6 f m Hf C E D I).
  - exact (direct7 f m Hf C E D I).
  - rewrite dm_eq, (gAt p bd Ebd f), E, dir8_eq in I. destruct I.
  - exact (direct9 f m Hf C E D I).
  - exact (direct10 f m Hf C E D I).
  - exact (direct11 f m Hf C E D I).
  - exact (direct12 f m Hf C E D I).
  - exact (direct13 f m Hf C E D I).
  - exact (direct14 f m Hf C E D I).
Qed.
End C.
