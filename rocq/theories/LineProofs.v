(* Lines of the board: the squareRelation table and isAligned in coordinates. *)
From Verif Require Export AttackersProofs.

Ltac dcase d Hd :=
  let A := fresh in let B := fresh in let C := fresh in
  pose proof (unit_allDirs d Hd) as (A & B & C);
  let Ea := fresh "Ea" in let Eb := fresh "Eb" in
  assert (fst d = -1 \/ fst d = 0 \/ fst d = 1)%Z as [Ea|[Ea|Ea]] by (clear - A; lia);
  assert (snd d = -1 \/ snd d = 0 \/ snd d = 1)%Z as [Eb|[Eb|Eb]] by (clear - B; lia);
  [ | | | | exfalso; clear - C Ea Eb; lia | | | | ]; clear A B C; rewrite ?Ea, ?Eb in *.

Lemma off_add x d a y b z : off x d a y -> off y d b z -> off x d (a + b)%Z z.
Proof. unfold off. rewrite !Z.mul_add_distr_r. lia. Qed.
Lemma off_sub x d a y b z : off x d a y -> off x d b z -> off y d (b - a)%Z z.
Proof. unfold off. rewrite !Z.mul_sub_distr_r. lia. Qed.
Lemma off_nd x d a y : off x d a y <-> off x (nd d) (- a)%Z y.
Proof. unfold off, nd. cbn [fst snd]. rewrite !Z.mul_opp_opp. tauto. Qed.
Lemma off_fun x d a y z : y < 81 -> z < 81 -> off x d a y -> off x d a z -> y = z.
Proof. intros Hy Hz [F R] [F' R']. apply sq_ext; auto; lia. Qed.
Lemma dir_eq (d e : dir) : fst d = fst e -> snd d = snd e -> d = e.
Proof. destruct d, e; cbn; congruence. Qed.
Lemma off_uniq x y d e a b : In d allDirs -> In e allDirs -> (1 <= a)%Z -> (1 <= b)%Z -> off x d a y -> off x e b y -> d = e /\ a = b.
Proof.
  intros Hd He Ha Hb [F R] [F' R'].
  dcase d Hd; dcase e He; try lia; (split; [apply dir_eq; congruence|lia]).
Qed.
Lemma off_neq x d a y : In d allDirs -> (1 <= a)%Z -> off x d a y -> x <> y.
Proof. intros Hd Ha [F R] ->. dcase d Hd; lia. Qed.

Definition relOf (d : dir) : N :=
  if (fst d =? 0)%Z then DirecFile else if (snd d =? 0)%Z then DirecRank else if (fst d =? snd d)%Z then DirecDiagNESW else DirecDiagNWSE.
Lemma relOf_nz d : relOf d <> 0.
Proof. unfold relOf. destruct (fst d =? 0)%Z; [discriminate|]. destruct (snd d =? 0)%Z; [discriminate|]. destruct (_ =? _)%Z; discriminate. Qed.
Lemma relOf_nd d : relOf (nd d) = relOf d.
Proof.
  unfold relOf, nd. cbn [fst snd]. replace (- fst d =? 0)%Z with (fst d =? 0)%Z by lia. replace (- snd d =? 0)%Z with (snd d =? 0)%Z by lia.
  now replace (- fst d =? - snd d)%Z with (fst d =? snd d)%Z by lia.
Qed.
Lemma relOf_inj d e : In d allDirs -> In e allDirs -> relOf d = relOf e -> e = d \/ e = nd d.
Proof.
  intros Hd He. unfold allDirs, rookDirs, bishopDirs in Hd, He. cbn in Hd, He.
  repeat (destruct Hd as [<-|Hd]); try destruct Hd; repeat (destruct He as [<-|He]); try destruct He;
  cbv [relOf dN dS dW dE dNW dNE dSW dSE fst snd Z.eqb Pos.eqb DirecFile DirecRank DirecDiagNESW DirecDiagNWSE nd Z.opp]; intros H; try discriminate H; auto.
Qed.
Lemma rel_off s d k t : In d allDirs -> s < 81 -> t < 81 -> (1 <= k)%Z -> off s d k t -> squareRelation s t = relOf d.
Proof.
  intros Hd Hs Ht Hk [F R]. unfold squareRelation, relOf, makeFile, makeRank. cbv zeta. unfold fz, rz in F, R.
  assert (F1 : Z.of_N (s / 9) = fz s) by reflexivity.
  set (f1 := s / 9) in *. set (f2 := t / 9) in *. set (r1 := s mod 9) in *. set (r2 := t mod 9) in *.
  assert (Es : s = 9 * f1 + r1) by (unfold f1, r1; lia). assert (Et : t = 9 * f2 + r2) by (unfold f2, r2; lia).
  assert (L1 : r1 < 9) by (unfold r1; lia). assert (L2 : r2 < 9) by (unfold r2; lia). clearbody f1 f2 r1 r2. clear F1.
  dcase d Hd; cbv [Z.eqb Pos.eqb]; destruct (N.eqb_spec s t); try lia; destruct (N.eqb_spec f1 f2); try lia; destruct (N.eqb_spec r1 r2); try lia;
  destruct (N.eqb_spec (r1 + f2) (r2 + f1)); try lia; destruct (N.eqb_spec (r1 + f1) (r2 + f2)); try lia.
Qed.
Lemma rel_inv s t : s < 81 -> t < 81 -> squareRelation s t <> 0 -> exists d k, In d allDirs /\ (1 <= k)%Z /\ off s d k t.
Proof.
  intros Hs Ht H. unfold squareRelation, makeFile, makeRank in H. cbv zeta in H.
  destruct (N.eqb_spec s t) as [|Hn]; [now destruct H|].
  set (df := (fz t - fz s)%Z). set (dr := (rz t - rz s)%Z).
  assert (Hd : (df = 0 \/ dr = 0 \/ Z.abs df = Z.abs dr)%Z).
  { unfold df, dr, fz, rz. destruct (N.eqb_spec (s / 9) (t / 9)); [lia|]. destruct (N.eqb_spec (s mod 9) (t mod 9)); [lia|].
    destruct (N.eqb_spec (s mod 9 + t / 9) (t mod 9 + s / 9)); [lia|]. destruct (N.eqb_spec (s mod 9 + s / 9) (t mod 9 + t / 9)); [lia|]. now destruct H. }
  assert (Hnz : (df <> 0 \/ dr <> 0)%Z).
  { destruct (Z.eq_dec df 0); [|auto]. destruct (Z.eq_dec dr 0); [|auto]. exfalso. apply Hn. apply sq_ext; auto; unfold df, dr in *; lia. }
  exists (Z.sgn df, Z.sgn dr), (Z.max (Z.abs df) (Z.abs dr)). split; [apply unit_cases; unfold unit; cbn [fst snd]; lia|].
  split; [lia|]. unfold off. cbn [fst snd].
  assert (E1 : (fz t = fz s + df)%Z) by (unfold df; lia). assert (E2 : (rz t = rz s + dr)%Z) by (unfold dr; lia). rewrite E1, E2. clearbody df dr.
  assert (Z.sgn df = -1 \/ Z.sgn df = 0 \/ Z.sgn df = 1)%Z as [Ea|[Ea|Ea]] by lia;
  assert (Z.sgn dr = -1 \/ Z.sgn dr = 0 \/ Z.sgn dr = 1)%Z as [Eb|[Eb|Eb]] by lia; rewrite Ea, Eb; lia.
Qed.

(* a piece that shields k from x stays on the line exactly when its target is between x and k *)
Lemma aligned_between occ x from to k : x < 81 -> from < 81 -> to < 81 -> k < 81 -> isBetween x from k -> from <> to -> to <> x -> to <> k ->
  occ x = true -> occ k = true -> clear occ from to = true -> isAligned from to k = memN to (betw x k).
Proof.
  intros Hx Hf Ht Hk (d & a & b & Hd & Ha & Hb & O1 & O2) Hne Htx Htk Ox Ok Cl.
  apply eq_true_iff_eq. rewrite memN_betw by auto. unfold isAligned. rewrite N.eqb_eq. rewrite (rel_off from d b k) by auto. rewrite clear_iff in Cl. split.
  - intros E. destruct (rel_inv from to Hf Ht) as (e & c & He & Hc & O3); [rewrite <- E; apply relOf_nz|].
    rewrite (rel_off from e c to) in E by auto. destruct (relOf_inj d e Hd He E) as [->| ->].
    + destruct (Z.lt_trichotomy c b) as [L|[->|L]].
      * exists d, (a + c)%Z, (b - c)%Z. repeat split; try lia; auto; try apply (off_add x d a from c to); auto; apply (off_sub from d c to b k); auto.
      * exfalso. apply Htk. now apply (off_fun from d b).
      * exfalso. assert (In k (betw from to)).
        { apply betw_iff; auto. split; auto. exists d, b, (c - b)%Z. repeat split; try lia; auto; try apply O2; apply (off_sub from d b k c to); auto. }
        rewrite Cl in Ok by auto. discriminate.
    + apply off_sym in O1. destruct (Z.lt_trichotomy c a) as [L|[->|L]].
      * apply isBetween_sym. exists (nd d), (b + c)%Z, (a - c)%Z. split; auto. split; [lia|]. split; [lia|]. split.
        -- apply (off_add k (nd d) b from c to); auto. now apply off_sym.
        -- apply (off_sub from (nd d) c to a x); auto.
      * exfalso. apply Htx. now apply (off_fun from (nd d) a).
      * exfalso. assert (In x (betw from to)).
        { apply betw_iff; auto. split; auto. exists (nd d), a, (c - a)%Z. split; auto. split; [lia|]. split; [lia|]. split; auto. apply (off_sub from (nd d) a x c to); auto. }
        rewrite Cl in Ox by auto. discriminate.
  - intros (e & a' & b' & He & Ha' & Hb' & O3 & O4).
    assert (d = e /\ (a + b = a' + b')%Z) as [<- S] by (apply (off_uniq x k); auto; try lia; eapply off_add; eauto).
    destruct (Z.lt_trichotomy a a') as [L|[E|L]].
    + symmetry. apply (rel_off from d (a' - a)); auto; [lia|]. eapply off_sub; eauto.
    + exfalso. apply Hne. subst a'. now apply (off_fun x d a).
    + symmetry. rewrite <- relOf_nd. apply (rel_off from (nd d) (a - a')); auto using nd_in; [lia|].
      assert (O5 : off from d (a' - a)%Z to) by (eapply off_sub; eauto). apply off_nd in O5. now replace (- (a' - a))%Z with (a - a')%Z in O5 by lia.
Qed.

(* a reach that passes over a square is a slide *)
Lemma reach_far pt c s t y : c < 2 -> 1 <= pt < 15 -> s < 81 -> t < 81 -> reach pt c s t = true -> In y (betw s t) -> sreach pt c s t = true.
Proof.
  intros Hc Hp Hs Ht H Hy. rewrite reach_eq in H. apply orb_prop in H as [H|H]; [|exact H]. exfalso.
  assert (Hcl : clear (fun _ => true) s t = true).
  { rewrite (step_clear_eq pt c s t (fun _ => true)) in H by auto. now apply andb_prop in H. }
  rewrite clear_iff in Hcl. specialize (Hcl y Hy). discriminate.
Qed.
Lemma sreach_reach pt c s t : sreach pt c s t = true -> reach pt c s t = true.
Proof. intros H. rewrite reach_eq. unfold sreach in H. now rewrite H, orb_true_r. Qed.
Lemma sreach_iff pt c s t : s < 81 -> t < 81 -> (sreach pt c s t = true <-> exists d k, In d (slidesOf pt c) /\ (1 <= k)%Z /\ off s d k t).
Proof.
  intros Hs Ht. unfold sreach, rayIn. rewrite existsb_exists. split.
  - intros (d & Hd & H). apply memN_ray in H as (k & Hk & H); auto; [eauto|]. now apply slides_allDirs in Hd.
  - intros (d & k & Hd & Hk & H). exists d. split; auto. apply memN_ray; eauto. now apply slides_allDirs in Hd.
Qed.
(* sliding over a square that lies between: the nearer square slides too *)
Lemma sreach_inner pt c s x t : s < 81 -> x < 81 -> t < 81 -> sreach pt c s t = true -> isBetween s x t -> sreach pt c x t = true.
Proof.
  intros Hs Hx Ht H (e & a & b & He & Ha & Hb & O1 & O2). apply sreach_iff in H as (d & k & Hd & Hk & O); auto.
  assert (d = e /\ (k = a + b)%Z) as [<- _] by (apply (off_uniq s t); auto; try lia; [now apply slides_allDirs in Hd|eapply off_add; eauto]).
  apply sreach_iff; auto. eauto.
Qed.
Lemma slides_promo pt c d : 1 <= pt <= 6 -> In d (slidesOf (pt + 8) c) -> In d (slidesOf pt c).
Proof. intros H. assert (pt = 1 \/ pt = 2 \/ pt = 3 \/ pt = 4 \/ pt = 5 \/ pt = 6) as [->|[->|[->|[->|[->| ->]]]]] by lia; cbn; tauto. Qed.
Lemma sreach_promo pt c s t : s < 81 -> t < 81 -> 1 <= pt <= 6 -> sreach (pt + 8) c s t = true -> sreach pt c s t = true.
Proof. intros Hs Ht Hp H. apply sreach_iff in H as (d & k & Hd & Hk & O); auto. apply sreach_iff; auto. exists d, k. auto using slides_promo. Qed.
Lemma clear_mono (occ occ' : N -> bool) s t : (forall y, y < 81 -> occ y = true -> occ' y = true) -> clear occ' s t = true -> clear occ s t = true.
Proof.
  intros H. rewrite !clear_iff. intros C y Hy. destruct (occ y) eqn:E; [|reflexivity]. rewrite <- (C y Hy). symmetry. apply H; auto. now apply betw_lt in Hy.
Qed.
Lemma betw_ends s t : s < 81 -> t < 81 -> ~ In s (betw s t) /\ ~ In t (betw s t).
Proof.
  intros Hs Ht. split; intros H; apply betw_iff in H as (_ & d & a & b & Hd & Ha & Hb & O1 & O2); auto.
  - now apply off_neq in O1.
  - now apply off_neq in O2.
Qed.
