(* Coordinate characterisation of rays and of the squares between two squares. *)
From Verif Require Export Geo.

(* t lies k steps from s in direction d *)
Definition off (s : N) (d : dir) (k : Z) (t : N) : Prop := (fz t = fz s + k * fst d /\ rz t = rz s + k * snd d)%Z.

Lemma sq_ext s t : s < 81 -> t < 81 -> fz s = fz t -> rz s = rz t -> s = t.
Proof. intros Hs Ht E1 E2. rewrite <- (sqz_fz_rz s), <- (sqz_fz_rz t) by auto. now rewrite E1, E2. Qed.
Lemma onb_true f r : onb f r = true <-> (0 <= f < 9 /\ 0 <= r < 9)%Z.
Proof. unfold onb. rewrite !andb_true_iff. lia. Qed.
Lemma stepTo_iff d s t : s < 81 -> (stepTo d s = Some t <-> t < 81 /\ off s d 1 t).
Proof.
  intros Hs. unfold stepTo, off. destruct (onb _ _) eqn:E.
  - pose proof (onb_sqz _ _ E) as (L & Ef & Er). split.
    + intros [= <-]. rewrite Ef, Er. split; [auto|lia].
    + intros (Lt & F & R). f_equal. apply sq_ext; auto; lia.
  - split; [discriminate|]. intros (Lt & F & R). exfalso. apply not_true_iff_false in E. apply E. apply onb_true.
    pose proof (fz_rz_range t Lt). lia.
Qed.
Lemma stepHits_iff d s t : s < 81 -> t < 81 -> (stepHits d s t = true <-> off s d 1 t).
Proof.
  intros Hs Ht. unfold stepHits. destruct (stepTo d s) as [u|] eqn:E.
  - rewrite N.eqb_eq. apply stepTo_iff in E as [Lu Hu]; [|auto]. split; [now intros <-|].
    intros H. unfold off in *. apply sq_ext; auto; lia.
  - split; [discriminate|]. intros H. assert (stepTo d s = Some t) by (apply stepTo_iff; auto). congruence.
Qed.

Definition unit (d : dir) : Prop := (-1 <= fst d <= 1 /\ -1 <= snd d <= 1 /\ (fst d <> 0 \/ snd d <> 0))%Z.
Lemma unit_allDirs d : In d allDirs -> unit d.
Proof. unfold unit. cbn. intuition (subst; cbn; lia). Qed.
Lemma unit_cases d : unit d -> In d allDirs.
Proof.
  destruct d as [a b]. unfold unit. cbn [fst snd]. intros (A & B & C).
  assert (a = -1 \/ a = 0 \/ a = 1)%Z as Ha by lia. assert (b = -1 \/ b = 0 \/ b = 1)%Z as Hb by lia.
  destruct Ha as [->|[->| ->]], Hb as [->|[->| ->]]; try lia; cbn; auto 10.
Qed.
Lemma rayF_iff n : forall d s t, In d allDirs -> s < 81 ->
  (In t (rayF n d s) <-> t < 81 /\ exists k, (1 <= k <= Z.of_nat n)%Z /\ off s d k t).
Proof.
  induction n as [|n IH]; intros d s t Hd Hs; cbn [rayF].
  - cbn [In]. split; [tauto|]. intros (_ & k & Hk & _). lia.
  - destruct (stepTo d s) as [u|] eqn:E.
    + apply stepTo_iff in E as [Lu Hu]; [|auto]. cbn [In]. rewrite IH by auto. split.
      * intros [<-|(Lt & k & Hk & Ho)]; [split; [auto|]; exists 1%Z; split; [lia|auto]|].
        split; [auto|]. exists (k + 1)%Z. unfold off in *. split; [lia|]. rewrite !Z.mul_add_distr_r. lia.
      * intros (Lt & k & Hk & Ho). destruct (Z.eq_dec k 1) as [->|Hn].
        -- left. unfold off in *. apply sq_ext; auto; lia.
        -- right. split; [auto|]. exists (k - 1)%Z. unfold off in *. split; [lia|]. rewrite !Z.mul_sub_distr_r. lia.
    + split; [intros []|]. intros (Lt & k & Hk & Ho). exfalso.
      assert (G : stepTo d s = Some (sqz (fz s + fst d) (rz s + snd d))).
      { unfold stepTo. replace (onb _ _) with true; [reflexivity|]. symmetry. apply onb_true.
        pose proof (fz_rz_range s Hs). pose proof (fz_rz_range t Lt). unfold off in Ho.
        pose proof (unit_allDirs d Hd) as (A & B & _).
        assert (fst d = -1 \/ fst d = 0 \/ fst d = 1)%Z as [Ea|[Ea|Ea]] by lia;
        assert (snd d = -1 \/ snd d = 0 \/ snd d = 1)%Z as [Eb|[Eb|Eb]] by lia; rewrite Ea, Eb in *; lia. }
      congruence.
Qed.
Lemma unit_off_le8 d s t k : In d allDirs -> s < 81 -> t < 81 -> off s d k t -> (-8 <= k <= 8)%Z.
Proof.
  intros Hd Hs Ht [F R]. pose proof (fz_rz_range s Hs). pose proof (fz_rz_range t Ht). pose proof (unit_allDirs d Hd) as (A & B & C).
  assert (fst d = -1 \/ fst d = 0 \/ fst d = 1)%Z as [Ea|[Ea|Ea]] by lia;
  assert (snd d = -1 \/ snd d = 0 \/ snd d = 1)%Z as [Eb|[Eb|Eb]] by lia; rewrite Ea, Eb in *; lia.
Qed.
Lemma ray_iff d s t : In d allDirs -> s < 81 -> (In t (ray d s) <-> t < 81 /\ exists k, (1 <= k)%Z /\ off s d k t).
Proof.
  intros Hd Hs. unfold ray. rewrite rayF_iff by auto. split; intros (Lt & k & Hk & Ho); (split; [auto|]); exists k; (split; [|auto]); [lia|].
  pose proof (unit_off_le8 d s t k Hd Hs Lt Ho). lia.
Qed.
Lemma memN_ray d s t : In d allDirs -> s < 81 -> t < 81 -> (memN t (ray d s) = true <-> exists k, (1 <= k)%Z /\ off s d k t).
Proof. intros. rewrite memN_In, ray_iff by auto. tauto. Qed.

(* x lies strictly between s and t *)
Definition isBetween (s x t : N) : Prop :=
  exists d a b, In d allDirs /\ (1 <= a)%Z /\ (1 <= b)%Z /\ off s d a x /\ off x d b t.
Lemma betw_iff s t x : s < 81 -> t < 81 -> (In x (betw s t) <-> x < 81 /\ isBetween s x t).
Proof.
  intros Hs Ht. unfold betw. cbv zeta. destruct (_ || _) eqn:E.
  - destruct (Z.leb_spec (Z.max (Z.abs (fz t - fz s)) (Z.abs (rz t - rz s))) 1) as [L|L].
    + replace (Z.to_nat _) with O by lia. cbn [rayF In]. split; [tauto|]. intros (Lx & d & a & b & Hd & Ha & Hb & [F1 R1] & [F2 R2]).
      pose proof (unit_allDirs d Hd) as (A & B & C).
      assert (fst d = -1 \/ fst d = 0 \/ fst d = 1)%Z as [Ea|[Ea|Ea]] by lia;
      assert (snd d = -1 \/ snd d = 0 \/ snd d = 1)%Z as [Eb|[Eb|Eb]] by lia; rewrite Ea, Eb in *; lia.
    + assert (Hd : In (Z.sgn (fz t - fz s), Z.sgn (rz t - rz s)) allDirs) by (apply unit_cases; unfold unit; cbn [fst snd]; lia).
      rewrite rayF_iff by auto. split.
      * intros (Lx & k & Hk & Ho). split; [auto|].
        exists (Z.sgn (fz t - fz s), Z.sgn (rz t - rz s)), k, (Z.max (Z.abs (fz t - fz s)) (Z.abs (rz t - rz s)) - k)%Z.
        split; [auto|]. split; [lia|]. split; [lia|]. split; [auto|]. unfold off in *. cbn [fst snd] in *.
        destruct Ho as [F R]. rewrite F, R.
        assert (Z.sgn (fz t - fz s) = -1 \/ Z.sgn (fz t - fz s) = 0 \/ Z.sgn (fz t - fz s) = 1)%Z as [Ea|[Ea|Ea]] by lia;
        assert (Z.sgn (rz t - rz s) = -1 \/ Z.sgn (rz t - rz s) = 0 \/ Z.sgn (rz t - rz s) = 1)%Z as [Eb|[Eb|Eb]] by lia; rewrite Ea, Eb in *; lia.
      * intros (Lx & d & a & b & Hd' & Ha & Hb & [F1 R1] & [F2 R2]). split; [auto|]. exists a.
        pose proof (unit_allDirs d Hd') as (A & B & C). unfold off. cbn [fst snd].
        assert (fst d = -1 \/ fst d = 0 \/ fst d = 1)%Z as [Ea|[Ea|Ea]] by lia;
        assert (snd d = -1 \/ snd d = 0 \/ snd d = 1)%Z as [Eb|[Eb|Eb]] by lia; rewrite Ea, Eb in *; try lia;
        (assert (Z.sgn (fz t - fz s) = -1 \/ Z.sgn (fz t - fz s) = 0 \/ Z.sgn (fz t - fz s) = 1)%Z as [Ec|[Ec|Ec]] by lia);
        (assert (Z.sgn (rz t - rz s) = -1 \/ Z.sgn (rz t - rz s) = 0 \/ Z.sgn (rz t - rz s) = 1)%Z as [Ed|[Ed|Ed]] by lia); rewrite Ec, Ed; lia.
  - cbn [In]. split; [tauto|]. intros (Lx & d & a & b & Hd & Ha & Hb & [F1 R1] & [F2 R2]).
    pose proof (unit_allDirs d Hd) as (A & B & C).
    assert (fst d = -1 \/ fst d = 0 \/ fst d = 1)%Z as [Ea|[Ea|Ea]] by lia;
    assert (snd d = -1 \/ snd d = 0 \/ snd d = 1)%Z as [Eb|[Eb|Eb]] by lia; rewrite Ea, Eb in *; lia.
Qed.
Lemma memN_betw s t x : s < 81 -> t < 81 -> x < 81 -> (memN x (betw s t) = true <-> isBetween s x t).
Proof. intros. rewrite memN_In, betw_iff by auto. tauto. Qed.

Definition nd (d : dir) : dir := (- fst d, - snd d)%Z.
Lemma nd_in d : In d allDirs -> In (nd d) allDirs.
Proof. intros H. apply unit_cases. pose proof (unit_allDirs d H). unfold unit, nd in *. cbn [fst snd]. lia. Qed.
Lemma nd_nd d : nd (nd d) = d.
Proof. destruct d. unfold nd. cbn [fst snd]. now rewrite !Z.opp_involutive. Qed.
Lemma off_sym s d k t : off s d k t -> off t (nd d) k s.
Proof. unfold off, nd. cbn [fst snd]. rewrite !Z.mul_opp_r. lia. Qed.
Lemma isBetween_sym s x t : isBetween s x t -> isBetween t x s.
Proof.
  intros (d & a & b & Hd & Ha & Hb & H1 & H2). exists (nd d), b, a. auto 10 using nd_in, off_sym.
Qed.
Lemma stepHits_sym d s t : s < 81 -> t < 81 -> stepHits d s t = stepHits (nd d) t s.
Proof.
  intros Hs Ht. apply eq_true_iff_eq. rewrite !stepHits_iff by auto. split; intros H; apply off_sym in H; [auto|now rewrite nd_nd in H].
Qed.
Lemma memN_ray_sym d s t : In d allDirs -> s < 81 -> t < 81 -> memN t (ray d s) = memN s (ray (nd d) t).
Proof.
  intros Hd Hs Ht. apply eq_true_iff_eq. rewrite !memN_ray by auto using nd_in. split; intros (k & Hk & H); exists k; (split; [auto|]);
  apply off_sym in H; [auto|now rewrite nd_nd in H].
Qed.
Lemma memN_betw_sym s t x : s < 81 -> t < 81 -> memN x (betw s t) = memN x (betw t s).
Proof.
  intros Hs Ht. apply eq_true_iff_eq. rewrite !memN_In, !betw_iff by auto. split; intros [Lx H]; (split; [auto|]); now apply isBetween_sym.
Qed.
Lemma clear_iff occ s t : clear occ s t = true <-> forall x, In x (betw s t) -> occ x = false.
Proof. unfold clear. rewrite forallb_forall. split; intros H x Hx; specialize (H x Hx); now destruct (occ x). Qed.
Lemma clear_sym occ s t : s < 81 -> t < 81 -> clear occ s t = clear occ t s.
Proof.
  intros Hs Ht. apply eq_true_iff_eq. rewrite !clear_iff. split; intros H x Hx; apply H; apply memN_In; rewrite memN_betw_sym by auto; now apply memN_In.
Qed.

Lemma NoDup_rayF d : In d allDirs -> forall n s, s < 81 -> NoDup (rayF n d s).
Proof.
  intros Hd. induction n as [|n IH]; intros s Hs; cbn [rayF]; [constructor|].
  destruct (stepTo d s) as [u|] eqn:E; [|constructor]. apply stepTo_iff in E as [Lu _]; [|auto].
  constructor; [|auto]. rewrite rayF_iff by auto. intros (_ & k & Hk & [F R]). pose proof (unit_allDirs d Hd) as (A & B & C).
  assert (fst d = -1 \/ fst d = 0 \/ fst d = 1)%Z as [Ea|[Ea|Ea]] by lia;
  assert (snd d = -1 \/ snd d = 0 \/ snd d = 1)%Z as [Eb|[Eb|Eb]] by lia; rewrite Ea, Eb in *; lia.
Qed.
Lemma NoDup_ray d s : In d allDirs -> s < 81 -> NoDup (ray d s).
Proof. intros. now apply NoDup_rayF. Qed.
Lemma NoDup_betw s t : s < 81 -> NoDup (betw s t).
Proof.
  intros Hs. unfold betw. cbv zeta. destruct (_ || _); [|constructor].
  destruct (Z.eq_dec (fz t - fz s) 0) as [E1|E1]; [destruct (Z.eq_dec (rz t - rz s) 0) as [E2|E2]|].
  - rewrite E1, E2. constructor.
  - apply NoDup_rayF; auto. apply unit_cases. unfold unit. cbn [fst snd]. lia.
  - apply NoDup_rayF; auto. apply unit_cases. unfold unit. cbn [fst snd]. lia.
Qed.
