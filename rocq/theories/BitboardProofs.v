(* Pointwise characterisation of the bitboard operations. *)
From Verif Require Import Bitboard.

Definition wfBB (b : BB) : Prop := p0 b < 2 ^ 63 /\ p1 b < 2 ^ 18.

Lemma land_pow2_testbit a n : negb (N.land a (N.shiftl 1 n) =? 0) = N.testbit a n.
Proof.
  rewrite N.shiftl_1_l.
  assert (E : N.land a (2 ^ n) = if N.testbit a n then 2 ^ n else 0).
  { apply N.bits_inj. intros i. rewrite N.land_spec, N.pow2_bits_eqb.
    destruct (N.eqb_spec n i) as [->|Hn].
    - destruct (N.testbit a i); [now rewrite N.pow2_bits_true|reflexivity].
    - rewrite andb_false_r. destruct (N.testbit a n); [now rewrite N.pow2_bits_false|now rewrite N.bits_0]. }
  rewrite E. destruct (N.testbit a n).
  - assert (2 ^ n <> 0) by (apply N.pow_nonzero; lia). destruct (N.eqb_spec (2 ^ n) 0); auto; contradiction.
  - reflexivity.
Qed.

Definition tst (b : BB) (sq : N) : bool :=
  if sq <? 63 then N.testbit (p0 b) sq else N.testbit (p1 b) (sq - 63).

Lemma isSet_tst b sq : isSet b sq = tst b sq.
Proof.
  unfold isSet, andIsAny, isAny, bbMerge, bbAnd, setMaskBB, tst.
  destruct (sq <? 63); cbn [p0 p1].
  - rewrite N.land_0_r, N.lor_0_r. apply land_pow2_testbit.
  - rewrite N.land_0_r, N.lor_0_l. apply land_pow2_testbit.
Qed.

Lemma isSet_and a b s : isSet (bbAnd a b) s = isSet a s && isSet b s.
Proof. rewrite !isSet_tst. unfold tst, bbAnd. destruct (s <? 63); cbn [p0 p1]; apply N.land_spec. Qed.
Lemma isSet_or a b s : isSet (bbOr a b) s = isSet a s || isSet b s.
Proof. rewrite !isSet_tst. unfold tst, bbOr. destruct (s <? 63); cbn [p0 p1]; apply N.lor_spec. Qed.
Lemma isSet_xor a b s : isSet (bbXor a b) s = xorb (isSet a s) (isSet b s).
Proof. rewrite !isSet_tst. unfold tst, bbXor. destruct (s <? 63); cbn [p0 p1]; apply N.lxor_spec. Qed.

Lemma testbit_M64 i : N.testbit M64 i = (i <? 64).
Proof.
  change M64 with (N.ones 64). destruct (N.ltb_spec i 64).
  - now apply N.ones_spec_low.
  - now apply N.ones_spec_high.
Qed.

Lemma isSet_not a s : s < 81 -> isSet (bbNot a) s = negb (isSet a s).
Proof.
  intros Hs. rewrite !isSet_tst. unfold tst, bbNot, not64.
  destruct (N.ltb_spec s 63); cbn [p0 p1]; rewrite N.lxor_spec, testbit_M64.
  - replace (s <? 64) with true by lia. now destruct (N.testbit _ _).
  - replace (s - 63 <? 64) with true by lia. now destruct (N.testbit _ _).
Qed.
Lemma isSet_andnot a b s : s < 81 -> isSet (bbAndNot a b) s = isSet a s && negb (isSet b s).
Proof. intros Hs. unfold bbAndNot. now rewrite isSet_and, isSet_not. Qed.
Lemma isSet_notthisand a b s : s < 81 -> isSet (bbNotThisAnd a b) s = negb (isSet a s) && isSet b s.
Proof. intros Hs. unfold bbNotThisAnd. now rewrite isSet_and, isSet_not. Qed.

Lemma isSet_zero s : isSet allZeroBB s = false.
Proof. rewrite isSet_tst. unfold tst, allZeroBB. cbn [p0 p1]. now destruct (s <? 63); rewrite N.bits_0. Qed.

Lemma isSet_ones s : s < 81 -> isSet allOneBB s = true.
Proof.
  intros Hs. apply (forallb_squares (isSet allOneBB)); [vm_compute; reflexivity|exact Hs].
Qed.

Lemma isSet_mask sq s : s < 81 -> sq < 81 -> isSet (setMaskBB sq) s = (sq =? s).
Proof.
  intros Hs Hq. rewrite isSet_tst. unfold tst, setMaskBB.
  destruct (N.ltb_spec sq 63), (N.ltb_spec s 63); cbn [p0 p1]; rewrite ?N.bits_0, ?N.shiftl_1_l, ?N.pow2_bits_eqb; lia.
Qed.

Lemma isSet_setBit b q s : q < 81 -> s < 81 -> isSet (setBit b q) s = (q =? s) || isSet b s.
Proof. intros. unfold setBit. rewrite isSet_or, isSet_mask by lia. apply orb_comm. Qed.
Lemma isSet_clearBit b q s : q < 81 -> s < 81 -> isSet (clearBit b q) s = negb (q =? s) && isSet b s.
Proof. intros. unfold clearBit. rewrite isSet_andnot, isSet_mask by lia. apply andb_comm. Qed.
Lemma isSet_xorBit b q s : q < 81 -> s < 81 -> isSet (xorBit b q) s = xorb (isSet b s) (q =? s).
Proof. intros. unfold xorBit. now rewrite isSet_xor, isSet_mask by lia. Qed.
Lemma isSet_xorBit2 b q q' s : q < 81 -> q' < 81 -> s < 81 ->
  isSet (xorBit2 b q q') s = xorb (isSet b s) ((q =? s) || (q' =? s)).
Proof. intros. unfold xorBit2. now rewrite isSet_xor, isSet_or, !isSet_mask by lia. Qed.

(* ---- bounds ---- *)
Lemma bits_lt n : forall a, (forall i, n <= i -> N.testbit a i = false) -> a < 2 ^ n.
Proof.
  intros a H. destruct (N.eq_dec a 0) as [->|Hz].
  - apply N.neq_0_lt_0, N.pow_nonzero. lia.
  - apply N.log2_lt_pow2; [lia|]. destruct (N.lt_ge_cases (N.log2 a) n) as [|Hge]; auto.
    exfalso. specialize (H _ Hge). rewrite N.bit_log2 in H by auto. discriminate.
Qed.
Lemma lt_bits n a i : a < 2 ^ n -> n <= i -> N.testbit a i = false.
Proof.
  intros H Hi. destruct (N.eq_dec a 0) as [->|Hz]; [apply N.bits_0|].
  apply N.bits_above_log2. apply N.log2_lt_pow2 in H; lia.
Qed.
Lemma land_lt_l a b n : a < 2 ^ n -> N.land a b < 2 ^ n.
Proof. intros H. apply bits_lt. intros i Hi. rewrite N.land_spec, (lt_bits n a i); auto. Qed.
Lemma land_lt_r a b n : b < 2 ^ n -> N.land a b < 2 ^ n.
Proof. intros H. rewrite N.land_comm. now apply land_lt_l. Qed.
Lemma lor_lt a b n : a < 2 ^ n -> b < 2 ^ n -> N.lor a b < 2 ^ n.
Proof. intros H H'. apply bits_lt. intros i Hi. rewrite N.lor_spec, (lt_bits n a i), (lt_bits n b i); auto. Qed.
Lemma lxor_lt a b n : a < 2 ^ n -> b < 2 ^ n -> N.lxor a b < 2 ^ n.
Proof. intros H H'. apply bits_lt. intros i Hi. rewrite N.lxor_spec, (lt_bits n a i), (lt_bits n b i); auto. Qed.

Lemma wf_and_l a b : wfBB a -> wfBB (bbAnd a b).
Proof. intros [H1 H2]. split; cbn [bbAnd p0 p1]; now apply land_lt_l. Qed.
Lemma wf_and_r a b : wfBB b -> wfBB (bbAnd a b).
Proof. intros [H1 H2]. split; cbn [bbAnd p0 p1]; now apply land_lt_r. Qed.
Lemma wf_or a b : wfBB a -> wfBB b -> wfBB (bbOr a b).
Proof. intros [] []. split; cbn [bbOr p0 p1]; now apply lor_lt. Qed.
Lemma wf_xor a b : wfBB a -> wfBB b -> wfBB (bbXor a b).
Proof. intros [] []. split; cbn [bbXor p0 p1]; now apply lxor_lt. Qed.
Lemma wf_andnot a b : wfBB a -> wfBB (bbAndNot a b).
Proof. apply wf_and_l. Qed.
Lemma wf_notthisand a b : wfBB b -> wfBB (bbNotThisAnd a b).
Proof. apply wf_and_r. Qed.
Lemma wf_zero : wfBB allZeroBB.
Proof. split; reflexivity. Qed.
Lemma wf_ones : wfBB allOneBB.
Proof. split; reflexivity. Qed.
Lemma wf_mask s : s < 81 -> wfBB (setMaskBB s).
Proof.
  intros H. unfold setMaskBB, wfBB. destruct (N.ltb_spec s 63); cbn [p0 p1]; rewrite N.shiftl_1_l; split; try reflexivity.
  - apply N.pow_lt_mono_r; lia.
  - apply N.pow_lt_mono_r; lia.
Qed.
Lemma wf_setBit b s : wfBB b -> s < 81 -> wfBB (setBit b s).
Proof. intros. apply wf_or; auto using wf_mask. Qed.
Lemma wf_xorBit b s : wfBB b -> s < 81 -> wfBB (xorBit b s).
Proof. intros. apply wf_xor; auto using wf_mask. Qed.
Lemma wf_xorBit2 b s s' : wfBB b -> s < 81 -> s' < 81 -> wfBB (xorBit2 b s s').
Proof. intros. apply wf_xor; auto using wf_or, wf_mask. Qed.

Lemma BB_ext a b : wfBB a -> wfBB b -> (forall s, s < 81 -> isSet a s = isSet b s) -> a = b.
Proof.
  intros [A0 A1] [B0 B1] H. destruct a as [a0 a1], b as [b0 b1]. cbn [p0 p1] in *. f_equal.
  - apply N.bits_inj. intros i. destruct (N.lt_ge_cases i 63) as [Hi|Hi].
    + specialize (H i ltac:(lia)). rewrite !isSet_tst in H. unfold tst in H.
      replace (i <? 63) with true in H by lia. exact H.
    + rewrite (lt_bits 63 a0), (lt_bits 63 b0); auto.
  - apply N.bits_inj. intros i. destruct (N.lt_ge_cases i 18) as [Hi|Hi].
    + specialize (H (i + 63) ltac:(lia)). rewrite !isSet_tst in H. unfold tst in H.
      replace (i + 63 <? 63) with false in H by lia. cbn [p0 p1] in H.
      replace (i + 63 - 63) with i in H by lia. exact H.
    + rewrite (lt_bits 18 a1), (lt_bits 18 b1); auto.
Qed.

Lemma bbEq_true a b : bbEq a b = true <-> a = b.
Proof.
  unfold bbEq. destruct a as [a0 a1], b as [b0 b1]. cbn [p0 p1]. rewrite andb_true_iff, !N.eqb_eq. split.
  - intros [-> ->]. reflexivity.
  - intros [= -> ->]. auto.
Qed.

(* ---- isAny ---- *)
Lemma isAny_false_zero a : isAny a = false -> a = allZeroBB.
Proof.
  unfold isAny, bbMerge. intros H. destruct a as [a0 a1]. cbn [p0 p1] in *.
  destruct (N.eqb_spec (N.lor a0 a1) 0) as [E|]; [|discriminate].
  apply N.lor_eq_0_iff in E as [-> ->]. reflexivity.
Qed.
Lemma isAny_false a : isAny a = false -> forall s, isSet a s = false.
Proof. intros H s. apply isAny_false_zero in H as ->. apply isSet_zero. Qed.
Lemma isAny_true_ex a : wfBB a -> isAny a = true -> exists s, s < 81 /\ isSet a s = true.
Proof.
  intros Hw H. destruct (existsb (isSet a) squares) eqn:E.
  - apply existsb_exists in E as (s & Hs & Es). exists s. split; auto. now apply in_squares.
  - exfalso. assert (a = allZeroBB).
    { apply BB_ext; auto using wf_zero. intros s Hs. rewrite isSet_zero.
      apply (existsb_false _ _ E). now apply in_squares. }
    subst. discriminate.
Qed.
Lemma isAny_ex_true a s : isSet a s = true -> isAny a = true.
Proof.
  intros H. destruct (isAny a) eqn:E; auto. rewrite (isAny_false _ E s) in H. discriminate.
Qed.
Lemma isAny_spec a : wfBB a -> isAny a = existsb (isSet a) squares.
Proof.
  intros Hw. destruct (isAny a) eqn:E; symmetry.
  - apply isAny_true_ex in E as (s & Hs & Es); auto. apply existsb_In with s; auto. now apply in_squares.
  - destruct (existsb (isSet a) squares) eqn:E2; auto.
    apply existsb_exists in E2 as (s & _ & Es). rewrite (isAny_false _ E) in Es. discriminate.
Qed.
Lemma andIsAny_true a b : wfBB a \/ wfBB b -> (andIsAny a b = true <-> exists s, s < 81 /\ isSet a s = true /\ isSet b s = true).
Proof.
  intros Hw. unfold andIsAny. split.
  - intros H. apply isAny_true_ex in H as (s & Hs & E).
    + rewrite isSet_and in E. apply andb_prop in E. eauto.
    + destruct Hw; auto using wf_and_l, wf_and_r.
  - intros (s & Hs & A & B). apply isAny_ex_true with s. now rewrite isSet_and, A, B.
Qed.

(* ---- lowest bit ---- *)
Lemma sub64_1_pos p : N.pos p < 2 ^ 64 -> sub64 (N.pos p) 1 = N.pred (N.pos p).
Proof.
  intros H. change (2 ^ 64) with 0x10000000000000000 in H. unfold sub64, w64.
  replace (1 mod 0x10000000000000000) with 1 by reflexivity.
  replace (N.pos p + 0x10000000000000000 - 1) with (N.pred (N.pos p) + 1 * 0x10000000000000000) by lia.
  rewrite N.mod_add by lia. apply N.mod_small. lia.
Qed.

Lemma ctz_pos_bit p : N.testbit (N.pos p) (ctz_pos p) = true.
Proof.
  induction p as [p IH|p IH|]; cbn [ctz_pos]; try reflexivity.
  replace (N.pos p~0) with (2 * N.pos p) by reflexivity.
  replace (1 + ctz_pos p) with (N.succ (ctz_pos p)) by lia.
  rewrite N.testbit_even_succ by lia. exact IH.
Qed.
Lemma ctz_pos_low p : forall i, i < ctz_pos p -> N.testbit (N.pos p) i = false.
Proof.
  induction p as [p IH|p IH|]; cbn [ctz_pos]; intros i Hi; try lia.
  replace (N.pos p~0) with (2 * N.pos p) by reflexivity.
  destruct (N.eq_dec i 0) as [->|Hn]; [apply N.testbit_even_0|].
  replace i with (N.succ (i - 1)) by lia. rewrite N.testbit_even_succ by lia. apply IH. lia.
Qed.
Lemma clear_pos p : forall i, N.testbit (N.land (N.pos p) (N.pred (N.pos p))) i
  = N.testbit (N.pos p) i && negb (i =? ctz_pos p).
Proof.
  induction p as [p IH|p IH|]; intros i; cbn [ctz_pos].
  - replace (N.pos p~1) with (2 * N.pos p + 1) by reflexivity.
    replace (N.pred (2 * N.pos p + 1)) with (2 * N.pos p) by lia.
    rewrite N.land_spec. destruct (N.eq_dec i 0) as [->|Hn].
    + rewrite N.testbit_even_0. cbn. now rewrite !andb_false_r.
    + replace i with (N.succ (i - 1)) by lia. rewrite N.testbit_even_succ, N.testbit_odd_succ by lia.
      replace (N.succ (i - 1) =? 0) with false by lia. now destruct (N.testbit _ _).
  - replace (N.pos p~0) with (2 * N.pos p) by reflexivity.
    replace (N.pred (2 * N.pos p)) with (2 * N.pred (N.pos p) + 1) by lia.
    rewrite N.land_spec. destruct (N.eq_dec i 0) as [->|Hn].
    + now rewrite N.testbit_even_0.
    + replace i with (N.succ (i - 1)) by lia. rewrite N.testbit_even_succ, N.testbit_odd_succ by lia.
      rewrite <- N.land_spec, IH. f_equal. f_equal. lia.
  - replace (N.land 1 (N.pred 1)) with 0 by reflexivity. rewrite N.bits_0.
    destruct (N.eq_dec i 0) as [->|Hn]; [reflexivity|].
    replace i with (N.succ (i - 1)) by lia. replace (N.testbit 1 (N.succ (i - 1))) with false; [reflexivity|].
    replace 1 with (2 * 0 + 1) by reflexivity. rewrite N.testbit_odd_succ by lia. now rewrite N.bits_0.
Qed.

Lemma ctz_bit w : w <> 0 -> N.testbit w (ctz w) = true.
Proof. destruct w; [contradiction|]. intros _. apply ctz_pos_bit. Qed.
Lemma ctz_low w i : w <> 0 -> i < ctz w -> N.testbit w i = false.
Proof. destruct w; [contradiction|]. intros _. apply ctz_pos_low. Qed.
Lemma clearLowest_bits w i : w <> 0 -> w < 2 ^ 64 ->
  N.testbit (clearLowest w) i = N.testbit w i && negb (i =? ctz w).
Proof.
  destruct w as [|p]; [contradiction|]. intros _ Hw. unfold clearLowest. rewrite sub64_1_pos by auto.
  apply clear_pos.
Qed.
Lemma ctz_unique w k : N.testbit w k = true -> (forall i, i < k -> N.testbit w i = false) -> ctz w = k.
Proof.
  intros Hk Hl. assert (Hw : w <> 0) by (intros ->; rewrite N.bits_0 in Hk; discriminate).
  destruct (N.lt_trichotomy (ctz w) k) as [H|[H|H]]; auto.
  - pose proof (ctz_bit w Hw) as E. rewrite (Hl _ H) in E. discriminate.
  - rewrite (ctz_low w k Hw H) in Hk. discriminate.
Qed.
Lemma clearLowest_lt w : w < 2 ^ 64 -> clearLowest w < 2 ^ 64.
Proof. intros H. unfold clearLowest. now apply land_lt_l. Qed.

Lemma wordList_filter base : forall n k fuel w,
  (n <= fuel)%nat -> k + N.of_nat n = 64 -> w < 2 ^ 64 -> (forall i, i < k -> N.testbit w i = false) ->
  wordList fuel w base = map (fun i => i + base) (filter (N.testbit w) (seqN k n)).
Proof.
  induction n as [|n IH]; intros k fuel w Hf Hk Hw Hl.
  - assert (w = 0). { apply N.bits_inj. intros i. rewrite N.bits_0.
      destruct (N.lt_ge_cases i 64); [apply Hl; lia|]. now apply (lt_bits 64). }
    subst. destruct fuel; reflexivity.
  - cbn [seqN filter]. destruct (N.testbit w k) eqn:Ek.
    + destruct fuel as [|fuel]; [lia|]. cbn [wordList].
      assert (Hz : w <> 0) by (intros ->; rewrite N.bits_0 in Ek; discriminate).
      destruct (N.eqb_spec w 0); [contradiction|]. unfold firstOneFromLSB.
      rewrite (ctz_unique w k Ek Hl). cbn [map]. f_equal.
      rewrite (IH (k + 1)).
      * f_equal. apply filter_ext_in. intros i Hi. apply in_seqN in Hi.
        rewrite clearLowest_bits by auto. rewrite (ctz_unique w k Ek Hl).
        replace (i =? k) with false by lia. now rewrite andb_true_r.
      * lia.
      * lia.
      * now apply clearLowest_lt.
      * intros i Hi. rewrite clearLowest_bits by auto. rewrite (ctz_unique w k Ek Hl).
        destruct (N.eqb_spec i k); [apply andb_false_r|]. rewrite Hl by lia. reflexivity.
    + apply IH; try lia. intros i Hi. destruct (N.eq_dec i k) as [->|]; auto. apply Hl. lia.
Qed.

Lemma filter_map_shift (f : N -> bool) base : forall l,
  filter f (map (fun i => i + base) l) = map (fun i => i + base) (filter (fun i => f (i + base)) l).
Proof. induction l as [|a l IH]; cbn; [reflexivity|]. destruct (f (a + base)); cbn; now rewrite IH. Qed.

Lemma seqN_app n : forall s m, seqN s (n + m) = seqN s n ++ seqN (s + N.of_nat n) m.
Proof.
  induction n as [|n IH]; intros s m; cbn [seqN Nat.add app].
  - now replace (s + N.of_nat 0) with s by lia.
  - rewrite IH. now replace (s + 1 + N.of_nat n) with (s + N.of_nat (S n)) by lia.
Qed.
Lemma map_add_seqN b n : forall s, map (fun i => i + b) (seqN s n) = seqN (s + b) n.
Proof. induction n as [|n IH]; intros s; cbn [seqN map]; [reflexivity|]. rewrite IH. now replace (s + 1 + b) with (s + b + 1) by lia. Qed.

Lemma filter_none {A} (f : A -> bool) l : (forall x, In x l -> f x = false) -> filter f l = [].
Proof. induction l as [|a l IH]; intros H; cbn; [reflexivity|]. rewrite H by now left. apply IH. intros; apply H; now right. Qed.

Lemma wordList_all w base : w < 2 ^ 64 ->
  wordList 64 w base = map (fun i => i + base) (filter (N.testbit w) (seqN 0 64)).
Proof.
  intros H. apply wordList_filter.
  - apply le_n.
  - reflexivity.
  - exact H.
  - intros i Hi. exfalso. now apply (N.nlt_0_r i).
Qed.
Lemma lt_63_64 w : w < 2 ^ 63 -> w < 2 ^ 64.
Proof. intros H. apply N.lt_trans with (2 ^ 63); [exact H|reflexivity]. Qed.
Lemma lt_18_64 w : w < 2 ^ 18 -> w < 2 ^ 64.
Proof. intros H. apply N.lt_trans with (2 ^ 18); [exact H|reflexivity]. Qed.

Theorem bbList_filter b : wfBB b -> bbList b = filter (isSet b) squares.
Proof.
  intros [H0 H1]. unfold bbList, squares.
  rewrite (wordList_all (p0 b) 0) by (now apply lt_63_64).
  rewrite (wordList_all (p1 b) 63) by (now apply lt_18_64).
  replace (seqN 0 81) with (seqN 0 63 ++ seqN 63 18) by reflexivity.
  rewrite filter_app. f_equal.
  - replace (seqN 0 64) with (seqN 0 63 ++ [63]) by reflexivity. rewrite filter_app.
    rewrite (filter_none _ [63]); [|intros x [<-|[]]; now apply (lt_bits 63)]. rewrite app_nil_r.
    rewrite (map_ext _ (fun i => i)) by (intros; lia). rewrite map_id. apply filter_ext_in.
    intros i Hi. apply in_seqN in Hi. rewrite isSet_tst. unfold tst. now replace (i <? 63) with true by lia.
  - replace (seqN 0 64) with (seqN 0 18 ++ seqN 18 46) by reflexivity. rewrite filter_app.
    rewrite (filter_none _ (seqN 18 46)); [|intros x Hx; apply in_seqN in Hx; apply (lt_bits 18); [auto|lia]].
    rewrite app_nil_r. replace (seqN 63 18) with (map (fun i => i + 63) (seqN 0 18)) by reflexivity.
    rewrite (filter_map_shift (isSet b) 63). f_equal. apply filter_ext_in. intros i Hi. apply in_seqN in Hi.
    rewrite isSet_tst. unfold tst. replace (i + 63 <? 63) with false by lia. now replace (i + 63 - 63) with i by lia.
Qed.

Lemma in_bbList b s : wfBB b -> (In s (bbList b) <-> s < 81 /\ isSet b s = true).
Proof. intros H. rewrite bbList_filter, filter_In, in_squares by auto. tauto. Qed.
Lemma NoDup_bbList b : wfBB b -> NoDup (bbList b).
Proof. intros H. rewrite bbList_filter by auto. apply NoDup_filter, NoDup_squares. Qed.

(* ---- first square ---- *)
Lemma firstSq_spec b : wfBB b -> isAny b = true -> firstSq b < 81 /\ isSet b (firstSq b) = true.
Proof.
  intros [H0 H1] Ha. unfold firstSq. destruct (N.eqb_spec (p0 b) 0) as [E|E]; cbn [negb].
  - assert (E1 : p1 b <> 0). { intros E1. unfold isAny, bbMerge in Ha. rewrite E, E1 in Ha. discriminate. }
    pose proof (ctz_bit _ E1) as B. unfold firstOneFromLSB.
    assert (ctz (p1 b) < 18). { destruct (N.lt_ge_cases (ctz (p1 b)) 18) as [|G]; auto. rewrite (lt_bits 18) in B; auto. discriminate. }
    split; [lia|]. rewrite isSet_tst. unfold tst. replace (_ <? 63) with false by lia.
    now replace (ctz (p1 b) + 63 - 63) with (ctz (p1 b)) by lia.
  - pose proof (ctz_bit _ E) as B. unfold firstOneFromLSB.
    assert (ctz (p0 b) < 63). { destruct (N.lt_ge_cases (ctz (p0 b)) 63) as [|G]; auto. rewrite (lt_bits 63) in B; auto. discriminate. }
    split; [lia|]. rewrite isSet_tst. unfold tst. now replace (_ <? 63) with true by lia.
Qed.
Lemma isSet_dropFirst b s : wfBB b -> isAny b = true -> s < 81 -> isSet (dropFirst b) s = isSet b s && negb (s =? firstSq b).
Proof.
  intros [H0 H1] Ha Hs. unfold firstSq, dropFirst. destruct (N.eqb_spec (p0 b) 0) as [E|E]; cbn [negb].
  - assert (E1 : p1 b <> 0). { intros E1. unfold isAny, bbMerge in Ha. rewrite E, E1 in Ha. discriminate. }
    rewrite !isSet_tst. unfold tst, firstOneFromLSB. cbn [p0 p1]. destruct (N.ltb_spec s 63).
    + rewrite E, N.bits_0. reflexivity.
    + rewrite clearLowest_bits; auto; [|apply N.lt_trans with (2^18); [auto|reflexivity]].
      f_equal. f_equal. lia.
  - rewrite !isSet_tst. unfold tst, firstOneFromLSB. cbn [p0 p1]. destruct (N.ltb_spec s 63).
    + rewrite clearLowest_bits; auto. apply N.lt_trans with (2^63); [auto|reflexivity].
    + assert (B := ctz_bit _ E). 
      assert (ctz (p0 b) < 63). { destruct (N.lt_ge_cases (ctz (p0 b)) 63) as [|G]; auto. rewrite (lt_bits 63) in B; auto. discriminate. }
      replace (s =? ctz (p0 b)) with false by lia. now rewrite andb_true_r.
Qed.

(* list to board *)
Definition list2bb (l : list N) : BB := fold_right (fun s b => setBit b s) allZeroBB l.
Lemma wf_list2bb l : (forall x, In x l -> x < 81) -> wfBB (list2bb l).
Proof.
  induction l as [|a l IH]; intros H; cbn [list2bb fold_right]; [apply wf_zero|].
  apply wf_setBit; [apply IH; intros; apply H; now right|apply H; now left].
Qed.
Lemma isSet_list2bb l s : (forall x, In x l -> x < 81) -> s < 81 -> isSet (list2bb l) s = existsb (N.eqb s) l.
Proof.
  intros H Hs. induction l as [|a l IH]; cbn [list2bb fold_right existsb].
  - apply isSet_zero.
  - rewrite isSet_setBit by (auto; apply H; now left). rewrite <- IH by (intros; apply H; now right).
    now rewrite N.eqb_sym.
Qed.

(* ---- popCount ---- *)
Lemma popcount_app_filter : forall n w, w < 2 ^ N.of_nat n ->
  popcount w = N.of_nat (length (filter (N.testbit w) (seqN 0 n))).
Proof.
  induction n as [|n IH]; intros w Hw.
  - assert (w = 0) by (cbn in Hw; lia). subst. reflexivity.
  - cbn [seqN filter].
    assert (E : filter (N.testbit w) (seqN (0 + 1) n) = map (fun i => i + 1) (filter (N.testbit (N.div2 w)) (seqN 0 n))).
    { replace (seqN (0 + 1) n) with (map (fun i => i + 1) (seqN 0 n)) by (rewrite map_add_seqN; reflexivity).
      rewrite filter_map_shift. f_equal. apply filter_ext. intros i. 
      rewrite N.div2_spec, N.shiftr_spec by lia. reflexivity. }
    rewrite E. specialize (IH (N.div2 w)).
    assert (N.div2 w < 2 ^ N.of_nat n).
    { rewrite N.div2_div. apply N.div_lt_upper_bound; [lia|]. rewrite <- N.pow_succ_r by lia.
      now replace (N.succ (N.of_nat n)) with (N.of_nat (S n)) by lia. }
    specialize (IH H). destruct w as [|[p|p|]]; cbn [popcount popcount_pos N.div2] in *.
    + replace (N.testbit 0 0) with false by reflexivity. rewrite map_length, <- IH. reflexivity.
    + replace (N.testbit (N.pos p~1) 0) with true by reflexivity. cbn [length]. rewrite map_length. lia.
    + replace (N.testbit (N.pos p~0) 0) with false by reflexivity. rewrite map_length. lia.
    + replace (N.testbit 1 0) with true by reflexivity. cbn [length]. rewrite map_length, Nat2N.inj_succ, <- IH. reflexivity.
Qed.

Lemma popCount_filter b : wfBB b -> popCount b = N.of_nat (length (filter (isSet b) squares)).
Proof.
  intros Hw. rewrite <- bbList_filter by auto. destruct Hw as [H0 H1]. unfold popCount, count1s, bbList.
  rewrite app_length, Nat2N.inj_add. f_equal.
  - rewrite (wordList_all (p0 b) 0) by (now apply lt_63_64).
    rewrite map_length. apply (popcount_app_filter 64). apply N.lt_trans with (2^63); [auto|reflexivity].
  - rewrite (wordList_all (p1 b) 63) by (now apply lt_18_64).
    rewrite map_length. apply (popcount_app_filter 64). apply N.lt_trans with (2^18); [auto|reflexivity].
Qed.
