(* The word-level attack functions compute the ray walks of Geo.v, for every occupancy. *)
From Verif Require Import Attack BitboardProofs Geo.

(* ---- byte swap as a bit permutation ---- *)
Definition bswapIdx (i : N) : N := 56 - 8 * (i / 8) + i mod 8.

Lemma testbit_255 i : N.testbit 255 i = (i <? 8).
Proof.
  change 255 with (N.ones 8). destruct (N.ltb_spec i 8).
  - now apply N.ones_spec_low.
  - now apply N.ones_spec_high.
Qed.

Lemma testbit_byteOf x k i : N.testbit (byteOf x k) i = N.testbit x (i + 8 * k) && (i <? 8).
Proof. unfold byteOf. rewrite N.land_spec, N.shiftr_spec by lia. now rewrite testbit_255. Qed.

Lemma testbit_shiftl_byte x k m i :
  N.testbit (N.shiftl (byteOf x k) m) i = (m <=? i) && (i <? m + 8) && N.testbit x (i - m + 8 * k).
Proof.
  destruct (N.leb_spec m i).
  - rewrite N.shiftl_spec_high by lia. rewrite testbit_byteOf. rewrite andb_comm. f_equal. lia.
  - rewrite N.shiftl_spec_low by lia. reflexivity.
Qed.

Lemma bswap64_spec x i : N.testbit (bswap64 x) i = (i <? 64) && N.testbit x (bswapIdx i).
Proof.
  unfold bswap64. rewrite !N.lor_spec, !testbit_shiftl_byte, testbit_byteOf.
  destruct (N.ltb_spec i 64) as [Hi|Hi]; cbn [andb].
  - assert (G : forall m, (m = 0 \/ m = 8 \/ m = 16 \/ m = 24 \/ m = 32 \/ m = 40 \/ m = 48 \/ m = 56) ->
                m <= i < m + 8 -> bswapIdx i = i - m + (56 - m)).
    { intros m Hm Hi'. unfold bswapIdx. lia. }
    destruct (N.lt_ge_cases i 8);
      [rewrite (G 0) by lia|destruct (N.lt_ge_cases i 16);
      [rewrite (G 8) by lia|destruct (N.lt_ge_cases i 24);
      [rewrite (G 16) by lia|destruct (N.lt_ge_cases i 32);
      [rewrite (G 24) by lia|destruct (N.lt_ge_cases i 40);
      [rewrite (G 32) by lia|destruct (N.lt_ge_cases i 48);
      [rewrite (G 40) by lia|destruct (N.lt_ge_cases i 56);
      [rewrite (G 48) by lia|rewrite (G 56) by lia]]]]]]];
    repeat match goal with |- context [(?a <=? i)] =>
      first [replace (a <=? i) with true by lia | replace (a <=? i) with false by lia] end;
    repeat match goal with |- context [(i <? ?a)] =>
      first [replace (i <? a) with true by lia | replace (i <? a) with false by lia] end;
    cbn [andb]; rewrite ?orb_false_l, ?orb_false_r, ?andb_false_r, ?andb_true_r, ?orb_false_l, ?orb_false_r; f_equal; lia.
  - repeat match goal with |- context [(i <? ?a)] => replace (i <? a) with false by lia end.
    now rewrite !andb_false_r.
Qed.

Lemma bswap64_land a b : bswap64 (N.land a b) = N.land (bswap64 a) (bswap64 b).
Proof.
  apply N.bits_inj. intros i. rewrite N.land_spec, !bswap64_spec, N.land_spec.
  now destruct (i <? 64), (N.testbit a _), (N.testbit b _).
Qed.
Lemma bswap64_lor a b : bswap64 (N.lor a b) = N.lor (bswap64 a) (bswap64 b).
Proof.
  apply N.bits_inj. intros i. rewrite N.lor_spec, !bswap64_spec, N.lor_spec.
  now destruct (i <? 64), (N.testbit a _), (N.testbit b _).
Qed.

Lemma byteReverse_and a b : byteReverse (bbAnd a b) = bbAnd (byteReverse a) (byteReverse b).
Proof. unfold byteReverse, bbAnd. cbn [p0 p1]. now rewrite !bswap64_land. Qed.
Lemma byteReverse_or a b : byteReverse (bbOr a b) = bbOr (byteReverse a) (byteReverse b).
Proof. unfold byteReverse, bbOr. cbn [p0 p1]. now rewrite !bswap64_lor. Qed.

(* ---- one lane of the subtraction trick ---- *)
Definition laneLo (mlo olo : N) : N :=
  let lo := N.land olo mlo in N.land (N.lxor (sub64 lo 1) lo) mlo.
Definition laneHi (mhi mlo ohi olo : N) : N :=
  let lo := N.land olo mlo in let hi := N.land ohi mhi in
  N.land (N.lxor (sub64 hi (if lo =? 0 then 1 else 0)) hi) mhi.
Definition fwdLane (m occ : BB) : BB :=
  mkBB (laneLo (p0 m) (p0 occ)) (laneHi (p1 m) (p0 m) (p1 occ) (p0 occ)).
Definition revLane (m occ : BB) : BB := byteReverse (fwdLane (byteReverse m) (byteReverse occ)).

Lemma fwdLane_masked m occ : fwdLane m occ = fwdLane m (bbAnd occ m).
Proof.
  unfold fwdLane, laneLo, laneHi, bbAnd. cbn [p0 p1].
  now rewrite <- !N.land_assoc, !N.land_diag.
Qed.
Lemma revLane_masked m occ : revLane m occ = revLane m (bbAnd occ m).
Proof. unfold revLane. rewrite fwdLane_masked. now rewrite byteReverse_and. Qed.

Lemma rookAttackRank_core_lanes l r occ :
  rookAttackRank_core (unpack (byteReverse r) l) occ = bbOr (revLane r occ) (fwdLane l occ).
Proof.
  unfold rookAttackRank_core, revLane, fwdLane, laneLo, laneHi, byteReverse, unpack, decrement, bbAnd, bbXor, bbOr.
  cbn [p0 p1 fst snd]. reflexivity.
Qed.
Lemma rookAttackRank_lanes sq occ :
  rookAttackRank sq occ = bbOr (revLane (rookRight sq) occ) (fwdLane (rookLeft sq) occ).
Proof. apply rookAttackRank_core_lanes. Qed.

Definition rayNW sq := bishopRay 9 true true sq allZeroBB.
Definition raySW sq := bishopRay 9 false true sq allZeroBB.
Definition rayNE sq := bishopRay 9 true false sq allZeroBB.
Definition raySE sq := bishopRay 9 false false sq allZeroBB.

Definition bishopMasks (b0 b1 b2 b3 : BB) : BB256 * BB256 :=
  (bb256_of2 (mkBB (p1 b0) (p1 (byteReverse b2))) (mkBB (p1 b1) (p1 (byteReverse b3))),
   bb256_of2 (mkBB (p0 b0) (p0 (byteReverse b2))) (mkBB (p0 b1) (p0 (byteReverse b3)))).
Lemma bishopAttack_core_lanes nw sw ne se occ :
  bishopAttack_core byteReverse256_avx2 (bishopMasks nw sw ne se) occ =
  bbOr (bbOr (revLane ne occ) (fwdLane nw occ)) (bbOr (revLane se occ) (fwdLane sw occ)).
Proof.
  destruct nw as [a0 a1], sw as [b0 b1], ne as [c0 c1], se as [d0 d1], occ as [o0 o1].
  cbv beta iota zeta delta [bishopAttack_core bishopMasks revLane fwdLane laneLo laneHi byteReverse unpack256 decrement256
    and256 xor256 or256 merge256 byteReverse256_avx2 bb256_of2 bb256_dup bbOr p0 p1 q0 q1 q2 q3 fst snd].
  reflexivity.
Qed.
Lemma bishopAttack_core_portable_lanes nw sw ne se occ :
  bishopAttack_core byteReverse256_portable (bishopMasks nw sw ne se) occ =
  bbOr (bbOr (revLane se occ) (fwdLane nw occ)) (bbOr (revLane ne occ) (fwdLane sw occ)).
Proof.
  destruct nw as [a0 a1], sw as [b0 b1], ne as [c0 c1], se as [d0 d1], occ as [o0 o1].
  cbv beta iota zeta delta [bishopAttack_core bishopMasks revLane fwdLane laneLo laneHi byteReverse unpack256 decrement256
    and256 xor256 or256 merge256 byteReverse256_portable bb256_of2 bb256_dup bbOr p0 p1 q0 q1 q2 q3 fst snd].
  reflexivity.
Qed.
Lemma bishopAttack_lanes sq occ : bishopAttack sq occ =
  bbOr (bbOr (revLane (rayNE sq) occ) (fwdLane (rayNW sq) occ))
       (bbOr (revLane (raySE sq) occ) (fwdLane (raySW sq) occ)).
Proof. apply (bishopAttack_core_lanes (rayNW sq) (raySW sq) (rayNE sq) (raySE sq)). Qed.
Lemma bishopAttack_portable_lanes sq occ : bishopAttack_portable sq occ =
  bbOr (bbOr (revLane (raySE sq) occ) (fwdLane (rayNW sq) occ))
       (bbOr (revLane (rayNE sq) occ) (fwdLane (raySW sq) occ)).
Proof. apply (bishopAttack_core_portable_lanes (rayNW sq) (raySW sq) (rayNE sq) (raySE sq)). Qed.

Lemma lor_swap4 a b c d : N.lor (N.lor a b) (N.lor c d) = N.lor (N.lor c b) (N.lor a d).
Proof.
  apply N.bits_inj. intros i. rewrite !N.lor_spec.
  now destruct (N.testbit a i), (N.testbit b i), (N.testbit c i), (N.testbit d i).
Qed.
Lemma bishopAttack_builds_agree sq occ : bishopAttack_portable sq occ = bishopAttack sq occ.
Proof.
  etransitivity; [apply bishopAttack_portable_lanes|].
  etransitivity; [|symmetry; apply bishopAttack_lanes].
  generalize (revLane (rayNE sq) occ) (revLane (raySE sq) occ) (fwdLane (rayNW sq) occ) (fwdLane (raySW sq) occ).
  intros a b c d. unfold bbOr. cbn [p0 p1]. f_equal; apply lor_swap4.
Qed.

(* ---- all subsets of a list of squares ---- *)
Fixpoint subsets (l : list N) : list BB :=
  match l with
  | [] => [allZeroBB]
  | s :: r => let q := subsets r in q ++ map (fun b => setBit b s) q
  end.

Lemma subsets_complete : forall l occ, (forall x, In x l -> x < 81) -> 
  In (list2bb (filter (isSet occ) l)) (subsets l).
Proof.
  induction l as [|s r IH]; intros occ Hl; cbn [subsets filter].
  - now left.
  - specialize (IH occ (fun x Hx => Hl x (or_intror Hx))). apply in_or_app.
    destruct (isSet occ s); [|now left]. right. cbn [list2bb fold_right].
    apply in_map_iff. eexists. split; [|exact IH]. reflexivity.
Qed.

Lemma bbAnd_list2bb occ l : (forall x, In x l -> x < 81) -> bbAnd occ (list2bb l) = list2bb (filter (isSet occ) l).
Proof.
  intros Hl. assert (Hl' : forall x, In x (filter (isSet occ) l) -> x < 81) by (intros x Hx; apply filter_In in Hx; now apply Hl).
  apply BB_ext.
  - now apply wf_and_r, wf_list2bb.
  - now apply wf_list2bb.
  - intros s Hs. rewrite isSet_and, !isSet_list2bb by auto.
    destruct (existsb (N.eqb s) l) eqn:E.
    + rewrite andb_true_r. apply existsb_exists in E as (x & Hx & Ex). apply N.eqb_eq in Ex. subst x.
      destruct (isSet occ s) eqn:Eo; symmetry.
      * apply existsb_In with s; [apply filter_In; auto|apply N.eqb_refl].
      * destruct (existsb (N.eqb s) (filter (isSet occ) l)) eqn:E2; auto.
        apply existsb_exists in E2 as (y & Hy & Ey). apply N.eqb_eq in Ey. subst y. apply filter_In in Hy as [_ Hy]. congruence.
    + rewrite andb_false_r. symmetry. destruct (existsb (N.eqb s) (filter (isSet occ) l)) eqn:E2; auto.
      apply existsb_exists in E2 as (y & Hy & Ey). apply filter_In in Hy as [Hy _].
      rewrite (existsb_In _ _ _ Hy Ey) in E. discriminate.
Qed.

(* walking depends only on the occupancy of the ray *)
Lemma walk_ext f g : forall l, (forall x, In x l -> f x = g x) -> walk f l = walk g l.
Proof.
  induction l as [|a l IH]; intros H; cbn [walk]; [reflexivity|].
  rewrite <- (H a) by now left. rewrite IH by (intros; apply H; now right). reflexivity.
Qed.
Lemma walk_ext_butlast f g : forall l, (forall x, In x (removelast l) -> f x = g x) -> walk f l = walk g l.
Proof.
  induction l as [|a [|b l] IH]; intros H; cbn [walk]; [reflexivity|now destruct (f a), (g a)|].
  rewrite <- (H a) by (cbn [removelast]; now left).
  destruct (f a); [reflexivity|]. f_equal. apply IH. intros x Hx. apply H. cbn [removelast] in *. now right.
Qed.

Definition walkBB (occ : BB) (d : dir) (s : N) : BB := list2bb (walk (isSet occ) (ray d s)).

Lemma walkBB_masked occ d s : walkBB occ d s = walkBB (bbAnd occ (list2bb (ray d s))) d s.
Proof.
  unfold walkBB. f_equal. apply walk_ext. intros x Hx.
  rewrite isSet_and, isSet_list2bb by (try apply ray_lt; apply (ray_lt d s x Hx)).
  rewrite (existsb_In _ _ x Hx (N.eqb_refl x)). now rewrite andb_true_r.
Qed.

(* ---- the two 64-bit words as one string of 128 bits ---- *)
Definition b128 (b : BB) (i : N) : bool := if i <? 64 then N.testbit (p0 b) i else N.testbit (p1 b) (i - 64).
Definition w128 (b : BB) : Prop := p0 b < 2 ^ 64 /\ p1 b < 2 ^ 64.
Definition pos (t : N) : N := if t <? 63 then t else t + 1.
Lemma isSet_b128 b t : t < 81 -> isSet b t = b128 b (pos t).
Proof.
  intros H. rewrite isSet_tst. unfold tst, b128, pos. destruct (N.ltb_spec t 63).
  - now replace (t <? 64) with true by lia.
  - replace (t + 1 <? 64) with false by lia. f_equal. lia.
Qed.
Lemma ext128 a b : w128 a -> w128 b -> (forall i, i < 128 -> b128 a i = b128 b i) -> a = b.
Proof.
  intros [A0 A1] [B0 B1] H. destruct a as [a0 a1], b as [b0 b1]. cbn [p0 p1] in *. f_equal; apply N.bits_inj; intros i.
  - destruct (N.ltb_spec i 64).
    + specialize (H i ltac:(lia)). unfold b128 in H. cbn [p0 p1] in H. now replace (i <? 64) with true in H by lia.
    + now rewrite (lt_bits 64 a0), (lt_bits 64 b0) by auto.
  - destruct (N.ltb_spec i 64).
    + specialize (H (i + 64) ltac:(lia)). unfold b128 in H. cbn [p0 p1] in H. replace (i + 64 <? 64) with false in H by lia.
      now replace (i + 64 - 64) with i in H by lia.
    + now rewrite (lt_bits 64 a1), (lt_bits 64 b1) by auto.
Qed.
Lemma wf_w128 b : wfBB b -> w128 b.
Proof. intros [H0 H1]. split; [now apply lt_63_64|now apply lt_18_64]. Qed.
Lemma b128_list2bb l i : (forall x, In x l -> x < 81) -> i < 128 -> (b128 (list2bb l) i = true <-> exists u, In u l /\ i = pos u).
Proof.
  intros Hl Hi. pose proof (wf_list2bb l Hl) as [W0 W1]. split.
  - intros H. unfold b128 in H.
    assert (G : forall u, u < 81 -> i = pos u -> exists u, In u l /\ i = pos u).
    { intros u Hu E. exists u. split; [|exact E]. assert (S : isSet (list2bb l) u = true) by (rewrite isSet_b128 by auto; now rewrite <- E).
      rewrite isSet_list2bb in S by auto. apply existsb_exists in S as (y & Hy & Ey). apply N.eqb_eq in Ey. now subst. }
    destruct (N.ltb_spec i 64).
    + assert (i < 63). { destruct (N.lt_ge_cases i 63); auto. rewrite (lt_bits 63) in H by auto. discriminate. }
      apply (G i); [lia|]. unfold pos. now replace (i <? 63) with true by lia.
    + assert (i - 64 < 18). { destruct (N.lt_ge_cases (i - 64) 18); auto. rewrite (lt_bits 18) in H by auto. discriminate. }
      apply (G (i - 1)); [lia|]. unfold pos. replace (i - 1 <? 63) with false by lia. lia.
  - intros (u & Hu & ->). rewrite <- isSet_b128 by auto. rewrite isSet_list2bb by auto. apply existsb_In with u; auto. apply N.eqb_refl.
Qed.

(* x ^ (x - 1) keeps the bits up to the lowest set one *)
Lemma lxor_pred_pos p : forall i, N.testbit (N.lxor (N.pred (N.pos p)) (N.pos p)) i = (i <=? ctz_pos p).
Proof.
  induction p as [p IH|p IH|]; intros i; cbn [ctz_pos].
  - replace (N.pos p~1) with (2 * N.pos p + 1) by reflexivity.
    replace (N.pred (2 * N.pos p + 1)) with (2 * N.pos p) by lia.
    rewrite N.lxor_spec. destruct (N.eq_dec i 0) as [->|Hn].
    + now rewrite N.testbit_even_0, N.testbit_odd_0.
    + replace i with (N.succ (i - 1)) by lia. rewrite N.testbit_even_succ, N.testbit_odd_succ by lia.
      rewrite xorb_nilpotent. lia.
  - replace (N.pos p~0) with (2 * N.pos p) by reflexivity.
    replace (N.pred (2 * N.pos p)) with (2 * N.pred (N.pos p) + 1) by lia.
    rewrite N.lxor_spec. destruct (N.eq_dec i 0) as [->|Hn].
    + rewrite N.testbit_even_0, N.testbit_odd_0. cbn. lia.
    + replace i with (N.succ (i - 1)) by lia. rewrite N.testbit_even_succ, N.testbit_odd_succ by lia.
      rewrite <- N.lxor_spec, IH. lia.
  - replace (N.lxor (N.pred 1) 1) with (2 * 0 + 1) by reflexivity. destruct (N.eq_dec i 0) as [->|Hn]; [reflexivity|].
    replace i with (N.succ (i - 1)) by lia. rewrite N.testbit_odd_succ by lia. rewrite N.bits_0. lia.
Qed.
Lemma lowmask x i : x < 2 ^ 64 -> i < 64 ->
  (N.testbit (N.lxor (sub64 x 1) x) i = true <-> forall j, j < i -> N.testbit x j = false).
Proof.
  intros Hx Hi. destruct x as [|p].
  - change (sub64 0 1) with M64. rewrite N.lxor_0_r, testbit_M64. split; [intros _ j _; apply N.bits_0|lia].
  - rewrite sub64_1_pos by auto. rewrite lxor_pred_pos. split.
    + intros H j Hj. apply ctz_pos_low. lia.
    + intros H. destruct (N.leb_spec i (ctz_pos p)) as [|L]; auto. specialize (H _ L). rewrite ctz_pos_bit in H. discriminate.
Qed.
Lemma sub64_0 x : x < 2 ^ 64 -> sub64 x 0 = x.
Proof.
  intros H. unfold sub64, w64. change (0 mod 0x10000000000000000) with 0. rewrite N.sub_0_r.
  change (2 ^ 64) with 0x10000000000000000 in H. replace (x + 0x10000000000000000) with (x + 1 * 0x10000000000000000) by lia.
  rewrite N.mod_add by lia. now apply N.mod_small.
Qed.
Lemma bits_zero x : (forall j, j < 64 -> N.testbit x j = false) -> x < 2 ^ 64 -> x = 0.
Proof. intros H Hx. apply N.bits_inj. intros j. rewrite N.bits_0. destruct (N.lt_ge_cases j 64); auto. now apply (lt_bits 64). Qed.
Lemma fwdLane_b128 m occ i : w128 m -> i < 128 ->
  (b128 (fwdLane m occ) i = true <-> b128 m i = true /\ forall j, j < i -> b128 m j = true -> b128 occ j = false).
Proof.
  intros [M0 M1] Hi.
  assert (L0 : N.land (p0 occ) (p0 m) < 2 ^ 64) by now apply land_lt_r.
  assert (L1 : N.land (p1 occ) (p1 m) < 2 ^ 64) by now apply land_lt_r.
  unfold b128 at 1 2. unfold fwdLane, laneLo, laneHi. cbn [p0 p1]. destruct (N.ltb_spec i 64).
  - rewrite N.land_spec, andb_true_iff, lowmask by auto. rewrite and_comm. split; intros [B A]; (split; [exact B|]); [|rename A into B'; clear B; rename B' into B].
    + intros j Hj Hm. unfold b128 in *. replace (j <? 64) with true in * by lia. specialize (A j Hj). rewrite N.land_spec, Hm, andb_true_r in A. exact A.
    + intros j Hj. specialize (B j Hj). unfold b128 in B. replace (j <? 64) with true in B by lia. rewrite N.land_spec.
      destruct (N.testbit (p0 m) j); [rewrite B by auto; reflexivity|apply andb_false_r].
  - rewrite N.land_spec, andb_true_iff. destruct (N.eqb_spec (N.land (p0 occ) (p0 m)) 0) as [E|E].
    + rewrite lowmask by (auto; lia). rewrite and_comm. split; intros [B A]; (split; [exact B|]); [|rename A into B'; clear B; rename B' into B].
      * intros j Hj Hm. unfold b128 in *. destruct (N.ltb_spec j 64).
        -- assert (G : N.testbit (N.land (p0 occ) (p0 m)) j = false) by (rewrite E; apply N.bits_0). rewrite N.land_spec, Hm, andb_true_r in G. exact G.
        -- specialize (A (j - 64) ltac:(lia)). rewrite N.land_spec, Hm, andb_true_r in A. exact A.
      * intros j Hj. specialize (B (j + 64) ltac:(lia)). unfold b128 in B. replace (j + 64 <? 64) with false in B by lia.
        replace (j + 64 - 64) with j in B by lia. rewrite N.land_spec.
        destruct (N.testbit (p1 m) j); [rewrite B by auto; reflexivity|apply andb_false_r].
    + rewrite sub64_0 by auto. rewrite N.lxor_nilpotent, N.bits_0. split; [intros [? _]; discriminate|].
      intros [A B]. exfalso. apply E. apply bits_zero; [|auto]. intros j Hj. specialize (B j ltac:(lia)). unfold b128 in B.
      replace (j <? 64) with true in B by lia. rewrite N.land_spec. destruct (N.testbit (p0 m) j); [rewrite B by auto; reflexivity|apply andb_false_r].
Qed.
Lemma bswap64_lt x : bswap64 x < 2 ^ 64.
Proof. apply bits_lt. intros i Hi. rewrite bswap64_spec. now replace (i <? 64) with false by lia. Qed.
Lemma w128_byteReverse b : w128 (byteReverse b).
Proof. split; apply bswap64_lt. Qed.
Definition rv (i : N) : N := if i <? 64 then 64 + bswapIdx i else bswapIdx (i - 64).
Lemma bswapIdx_lt i : i < 64 -> bswapIdx i < 64.
Proof. unfold bswapIdx. lia. Qed.
Lemma bswapIdx_inv i : i < 64 -> bswapIdx (bswapIdx i) = i.
Proof. unfold bswapIdx. lia. Qed.
Lemma rv_lt i : i < 128 -> rv i < 128.
Proof. intros H. unfold rv. destruct (N.ltb_spec i 64); [pose proof (bswapIdx_lt i)|pose proof (bswapIdx_lt (i - 64))]; lia. Qed.
Lemma rv_inv i : i < 128 -> rv (rv i) = i.
Proof.
  intros H. unfold rv. destruct (N.ltb_spec i 64) as [L|L].
  - replace (64 + bswapIdx i <? 64) with false by lia. replace (64 + bswapIdx i - 64) with (bswapIdx i) by lia. now apply bswapIdx_inv.
  - pose proof (bswapIdx_lt (i - 64) ltac:(lia)). replace (bswapIdx (i - 64) <? 64) with true by lia. rewrite bswapIdx_inv by lia. lia.
Qed.
Lemma b128_byteReverse b i : i < 128 -> b128 (byteReverse b) i = b128 b (rv i).
Proof.
  intros H. unfold b128, byteReverse, rv. cbn [p0 p1]. rewrite !bswap64_spec. destruct (N.ltb_spec i 64) as [L|L].
  - replace (64 + bswapIdx i <? 64) with false by lia. cbn [andb]. f_equal. lia.
  - pose proof (bswapIdx_lt (i - 64) ltac:(lia)). replace (bswapIdx (i - 64) <? 64) with true by lia. now replace (i - 64 <? 64) with true by lia.
Qed.
Lemma revLane_b128 m occ i : i < 128 ->
  (b128 (revLane m occ) i = true <-> b128 m i = true /\ forall j, j < 128 -> rv j < rv i -> b128 m j = true -> b128 occ j = false).
Proof.
  intros Hi. unfold revLane. rewrite b128_byteReverse by auto. rewrite fwdLane_b128 by (apply w128_byteReverse || now apply rv_lt).
  rewrite b128_byteReverse, rv_inv by (auto; now apply rv_lt).
  split; intros [A B]; (split; [auto|]).
  - intros j Hj Hlt Hm. specialize (B (rv j) Hlt). rewrite !b128_byteReverse, rv_inv in B by (auto; now apply rv_lt). auto.
  - pose proof (rv_lt i Hi). intros j Hj. rewrite !b128_byteReverse by lia. apply B; [apply rv_lt; lia|rewrite rv_inv by lia; auto].
Qed.

(* a slide along a list sorted by bit order *)
Fixpoint sortedBy (key : N -> N) (l : list N) : bool :=
  match l with [] => true | a :: r => forallb (fun b => key a <? key b) r && sortedBy key r end.
Lemma walk_sorted key occ : forall l t, sortedBy key l = true ->
  (In t (walk occ l) <-> In t l /\ forall u, In u l -> key u < key t -> occ u = false).
Proof.
  induction l as [|a r IH]; intros t Hs; cbn [walk]; [cbn; tauto|].
  cbn [sortedBy] in Hs. apply andb_prop in Hs as [Ha Hs]. rewrite forallb_forall in Ha.
  destruct (occ a) eqn:Eo.
  - split.
    + intros [<-|[]]. split; [now left|]. intros u [<-|Hu] Hk; [lia|]. specialize (Ha u Hu). lia.
    + intros [[<-|Ht] H]; [now left|]. exfalso. rewrite (H a) in Eo; [discriminate|now left|]. specialize (Ha t Ht). lia.
  - split.
    + intros [<-|H].
      * split; [now left|]. intros u [<-|Hu] Hk; [lia|]. specialize (Ha u Hu). lia.
      * apply IH in H as [H1 H2]; [|auto]. split; [now right|]. intros u [<-|Hu] Hk; auto.
    + intros [[<-|Ht] H]; [now left|]. right. apply IH; auto. split; auto. intros u Hu. apply H. now right.
Qed.
Lemma pos_inj u t : pos u = pos t -> u = t.
Proof. unfold pos. destruct (N.ltb_spec u 63), (N.ltb_spec t 63); lia. Qed.
Lemma pos_lt t : t < 81 -> pos t < 128.
Proof. unfold pos. destruct (N.ltb_spec t 63); lia. Qed.
Lemma lane_sound (lane : BB -> BB -> BB) (kb : N -> N) d :
  (forall m occ, w128 m -> w128 (lane m occ)) ->
  (forall m occ i, w128 m -> i < 128 ->
    (b128 (lane m occ) i = true <-> b128 m i = true /\ forall j, j < 128 -> kb j < kb i -> b128 m j = true -> b128 occ j = false)) ->
  forall mask, forallb (fun s => bbEq (mask s) (list2bb (ray d s)) && sortedBy (fun t => kb (pos t)) (ray d s)) squares = true ->
  forall s occ, s < 81 -> lane (mask s) occ = walkBB occ d s.
Proof.
  intros Hw Hl mask Hc s occ Hs. pose proof (forallb_squares _ Hc s Hs) as H. cbv beta in H.
  apply andb_prop in H as [E So]. apply bbEq_true in E. rewrite E. unfold walkBB.
  assert (L : forall x, In x (ray d s) -> x < 81) by apply ray_lt.
  assert (W : w128 (list2bb (ray d s))) by (apply wf_w128, wf_list2bb, L).
  assert (L' : forall x, In x (walk (isSet occ) (ray d s)) -> x < 81).
  { intros x Hx. apply L. clear - Hx. revert x Hx. generalize (ray d s). induction l as [|a l IH]; cbn [walk]; intros x H; [destruct H|].
    destruct H as [->|H]; [now left|]. destruct (isSet occ a); [destruct H|]. right. auto. }
  apply ext128; [auto|apply wf_w128, wf_list2bb, L'|].
  intros i Hi. apply eq_true_iff_eq. rewrite Hl, !b128_list2bb by auto. split.
  - intros [(u & Hu & ->) B]. exists u. split; [|reflexivity]. apply (walk_sorted _ _ _ _ So). split; [auto|].
    intros v Hv Hk. rewrite isSet_b128 by auto. apply B; [now apply pos_lt, L|exact Hk|]. apply b128_list2bb; eauto. now apply pos_lt, L.
  - intros (u & Hu & ->). apply (walk_sorted _ _ _ _ So) in Hu as [Hu B]. split; [eauto|].
    intros j Hj Hk Hm. apply b128_list2bb in Hm as (v & Hv & ->); auto. rewrite <- isSet_b128 by auto. auto.
Qed.
Lemma fwd_sound d mask : forallb (fun s => bbEq (mask s) (list2bb (ray d s)) && sortedBy pos (ray d s)) squares = true ->
  forall s occ, s < 81 -> fwdLane (mask s) occ = walkBB occ d s.
Proof.
  intros Hc. apply (lane_sound fwdLane (fun i => i)); [| |exact Hc].
  - intros m occ [M0 M1]. split; cbn [fwdLane p0 p1]; unfold laneLo, laneHi; cbv zeta; now apply land_lt_r.
  - intros m occ i W Hi. rewrite fwdLane_b128 by auto. split; intros [A B]; (split; [auto|]); intros j; [auto|]. intros Hj. apply B; lia.
Qed.
Lemma rev_sound d mask : forallb (fun s => bbEq (mask s) (list2bb (ray d s)) && sortedBy (fun t => rv (pos t)) (ray d s)) squares = true ->
  forall s occ, s < 81 -> revLane (mask s) occ = walkBB occ d s.
Proof.
  intros Hc. apply (lane_sound revLane rv); [| |exact Hc].
  - intros m occ _. apply w128_byteReverse.
  - intros m occ i _ Hi. now apply revLane_b128.
Qed.

Lemma lane_W s occ : s < 81 -> fwdLane (rookLeft s) occ = walkBB occ dW s.
Proof. apply (fwd_sound dW rookLeft). vmtrue. Qed.
Lemma lane_E s occ : s < 81 -> revLane (rookRight s) occ = walkBB occ dE s.
Proof. apply (rev_sound dE rookRight). vmtrue. Qed.
Lemma lane_NW s occ : s < 81 -> fwdLane (rayNW s) occ = walkBB occ dNW s.
Proof. apply (fwd_sound dNW rayNW). vmtrue. Qed.
Lemma lane_SW s occ : s < 81 -> fwdLane (raySW s) occ = walkBB occ dSW s.
Proof. apply (fwd_sound dSW raySW). vmtrue. Qed.
Lemma lane_NE s occ : s < 81 -> revLane (rayNE s) occ = walkBB occ dNE s.
Proof. apply (rev_sound dNE rayNE). vmtrue. Qed.
Lemma lane_SE s occ : s < 81 -> revLane (raySE s) occ = walkBB occ dSE s.
Proof. apply (rev_sound dSE raySE). vmtrue. Qed.

(* ---- lance tables ---- *)
Definition idxOcc (idx : N) (x : N) : bool := N.testbit idx (x mod 9 - 1) && negb (x mod 9 =? 0).
Definition vdir (c : N) : dir := if c =? 0 then dN else dS.

(* the two loops of the table filler are slides *)
Fixpoint upList (n : nat) (file rank : N) : list N :=
  match n with O => [] | S k => makeSquare file (rank - 1) :: upList k file (rank - 1) end.
Fixpoint downList (n : nat) (file rank : N) : list N :=
  match n with O => [] | S k => makeSquare file (rank + 1) :: downList k file (rank + 1) end.
Lemma list2bb_cons a l : list2bb (a :: l) = bbOr (setMaskBB a) (list2bb l).
Proof. cbn [list2bb fold_right]. unfold setBit, bbOr. cbn [p0 p1]. f_equal; apply N.lor_comm. Qed.
Lemma bbOr_assoc a b c : bbOr (bbOr a b) c = bbOr a (bbOr b c).
Proof. unfold bbOr. cbn [p0 p1]. f_equal; symmetry; apply N.lor_assoc. Qed.
Lemma bbOr_zero a : bbOr a allZeroBB = a.
Proof. destruct a as [u v]. unfold bbOr, allZeroBB. cbn [p0 p1]. now rewrite !N.lor_0_r. Qed.
Lemma lanceUp_walk occ : forall n f r bb, lanceUp n f r occ bb = bbOr bb (list2bb (walk (isSet occ) (upList n f r))).
Proof.
  induction n as [|n IH]; intros f r bb; cbn [lanceUp upList walk]; [symmetry; apply bbOr_zero|].
  rewrite list2bb_cons. destruct (isSet occ _); [cbn [list2bb fold_right]; now rewrite bbOr_zero|].
  now rewrite IH, bbOr_assoc.
Qed.
Lemma lanceDown_walk occ : forall n f r bb, lanceDown n f r occ bb = bbOr bb (list2bb (walk (isSet occ) (downList n f r))).
Proof.
  induction n as [|n IH]; intros f r bb; cbn [lanceDown downList walk]; [symmetry; apply bbOr_zero|].
  rewrite list2bb_cons. destruct (isSet occ _); [cbn [list2bb fold_right]; now rewrite bbOr_zero|].
  now rewrite IH, bbOr_assoc.
Qed.
Definition listEq (a b : list N) : bool := if list_eq_dec N.eq_dec a b then true else false.
Lemma listEq_true a b : listEq a b = true -> a = b.
Proof. unfold listEq. destruct (list_eq_dec _ a b); [auto|discriminate]. Qed.
Lemma lanceLines_check : forallb (fun s =>
  listEq (upList (N.to_nat (makeRank s)) (makeFile s) (makeRank s)) (ray dN s)
  && listEq (downList (N.to_nat (8 - makeRank s)) (makeFile s) (makeRank s)) (ray dS s)
  && forallb (fun x => isSet (inFrontMask 0 (makeRank s)) x && negb (isSet (inFrontMask 1 (makeRank s)) x)) (ray dN s)
  && forallb (fun x => isSet (inFrontMask 1 (makeRank s)) x && negb (isSet (inFrontMask 0 (makeRank s)) x)) (ray dS s)) squares = true.
Proof. vmtrue. Qed.
Lemma walk_incl occ : forall l t, In t (walk occ l) -> In t l.
Proof.
  induction l as [|a l IH]; cbn [walk]; intros t H; [destruct H|].
  destruct H as [->|H]; [now left|]. destruct (occ a); [destruct H|]. right. auto.
Qed.
Lemma bbAnd_keep l m : (forall x, In x l -> x < 81) -> (forall x, In x l -> isSet m x = true) -> bbAnd (list2bb l) m = list2bb l.
Proof.
  intros Hl Hm. apply BB_ext; [apply wf_and_l|..]; try now apply wf_list2bb.
  intros s Hs. rewrite isSet_and, isSet_list2bb by auto. destruct (existsb (N.eqb s) l) eqn:E; [|reflexivity].
  apply existsb_exists in E as (x & Hx & Ex). apply N.eqb_eq in Ex. subst x. now rewrite Hm.
Qed.
Lemma bbAnd_kill l m : (forall x, In x l -> x < 81) -> (forall x, In x l -> isSet m x = false) -> bbAnd (list2bb l) m = allZeroBB.
Proof.
  intros Hl Hm. apply BB_ext; [apply wf_and_l; now apply wf_list2bb|apply wf_zero|].
  intros s Hs. rewrite isSet_and, isSet_list2bb, isSet_zero by auto. destruct (existsb (N.eqb s) l) eqn:E; [|reflexivity].
  apply existsb_exists in E as (x & Hx & Ex). apply N.eqb_eq in Ex. subst x. now rewrite Hm.
Qed.
Lemma bbAnd_or_distr a b c : bbAnd (bbOr a b) c = bbOr (bbAnd a c) (bbAnd b c).
Proof. unfold bbAnd, bbOr. cbn [p0 p1]. f_equal; apply N.land_lor_distr_l. Qed.
Lemma bbOr_zero_l a : bbOr allZeroBB a = a.
Proof. destruct a. reflexivity. Qed.
Lemma lanceAttackCalc_walk c s occ : c < 2 -> s < 81 -> lanceAttackCalc c s occ = walkBB occ (vdir c) s.
Proof.
  intros Hc Hs. pose proof (forallb_squares _ lanceLines_check s Hs) as H. cbv beta in H.
  apply andb_prop in H as [H H4]. apply andb_prop in H as [H H3]. apply andb_prop in H as [H1 H2].
  apply listEq_true in H1, H2. rewrite forallb_forall in H3, H4.
  unfold lanceAttackCalc. cbv zeta. rewrite lanceDown_walk, lanceUp_walk, H1, H2, bbOr_zero_l, bbAnd_or_distr.
  assert (L : forall d x, In x (walk (isSet occ) (ray d s)) -> x < 81) by (intros d x Hx; apply walk_incl in Hx; now apply ray_lt in Hx).
  assert (c = 0 \/ c = 1) as [->| ->] by lia; unfold vdir; cbn [N.eqb].
  - rewrite (bbAnd_keep (walk _ (ray dN s))), (bbAnd_kill (walk _ (ray dS s))); [apply bbOr_zero|..]; try apply L;
      intros x Hx; apply walk_incl in Hx; [specialize (H4 x Hx)|specialize (H3 x Hx)];
      [destruct (isSet (inFrontMask 0 _) x); [rewrite andb_false_r in H4; discriminate|reflexivity]|now apply andb_prop in H3].
  - change (1 =? 0) with false. cbv iota.
    rewrite (bbAnd_kill (walk _ (ray dN s))), (bbAnd_keep (walk _ (ray dS s))); [apply bbOr_zero_l|..]; try apply L;
      intros x Hx; apply walk_incl in Hx; [specialize (H4 x Hx); now apply andb_prop in H4|specialize (H3 x Hx)].
      destruct (isSet (inFrontMask 1 _) x); [rewrite andb_false_r in H3; discriminate|reflexivity].
Qed.

(* the occupancy rebuilt from a table index *)
Fixpoint firstSqs (n : nat) (mask : BB) : list N :=
  match n with O => [] | S k => firstSq mask :: firstSqs k (dropFirst mask) end.
Lemma indexToOccupied_loop_set idx : forall n i mask acc x, (forall y, In y (firstSqs n mask) -> y < 81) -> x < 81 ->
  isSet (indexToOccupied_loop n i idx mask acc) x
  = isSet acc x || existsb (fun yi => (fst yi =? x) && N.testbit idx (snd yi)) (combine (firstSqs n mask) (seqN i n)).
Proof.
  induction n as [|n IH]; intros i mask acc x Hl Hx; cbn [indexToOccupied_loop firstSqs seqN combine existsb]; [now rewrite orb_false_r|].
  rewrite IH by (auto; intros; apply Hl; cbn [firstSqs]; now right). rewrite land_pow2_testbit. cbn [fst snd].
  destruct (N.testbit idx i); [rewrite isSet_setBit by (auto; apply Hl; now left); rewrite andb_true_r|rewrite andb_false_r];
    destruct (isSet acc x), (firstSq mask =? x); reflexivity.
Qed.
Lemma firstSqs_check : forallb (fun s => listEq (firstSqs 7 (lanceBlockMask s)) (seqN (s / 9 * 9 + 1) 7)) squares = true.
Proof. vmtrue. Qed.
Lemma existsb_combine_seq idx x : forall n a i,
  existsb (fun yi : N * N => (fst yi =? x) && N.testbit idx (snd yi)) (combine (seqN a n) (seqN i n))
  = (a <=? x) && (x <? a + N.of_nat n) && N.testbit idx (x - a + i).
Proof.
  induction n as [|n IH]; intros a i; cbn [seqN combine existsb].
  - replace (a + N.of_nat 0) with a by lia. destruct (N.leb_spec a x), (N.ltb_spec x a); cbn; try reflexivity; lia.
  - rewrite IH. cbn [fst snd]. destruct (N.eqb_spec a x).
    + subst. replace (x - x + i) with i by lia. replace (x <=? x) with true by lia.
      replace (x <? x + N.of_nat (S n)) with true by lia. replace (x + 1 <=? x) with false by lia. cbn. apply orb_false_r.
    + cbn [andb orb]. replace (a + 1 <=? x) with (a <=? x) by lia. replace (a + 1 + N.of_nat n) with (a + N.of_nat (S n)) by lia.
      destruct (N.leb_spec a x); [|reflexivity]. replace (x - (a + 1) + (i + 1)) with (x - a + i) by lia. reflexivity.
Qed.
Lemma indexToOccupied_set s idx x : s < 81 -> x < 81 -> x / 9 = s / 9 -> 1 <= x mod 9 <= 7 ->
  isSet (indexToOccupied idx 7 (lanceBlockMask s)) x = idxOcc idx x.
Proof.
  intros Hs Hx Hf Hr. pose proof (listEq_true _ _ (forallb_squares _ firstSqs_check s Hs)) as E.
  unfold indexToOccupied. rewrite indexToOccupied_loop_set; [|rewrite E; intros y Hy; apply in_seqN in Hy; lia|auto].
  rewrite E, isSet_zero, existsb_combine_seq. unfold idxOcc. cbn [orb].
  replace (s / 9 * 9 + 1 <=? x) with true by lia. replace (x <? s / 9 * 9 + 1 + N.of_nat 7) with true by lia.
  replace (x mod 9 =? 0) with false by lia. replace (x - (s / 9 * 9 + 1) + 0) with (x mod 9 - 1) by lia. cbn. now rewrite andb_true_r.
Qed.

Lemma lanceIndex_lt s occ : lanceIndex s occ < 128.
Proof. unfold lanceIndex. change 128 with (2 ^ 7). apply land_lt_r. reflexivity. Qed.
Lemma testbit_127 i : i < 7 -> N.testbit 127 i = true.
Proof. intros H. change 127 with (N.ones 7). now apply N.ones_spec_low. Qed.

Lemma idxOcc_index s occ x : s < 81 -> x < 81 -> x / 9 = s / 9 -> 1 <= x mod 9 <= 7 ->
  idxOcc (lanceIndex s occ) x = isSet occ x.
Proof.
  intros Hs Hx Hf Hr. unfold idxOcc, lanceIndex. replace (x mod 9 =? 0) with false by lia. rewrite andb_true_r.
  rewrite N.land_spec, N.shiftr_spec by lia. rewrite testbit_127 by lia. rewrite andb_true_r.
  rewrite isSet_tst. unfold tst, slide.
  destruct (N.ltb_spec s 63), (N.ltb_spec x 63); try lia; f_equal; lia.
Qed.

Lemma vray_interior : forallb (fun c => forallb (fun s => forallb
   (fun x => (x / 9 =? s / 9) && (1 <=? x mod 9) && (x mod 9 <=? 7)) (removelast (ray (vdir c) s))) squares) [0; 1] = true.
Proof. vmtrue. Qed.

Lemma in_removelast {A} (x : A) l : In x (removelast l) -> In x l.
Proof.
  induction l as [|a [|b l] IH]; cbn [removelast]; intros H; [destruct H|destruct H|].
  destruct H as [->|H]; [now left|right; auto].
Qed.

Lemma lanceTable_walk c s occ : c < 2 -> s < 81 -> LanceAttackTable c s (lanceIndex s occ) = walkBB occ (vdir c) s.
Proof.
  intros Hc Hs. assert (Hci : In c [0; 1]) by (destruct (N.eq_dec c 0); [left; lia|right; left; lia]).
  unfold LanceAttackTable. rewrite lanceAttackCalc_walk by auto. unfold walkBB. f_equal. apply walk_ext_butlast. intros x Hx.
  pose proof vray_interior as V. rewrite forallb_forall in V. specialize (V c Hci).
  pose proof (forallb_squares _ V s Hs) as V1. cbv beta in V1. rewrite forallb_forall in V1. specialize (V1 x Hx).
  assert (x < 81) by (apply in_removelast in Hx; now apply ray_lt in Hx).
  rewrite indexToOccupied_set by lia. apply idxOcc_index; lia.
Qed.

Lemma lanceAttack_walk c s occ : c < 2 -> s < 81 -> lanceAttack c s occ = walkBB occ (vdir c) s.
Proof. apply lanceTable_walk. Qed.

Lemma rookAttack_walk s occ : s < 81 ->
  rookAttack s occ = bbOr (bbOr (walkBB occ dE s) (walkBB occ dW s)) (bbOr (walkBB occ dN s) (walkBB occ dS s)).
Proof.
  intros Hs. unfold rookAttack, rookAttackFile. rewrite rookAttackRank_lanes, lane_E, lane_W by auto.
  cbv zeta. rewrite !lanceTable_walk by (auto; lia). reflexivity.
Qed.
Lemma bishopAttack_walk s occ : s < 81 ->
  bishopAttack s occ = bbOr (bbOr (walkBB occ dNE s) (walkBB occ dNW s)) (bbOr (walkBB occ dSE s) (walkBB occ dSW s)).
Proof. intros Hs. rewrite bishopAttack_lanes, lane_NE, lane_NW, lane_SE, lane_SW by auto. reflexivity. Qed.

(* ---- membership ---- *)
Lemma walk_lt occ d s t : In t (walk occ (ray d s)) -> t < 81.
Proof. intros H. apply walk_incl in H. now apply ray_lt in H. Qed.

Lemma isSet_walkBB occ d s t : s < 81 -> t < 81 -> In d allDirs ->
  isSet (walkBB occ d s) t = memN t (ray d s) && clear (isSet occ) s t.
Proof.
  intros Hs Ht Hd. unfold walkBB. rewrite isSet_list2bb by (auto; apply walk_lt).
  apply eq_true_iff_eq. rewrite andb_true_iff, memN_In, <- (walk_In (isSet occ) s d t Hs Hd).
  apply memN_In.
Qed.
Lemma wf_walkBB occ d s : wfBB (walkBB occ d s).
Proof. apply wf_list2bb. apply walk_lt. Qed.

Lemma isSet_lanceAttack c s occ t : c < 2 -> s < 81 -> t < 81 ->
  isSet (lanceAttack c s occ) t = memN t (ray (vdir c) s) && clear (isSet occ) s t.
Proof.
  intros Hc Hs Ht. rewrite lanceAttack_walk by auto. apply isSet_walkBB; auto.
  unfold vdir. destruct (c =? 0); cbn; tauto.
Qed.
Lemma isSet_rookAttack s occ t : s < 81 -> t < 81 ->
  isSet (rookAttack s occ) t = existsb (fun d => memN t (ray d s)) rookDirs && clear (isSet occ) s t.
Proof.
  intros Hs Ht. rewrite rookAttack_walk by auto.
  rewrite !isSet_or, !isSet_walkBB by (auto; cbn; tauto). cbn [existsb rookDirs].
  destruct (clear _ s t); rewrite ?andb_true_r, ?andb_false_r; [|reflexivity].
  destruct (memN t (ray dN s)), (memN t (ray dS s)), (memN t (ray dW s)), (memN t (ray dE s)); reflexivity.
Qed.
Lemma isSet_bishopAttack s occ t : s < 81 -> t < 81 ->
  isSet (bishopAttack s occ) t = existsb (fun d => memN t (ray d s)) bishopDirs && clear (isSet occ) s t.
Proof.
  intros Hs Ht. rewrite bishopAttack_walk by auto.
  rewrite !isSet_or, !isSet_walkBB by (auto; cbn; tauto). cbn [existsb bishopDirs].
  destruct (clear _ s t); rewrite ?andb_true_r, ?andb_false_r; [|reflexivity].
  destruct (memN t (ray dNE s)), (memN t (ray dNW s)), (memN t (ray dSE s)), (memN t (ray dSW s)); reflexivity.
Qed.

Lemma wf_lanceAttack c s occ : c < 2 -> s < 81 -> wfBB (lanceAttack c s occ).
Proof. intros. rewrite lanceAttack_walk by auto. apply wf_walkBB. Qed.
Lemma wf_rookAttack s occ : s < 81 -> wfBB (rookAttack s occ).
Proof. intros. rewrite rookAttack_walk by auto. repeat apply wf_or; apply wf_walkBB. Qed.
Lemma wf_bishopAttack s occ : s < 81 -> wfBB (bishopAttack s occ).
Proof. intros. rewrite bishopAttack_walk by auto. repeat apply wf_or; apply wf_walkBB. Qed.
