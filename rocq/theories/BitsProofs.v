(* The portable bit primitives of common.hpp against the intrinsic ones. *)
From Verif Require Import Bits BitboardProofs AttackProofs.
Local Open Scope N_scope.

(* little-endian value of a list of bytes *)
Fixpoint val (l : list N) : N := match l with nil => 0 | cons a l => a + 256 * val l end.
Definition bytes (l : list N) : Prop := Forall (fun a => a < 256) l.
Lemma land_split a b m n : a < 256 -> m < 256 -> N.land (a + 256 * b) (m + 256 * n) = N.land a m + 256 * N.land b n.
Proof.
  intros Ha Hm.
  assert (L : forall x, x < 256 -> forall i, 8 <= i -> N.testbit x i = false).
  { intros x Hx i Hi. destruct (N.eq_dec x 0) as [->|Nz]; [apply N.bits_0|]. apply N.bits_above_log2. apply N.lt_le_trans with 8; [|exact Hi]. apply N.log2_lt_pow2; lia. }
  assert (J : forall x y, x < 256 -> forall i, N.testbit (x + 256 * y) i = if i <? 8 then N.testbit x i else N.testbit y (i - 8)).
  { intros x y Hx i. assert (E : x + 256 * y = N.lor x (N.shiftl y 8)).
    { rewrite N.shiftl_mul_pow2. change (2 ^ 8) with 256. rewrite N.mul_comm. symmetry. rewrite N.mul_comm. replace (256 * y) with (N.shiftl y 8) by (rewrite N.shiftl_mul_pow2; change (2^8) with 256; lia).
      rewrite <- N.lxor_lor; [symmetry; apply N.add_nocarry_lxor|]; apply N.bits_inj; intros j; rewrite N.land_spec, N.bits_0; destruct (N.ltb_spec j 8);
      [rewrite N.shiftl_spec_low by auto; apply andb_false_r|rewrite (L x Hx) by auto; reflexivity|rewrite N.shiftl_spec_low by auto; apply andb_false_r|rewrite (L x Hx) by auto; reflexivity]. }
    rewrite E, N.lor_spec. destruct (N.ltb_spec i 8) as [H|H]; [rewrite N.shiftl_spec_low by auto; apply orb_false_r|].
    rewrite (L x Hx) by auto. now rewrite N.shiftl_spec_high' by auto. }
  assert (Hl : N.land a m < 256).
  { destruct (N.eq_dec (N.land a m) 0) as [->|Nz]; [lia|]. apply N.log2_lt_pow2 with (b := 8); [lia|]. eapply N.le_lt_trans; [apply N.log2_land|].
    destruct (N.eq_dec a 0) as [->|Na]; [rewrite N.land_0_l in Nz; lia|]. assert (N.log2 a < 8) by (apply N.log2_lt_pow2; lia). lia. }
  apply N.bits_inj. intros i. rewrite N.land_spec, !J by auto. destruct (i <? 8); now rewrite N.land_spec.
Qed.
Lemma val_land : forall l m, bytes l -> bytes m -> length l = length m -> N.land (val l) (val m) = val (map (fun x => N.land (fst x) (snd x)) (combine l m)).
Proof.
  induction l as [|a l IH]; intros [|b m] Hl Hm E; try discriminate; [reflexivity|]. inversion Hl; subst. inversion Hm; subst. cbn [val combine map fst snd].
  rewrite land_split by auto. rewrite IH; auto.
Qed.
(* shifting and masking byte by byte when the mask clears the bits that come from the next byte *)
Lemma shr_land_split k a b m n : k <= 8 -> a < 256 -> m < 2 ^ (8 - k) -> N.land (N.shiftr (a + 256 * b) k) (m + 256 * n) = N.land (a / 2 ^ k) m + 256 * N.land (N.shiftr b k) n.
Proof.
  intros Hk Ha Hm. rewrite !N.shiftr_div_pow2.
  assert (E256 : 256 = 2 ^ k * 2 ^ (8 - k)) by (rewrite <- N.pow_add_r; replace (k + (8 - k)) with 8 by lia; reflexivity).
  pose proof (N.pow_nonzero 2 k ltac:(lia)) as Nk. pose proof (N.pow_nonzero 2 (8 - k) ltac:(lia)) as Nk'.
  assert (D : (a + 256 * b) / 2 ^ k = (a / 2 ^ k + 2 ^ (8 - k) * (b mod 2 ^ k)) + 256 * (b / 2 ^ k)).
  { rewrite E256 at 1. replace (a + 2 ^ k * 2 ^ (8 - k) * b) with (a + (2 ^ (8 - k) * b) * 2 ^ k) by ring. rewrite N.div_add by auto.
    pose proof (N.div_mod b (2 ^ k) Nk) as Eb. rewrite Eb at 1. rewrite E256. ring. }
  rewrite D. assert (A1 : a / 2 ^ k < 2 ^ (8 - k)) by (apply N.div_lt_upper_bound; auto; lia).
  assert (B1 : b mod 2 ^ k < 2 ^ k) by (now apply N.mod_lt).
  assert (L1 : a / 2 ^ k + 2 ^ (8 - k) * (b mod 2 ^ k) < 256).
  { rewrite E256. apply N.lt_le_trans with (2 ^ (8 - k) * (1 + b mod 2 ^ k)); [lia|]. rewrite (N.mul_comm (2 ^ k)). apply N.mul_le_mono_l. lia. }
  assert (Hm' : m < 256) by (eapply N.lt_le_trans; [exact Hm|]; rewrite E256; rewrite <- (N.mul_1_l (2 ^ (8 - k))) at 1; apply N.mul_le_mono_r; lia).
  rewrite land_split by auto. f_equal. apply N.bits_inj. intros i. rewrite !N.land_spec. destruct (N.ltb_spec i (8 - k)) as [Hi|Hi].
  - f_equal. replace (a / 2 ^ k + 2 ^ (8 - k) * (b mod 2 ^ k)) with (a / 2 ^ k + (b mod 2 ^ k) * 2 ^ (8 - k)) by ring. rewrite <- (N.mod_pow2_bits_low _ (8 - k) i) by auto.
    rewrite N.mod_add by auto. now rewrite N.mod_small.
  - assert (F : N.testbit m i = false). { destruct (N.eq_dec m 0) as [->|Nz]; [apply N.bits_0|]. apply N.bits_above_log2. apply N.lt_le_trans with (8 - k); [|exact Hi]. apply N.log2_lt_pow2; lia. }
    now rewrite F, !andb_false_r.
Qed.
Lemma val_shr_land k : k <= 8 -> forall l m, bytes l -> Forall (fun a => a < 2 ^ (8 - k)) m -> length l = length m ->
  N.land (N.shiftr (val l) k) (val m) = val (map (fun x => N.land (fst x / 2 ^ k) (snd x)) (combine l m)).
Proof.
  intros Hk. induction l as [|a l IH]; intros [|b m] Hl Hm E; try discriminate; [now rewrite N.shiftr_0_l|]. inversion Hl; subst. inversion Hm; subst. cbn [val combine map fst snd].
  rewrite shr_land_split by auto. rewrite IH; auto.
Qed.
Lemma val_lt : forall l, bytes l -> val l < 256 ^ N.of_nat (length l).
Proof. induction l as [|a l IH]; intros H; [reflexivity|]. inversion H; subst. cbn [val length]. specialize (IH H3). replace (N.of_nat (S (length l))) with (N.succ (N.of_nat (length l))) by lia. rewrite N.pow_succ_r'. lia. Qed.
(* popcount of a concatenation of bits *)
Lemma popcount_2 n : popcount (2 * n) = popcount n. Proof. now destruct n. Qed.
Lemma popcount_21 n : popcount (2 * n + 1) = 1 + popcount n. Proof. now destruct n. Qed.
Lemma popcount_cat : forall (k : nat) a b, a < 2 ^ N.of_nat k -> popcount (a + 2 ^ N.of_nat k * b) = popcount a + popcount b.
Proof.
  induction k as [|k IH]; intros a b H.
  - change (2 ^ N.of_nat 0) with 1 in *. replace a with 0 by lia. rewrite N.add_0_l, N.mul_1_l. change (popcount 0) with 0. lia.
  - replace (N.of_nat (S k)) with (N.succ (N.of_nat k)) in * by lia. rewrite N.pow_succ_r' in *. pose proof (N.div_mod a 2 ltac:(lia)) as E. pose proof (N.mod_lt a 2 ltac:(lia)) as L.
    assert (D : a / 2 < 2 ^ N.of_nat k) by (apply N.div_lt_upper_bound; lia). specialize (IH (a / 2) b D).
    assert (C : a mod 2 = 0 \/ a mod 2 = 1) by lia. destruct C as [C|C]; rewrite C in E; rewrite E.
    + replace (2 * (a / 2) + 0 + 2 * 2 ^ N.of_nat k * b) with (2 * (a / 2 + 2 ^ N.of_nat k * b)) by ring. rewrite N.add_0_r, !popcount_2. exact IH.
    + replace (2 * (a / 2) + 1 + 2 * 2 ^ N.of_nat k * b) with (2 * (a / 2 + 2 ^ N.of_nat k * b) + 1) by ring. rewrite !popcount_21. lia.
Qed.
Lemma popcount_val : forall l, bytes l -> popcount (val l) = fold_right (fun a n => popcount a + n) 0 l.
Proof. induction l as [|a l IH]; intros H; [reflexivity|]. inversion H; subst. cbn [val fold_right]. change 256 with (2 ^ N.of_nat 8). rewrite popcount_cat by assumption. now rewrite IH. Qed.
Lemma val_of x : x < 2 ^ 64 -> exists l, length l = 8%nat /\ bytes l /\ val l = x.
Proof.
  assert (G : forall n x, x < 256 ^ N.of_nat n -> exists l, length l = n /\ bytes l /\ val l = x).
  { induction n as [|n IH]; intros y Hy.
    - exists []. change (256 ^ N.of_nat 0) with 1 in Hy. repeat split; [constructor|]. cbn [val]. lia.
    - replace (N.of_nat (S n)) with (N.succ (N.of_nat n)) in Hy by lia. rewrite N.pow_succ_r' in Hy. destruct (IH (y / 256)) as (l & L & B & E); [apply N.div_lt_upper_bound; lia|].
      exists (y mod 256 :: l). cbn [length val]. split; [now rewrite L|]. split; [constructor; auto; apply N.mod_lt; lia|]. rewrite E. pose proof (N.div_mod y 256). lia. }
  intros H. apply (G 8%nat). exact H.
Qed.
(* the first two steps inside one byte, and what they give *)
Definition g1 (b : N) : N := b - N.land (b / 2) 85.
Definition g2 (b : N) : N := N.land (g1 b) 51 + N.land (g1 b / 4) 51.
Lemma g_check : forallb (fun b => (N.land (b / 2) 85 <=? b) && (g1 b <? 256) && (g2 b mod 16 <=? 4) && (g2 b / 16 <=? 4) && (g2 b mod 16 + g2 b / 16 =? popcount b)) (seqN 0 256) = true.
Proof. vmtrue. Qed.
Lemma g_facts b : b < 256 -> N.land (b / 2) 85 <= b /\ g1 b < 256 /\ exists lo hi, g2 b = lo + 16 * hi /\ lo <= 4 /\ hi <= 4 /\ lo + hi = popcount b.
Proof.
  intros H. pose proof (forallb_seqN _ _ _ g_check b ltac:(lia)) as C. cbv beta in C. repeat (apply andb_prop in C as [C ?]).
  rewrite N.leb_le in *. split; auto. split; [now apply N.ltb_lt|]. exists (g2 b mod 16), (g2 b / 16). pose proof (N.div_mod (g2 b) 16). split; [lia|]. split; auto. split; auto. now apply N.eqb_eq.
Qed.
Lemma sub64_small a b : b <= a -> a < 2 ^ 64 -> sub64 a b = a - b.
Proof. intros. unfold sub64, w64. lia. Qed.
Theorem count1s_portable_ok x : x < 2 ^ 64 -> count1s_portable x = popcount x.
Proof.
  intros H. destruct (val_of x H) as (l & L & B & <-). rewrite popcount_val by auto.
  destruct l as [|b0 [|b1 [|b2 [|b3 [|b4 [|b5 [|b6 [|b7 [|? ?]]]]]]]]]; try discriminate. clear L. unfold bytes in B.
  repeat match goal with H : Forall _ (_ :: _) |- _ => inversion H; clear H; subst end. clear H.
  destruct (g_facts b0) as (S0 & T0 & l0 & h0 & G0 & U0 & V0 & P0); auto. destruct (g_facts b1) as (S1 & T1 & l1 & h1 & G1 & U1 & V1 & P1); auto.
  destruct (g_facts b2) as (S2 & T2 & l2 & h2 & G2 & U2 & V2 & P2); auto. destruct (g_facts b3) as (S3 & T3 & l3 & h3 & G3 & U3 & V3 & P3); auto.
  destruct (g_facts b4) as (S4 & T4 & l4 & h4 & G4 & U4 & V4 & P4); auto. destruct (g_facts b5) as (S5 & T5 & l5 & h5 & G5 & U5 & V5 & P5); auto.
  destruct (g_facts b6) as (S6 & T6 & l6 & h6 & G6 & U6 & V6 & P6); auto. destruct (g_facts b7) as (S7 & T7 & l7 & h7 & G7 & U7 & V7 & P7); auto.
  unfold count1s_portable. cbv zeta.
  assert (M1 : 0x5555555555555555 = val [85; 85; 85; 85; 85; 85; 85; 85]) by reflexivity.
  assert (M2 : 0x3333333333333333 = val [51; 51; 51; 51; 51; 51; 51; 51]) by reflexivity.
  assert (M3 : 0x0f0f0f0f0f0f0f0f = val [15; 15; 15; 15; 15; 15; 15; 15]) by reflexivity.
  assert (E1 : sub64 (val [b0; b1; b2; b3; b4; b5; b6; b7]) (N.land (N.shiftr (val [b0; b1; b2; b3; b4; b5; b6; b7]) 1) 0x5555555555555555) = val [g1 b0; g1 b1; g1 b2; g1 b3; g1 b4; g1 b5; g1 b6; g1 b7]).
  { rewrite M1, val_shr_land; [|lia|repeat constructor; assumption|repeat constructor; reflexivity|reflexivity]. cbn [combine map fst snd val]. change (2 ^ 1) with 2.
    assert (Q : forall b, N.land (b / 2) 85 <= b -> exists x, N.land (b / 2) 85 = x /\ b = x + g1 b) by (intros b Hb; exists (N.land (b / 2) 85); split; [reflexivity|unfold g1; lia]).
    destruct (Q b0 S0) as (x0 & -> & Q0), (Q b1 S1) as (x1 & -> & Q1), (Q b2 S2) as (x2 & -> & Q2), (Q b3 S3) as (x3 & -> & Q3),
      (Q b4 S4) as (x4 & -> & Q4), (Q b5 S5) as (x5 & -> & Q5), (Q b6 S6) as (x6 & -> & Q6), (Q b7 S7) as (x7 & -> & Q7). clear Q.
    revert Q0 Q1 Q2 Q3 Q4 Q5 Q6 Q7. generalize (g1 b0) (g1 b1) (g1 b2) (g1 b3) (g1 b4) (g1 b5) (g1 b6) (g1 b7). intros.
    rewrite sub64_small by lia. lia. }
  rewrite E1. clear E1 M1.
  assert (E2 : w64 (N.land (val [g1 b0; g1 b1; g1 b2; g1 b3; g1 b4; g1 b5; g1 b6; g1 b7]) 0x3333333333333333 + N.land (N.shiftr (val [g1 b0; g1 b1; g1 b2; g1 b3; g1 b4; g1 b5; g1 b6; g1 b7]) 2) 0x3333333333333333) =
               val [g2 b0; g2 b1; g2 b2; g2 b3; g2 b4; g2 b5; g2 b6; g2 b7]).
  { rewrite M2, val_land, val_shr_land; try reflexivity; try (repeat constructor; assumption); try (repeat constructor; reflexivity); [|lia]. cbn [combine map fst snd val]. change (2 ^ 2) with 4.
    unfold w64. rewrite N.mod_small; unfold g2 in *; lia. }
  rewrite E2. clear E2 M2. rewrite G0, G1, G2, G3, G4, G5, G6, G7. clear G0 G1 G2 G3 G4 G5 G6 G7 S0 S1 S2 S3 S4 S5 S6 S7 T0 T1 T2 T3 T4 T5 T6 T7.
  assert (E3 : N.shiftr (val [l0 + 16 * h0; l1 + 16 * h1; l2 + 16 * h2; l3 + 16 * h3; l4 + 16 * h4; l5 + 16 * h5; l6 + 16 * h6; l7 + 16 * h7]) 4 =
               val [h0 + 16 * l1; h1 + 16 * l2; h2 + 16 * l3; h3 + 16 * l4; h4 + 16 * l5; h5 + 16 * l6; h6 + 16 * l7; h7]).
  { rewrite N.shiftr_div_pow2. change (2 ^ 4) with 16. symmetry. apply N.div_unique with (r := l0); cbn [val]; lia. }
  rewrite E3. clear E3. cbn [fold_right]. rewrite <- P0, <- P1, <- P2, <- P3, <- P4, <- P5, <- P6, <- P7. clear P0 P1 P2 P3 P4 P5 P6 P7.
  assert (E4 : w64 (val [l0 + 16 * h0; l1 + 16 * h1; l2 + 16 * h2; l3 + 16 * h3; l4 + 16 * h4; l5 + 16 * h5; l6 + 16 * h6; l7 + 16 * h7] + val [h0 + 16 * l1; h1 + 16 * l2; h2 + 16 * l3; h3 + 16 * l4; h4 + 16 * l5; h5 + 16 * l6; h6 + 16 * l7; h7]) =
    val [l0 + h0 + 16 * (h0 + l1); l1 + h1 + 16 * (h1 + l2); l2 + h2 + 16 * (h2 + l3); l3 + h3 + 16 * (h3 + l4); l4 + h4 + 16 * (h4 + l5); l5 + h5 + 16 * (h5 + l6); l6 + h6 + 16 * (h6 + l7); l7 + h7 + 16 * h7]).
  { unfold w64. rewrite N.mod_small; cbn [val]; lia. }
  rewrite E4. clear E4. rewrite M3, val_land; [|repeat constructor; lia|repeat constructor; reflexivity|reflexivity]. clear M3. cbn [combine map fst snd].
  assert (N15 : forall a b, a <= 8 -> b <= 8 -> N.land (a + 16 * b) 15 = a).
  { intros a b Ha Hb. change 15 with (N.ones 4). rewrite N.land_ones. change (2 ^ 4) with 16. lia. }
  rewrite !N15 by lia. clear N15.
  assert (C0 : l0 + h0 <= 8) by lia. assert (C1 : l1 + h1 <= 8) by lia. assert (C2 : l2 + h2 <= 8) by lia. assert (C3 : l3 + h3 <= 8) by lia.
  assert (C4 : l4 + h4 <= 8) by lia. assert (C5 : l5 + h5 <= 8) by lia. assert (C6 : l6 + h6 <= 8) by lia. assert (C7 : l7 + h7 <= 8) by lia.
  revert C0 C1 C2 C3 C4 C5 C6 C7. generalize (l0 + h0) (l1 + h1) (l2 + h2) (l3 + h3) (l4 + h4) (l5 + h5) (l6 + h6) (l7 + h7). clear.
  intros c0 c1 c2 c3 c4 c5 c6 c7 C0 C1 C2 C3 C4 C5 C6 C7.
  assert (E4 : w64 (val [c0; c1; c2; c3; c4; c5; c6; c7] + N.shiftr (val [c0; c1; c2; c3; c4; c5; c6; c7]) 8) =
    val [c0 + c1; c1 + c2; c2 + c3; c3 + c4; c4 + c5; c5 + c6; c6 + c7; c7]).
  { rewrite N.shiftr_div_pow2. change (2 ^ 8) with 256. replace (val [c0; c1; c2; c3; c4; c5; c6; c7] / 256) with (val [c1; c2; c3; c4; c5; c6; c7]) by (apply N.div_unique with (r := c0); cbn [val]; lia).
    unfold w64. rewrite N.mod_small; cbn [val]; lia. }
  rewrite E4. clear E4.
  assert (E5 : w64 (val [c0 + c1; c1 + c2; c2 + c3; c3 + c4; c4 + c5; c5 + c6; c6 + c7; c7] + N.shiftr (val [c0 + c1; c1 + c2; c2 + c3; c3 + c4; c4 + c5; c5 + c6; c6 + c7; c7]) 16) =
    val [c0 + c1 + (c2 + c3); c1 + c2 + (c3 + c4); c2 + c3 + (c4 + c5); c3 + c4 + (c5 + c6); c4 + c5 + (c6 + c7); c5 + c6 + c7; c6 + c7; c7]).
  { rewrite N.shiftr_div_pow2. change (2 ^ 16) with 65536.
    replace (val [c0 + c1; c1 + c2; c2 + c3; c3 + c4; c4 + c5; c5 + c6; c6 + c7; c7] / 65536) with (val [c2 + c3; c3 + c4; c4 + c5; c5 + c6; c6 + c7; c7]) by (apply N.div_unique with (r := c0 + c1 + 256 * (c1 + c2)); cbn [val]; lia).
    unfold w64. rewrite N.mod_small; cbn [val]; lia. }
  rewrite E5. clear E5. rewrite N.shiftr_div_pow2. change (2 ^ 32) with 4294967296.
  replace (val [c0 + c1 + (c2 + c3); c1 + c2 + (c3 + c4); c2 + c3 + (c4 + c5); c3 + c4 + (c5 + c6); c4 + c5 + (c6 + c7); c5 + c6 + c7; c6 + c7; c7] / 4294967296)
    with (val [c4 + c5 + (c6 + c7); c5 + c6 + c7; c6 + c7; c7])
    by (apply N.div_unique with (r := val [c0 + c1 + (c2 + c3); c1 + c2 + (c3 + c4); c2 + c3 + (c4 + c5); c3 + c4 + (c5 + c6)]); cbn [val]; lia).
  change 127 with (N.ones 7). rewrite N.land_ones. change (2 ^ 7) with 128. unfold w32, w64. rewrite (N.mod_small (_ + _) 0x10000000000000000) by (cbn [val]; lia). cbn [val]. lia.
Qed.

(* ---- firstOneFromLSB ---- *)
Lemma bitTable_check : forallb (fun i => nthN 0 BitTable (N.shiftr (w32 (w32 (N.lxor (N.land (N.ones (i + 1)) 0xffffffff) (N.shiftr (N.ones (i + 1)) 32)) * 0x783a9b23)) 26) =? i) (seqN 0 64) = true.
Proof. vmtrue. Qed.
Lemma ctz_lt w : w <> 0 -> w < 2 ^ 64 -> ctz w < 64.
Proof.
  intros Nz H. destruct w as [|p]; [contradiction|]. cbn [ctz]. assert (G : forall p, 2 ^ ctz_pos p <= N.pos p).
  { clear. induction p as [p IH|p IH|]; cbn [ctz_pos]; try (change (2 ^ 0) with 1; lia). rewrite N.pow_add_r. change (2 ^ 1) with 2. lia. }
  specialize (G p). apply (N.pow_lt_mono_r_iff 2); [lia|]. eapply N.le_lt_trans; eauto.
Qed.
Theorem firstOne_portable_ok w : w <> 0 -> w < 2 ^ 64 -> firstOneFromLSB_portable w = firstOneFromLSB w.
Proof.
  intros Nz H. pose proof (ctz_lt w Nz H) as L. unfold firstOneFromLSB, firstOneFromLSB_portable. cbv zeta.
  assert (E : N.lxor w (sub64 w 1) = N.ones (ctz w + 1)).
  { assert (S : sub64 w 1 = N.pred w) by (unfold sub64, w64; lia). rewrite S. destruct w as [|p]; [contradiction|]. apply N.bits_inj. intros i. rewrite N.lxor_comm, lxor_pred_pos. cbn [ctz].
    destruct (N.leb_spec i (ctz_pos p)); symmetry; [apply N.ones_spec_low; lia|apply N.ones_spec_high; lia]. }
  rewrite E. pose proof (forallb_seqN _ _ _ bitTable_check (ctz w) ltac:(lia)) as C. now apply N.eqb_eq in C.
Qed.
