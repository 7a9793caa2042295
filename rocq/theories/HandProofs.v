(* The packed hand word behaves as seven independent counters. *)
From Verif Require Export Types BitboardProofs.

Definition handW (hp : N) : N := nthN 0 [5; 3; 3; 3; 3; 2; 2] hp.

Lemma hp_cases hp : hp < 7 -> hp = 0 \/ hp = 1 \/ hp = 2 \/ hp = 3 \/ hp = 4 \/ hp = 5 \/ hp = 6.
Proof. lia. Qed.
Ltac hpcases H := match type of H with ?hp < _ => destruct (hp_cases hp H) as [E|[E|[E|[E|[E|[E|E]]]]]]; subst hp end.

Lemma numOf_arith h hp : hp < 7 -> numOf h hp = (h / 2 ^ handShift hp) mod 2 ^ handW hp.
Proof.
  intros H. unfold numOf, handMask.
  rewrite N.shiftr_land, N.shiftr_shiftl_l, N.sub_diag, N.shiftl_0_r by lia.
  rewrite <- N.shiftr_div_pow2, <- N.land_ones. f_equal.
  hpcases H; reflexivity.
Qed.

(* the word holding the given counters *)
Definition enc (a0 a1 a2 a3 a4 a5 a6 : N) : N :=
  a0 + 64 * a1 + 1024 * a2 + 16384 * a3 + 262144 * a4 + 4194304 * a5 + 33554432 * a6.
Definition handOk (h : N) : Prop :=
  h = enc (numOf h 0) (numOf h 1) (numOf h 2) (numOf h 3) (numOf h 4) (numOf h 5) (numOf h 6).

Definition bounded (a0 a1 a2 a3 a4 a5 a6 : N) : Prop :=
  a0 < 32 /\ a1 < 8 /\ a2 < 8 /\ a3 < 8 /\ a4 < 8 /\ a5 < 4 /\ a6 < 4.
Lemma enc_lt a0 a1 a2 a3 a4 a5 a6 : bounded a0 a1 a2 a3 a4 a5 a6 -> enc a0 a1 a2 a3 a4 a5 a6 < 2 ^ 32.
Proof. unfold bounded, enc. change (2 ^ 32) with 4294967296. lia. Qed.

Lemma split_field h lo x hi s w : h = lo + 2 ^ s * (x + 2 ^ w * hi) -> lo < 2 ^ s -> x < 2 ^ w -> (h / 2 ^ s) mod 2 ^ w = x.
Proof.
  intros -> Hl Hx. assert (2 ^ s <> 0) by (apply N.pow_nonzero; lia). assert (2 ^ w <> 0) by (apply N.pow_nonzero; lia).
  rewrite (N.mul_comm (2 ^ s)), N.div_add by auto. rewrite N.div_small by auto. rewrite N.add_0_l.
  rewrite N.mul_comm, N.mod_add by auto. now apply N.mod_small.
Qed.
Ltac hw := change (2 ^ 0) with 1; change (2 ^ 6) with 64; change (2 ^ 10) with 1024; change (2 ^ 14) with 16384;
  change (2 ^ 18) with 262144; change (2 ^ 22) with 4194304; change (2 ^ 25) with 33554432;
  change (2 ^ 5) with 32; change (2 ^ 3) with 8; change (2 ^ 2) with 4; lia.
Lemma numOf_enc a0 a1 a2 a3 a4 a5 a6 hp : bounded a0 a1 a2 a3 a4 a5 a6 -> hp < 7 ->
  numOf (enc a0 a1 a2 a3 a4 a5 a6) hp = nthN 0 [a0; a1; a2; a3; a4; a5; a6] hp.
Proof.
  intros (H0 & H1 & H2 & H3 & H4 & H5 & H6) H. rewrite numOf_arith by auto.
  hpcases H; unfold enc.
  - change (handShift 0) with 0; change (handW 0) with 5; change (nthN 0 [a0; a1; a2; a3; a4; a5; a6] 0) with a0.
    apply (split_field _ 0 a0 (2 * a1 + 32 * a2 + 512 * a3 + 8192 * a4 + 131072 * a5 + 1048576 * a6)); hw.
  - change (handShift 1) with 6; change (handW 1) with 3; change (nthN 0 [a0; a1; a2; a3; a4; a5; a6] 1) with a1.
    apply (split_field _ a0 a1 (2 * a2 + 32 * a3 + 512 * a4 + 8192 * a5 + 65536 * a6)); hw.
  - change (handShift 2) with 10; change (handW 2) with 3; change (nthN 0 [a0; a1; a2; a3; a4; a5; a6] 2) with a2.
    apply (split_field _ (a0 + 64 * a1) a2 (2 * a3 + 32 * a4 + 512 * a5 + 4096 * a6)); hw.
  - change (handShift 3) with 14; change (handW 3) with 3; change (nthN 0 [a0; a1; a2; a3; a4; a5; a6] 3) with a3.
    apply (split_field _ (a0 + 64 * a1 + 1024 * a2) a3 (2 * a4 + 32 * a5 + 256 * a6)); hw.
  - change (handShift 4) with 18; change (handW 4) with 3; change (nthN 0 [a0; a1; a2; a3; a4; a5; a6] 4) with a4.
    apply (split_field _ (a0 + 64 * a1 + 1024 * a2 + 16384 * a3) a4 (2 * a5 + 16 * a6)); hw.
  - change (handShift 5) with 22; change (handW 5) with 2; change (nthN 0 [a0; a1; a2; a3; a4; a5; a6] 5) with a5.
    apply (split_field _ (a0 + 64 * a1 + 1024 * a2 + 16384 * a3 + 262144 * a4) a5 (2 * a6)); hw.
  - change (handShift 6) with 25; change (handW 6) with 2; change (nthN 0 [a0; a1; a2; a3; a4; a5; a6] 6) with a6.
    apply (split_field _ (a0 + 64 * a1 + 1024 * a2 + 16384 * a3 + 262144 * a4 + 4194304 * a5) a6 0); hw.
Qed.

Lemma numOf_lt h hp : hp < 7 -> numOf h hp < 2 ^ handW hp.
Proof. intros H. rewrite numOf_arith by auto. apply N.mod_lt. apply N.pow_nonzero. lia. Qed.
Lemma numOf_bounded h : bounded (numOf h 0) (numOf h 1) (numOf h 2) (numOf h 3) (numOf h 4) (numOf h 5) (numOf h 6).
Proof.
  unfold bounded.
  repeat split; [exact (numOf_lt h 0 eq_refl)|exact (numOf_lt h 1 eq_refl)|exact (numOf_lt h 2 eq_refl)|exact (numOf_lt h 3 eq_refl)
  |exact (numOf_lt h 4 eq_refl)|exact (numOf_lt h 5 eq_refl)|exact (numOf_lt h 6 eq_refl)].
Qed.
Lemma handOk_lt h : handOk h -> h < 2 ^ 32.
Proof. intros ->. apply enc_lt, numOf_bounded. Qed.
Lemma handOk_enc a0 a1 a2 a3 a4 a5 a6 : bounded a0 a1 a2 a3 a4 a5 a6 -> handOk (enc a0 a1 a2 a3 a4 a5 a6).
Proof. intros H. unfold handOk. rewrite !numOf_enc by (auto; lia). reflexivity. Qed.
Lemma handOk_ext h h' : handOk h -> handOk h' -> (forall hp, hp < 7 -> numOf h hp = numOf h' hp) -> h = h'.
Proof. intros H H' E. rewrite H, H'. rewrite !E by lia. reflexivity. Qed.

Lemma plusOne_spec h hp : handOk h -> hp < 7 -> numOf h hp + 1 < 2 ^ handW hp ->
  handOk (plusOne h hp) /\ forall hp', hp' < 7 -> numOf (plusOne h hp) hp' = if hp =? hp' then numOf h hp' + 1 else numOf h hp'.
Proof.
  intros Ho Hp Hb. pose proof (numOf_bounded h) as B. pose proof (handOk_lt h Ho) as Hlt.
  assert (E : exists a0 a1 a2 a3 a4 a5 a6, bounded a0 a1 a2 a3 a4 a5 a6 /\ plusOne h hp = enc a0 a1 a2 a3 a4 a5 a6 /\
    forall hp', hp' < 7 -> nthN 0 [a0; a1; a2; a3; a4; a5; a6] hp' = if hp =? hp' then numOf h hp' + 1 else numOf h hp').
  { set (f := fun i => numOf h i + (if hp =? i then 1 else 0)).
    exists (f 0), (f 1), (f 2), (f 3), (f 4), (f 5), (f 6). unfold f.
    assert (B' : bounded (f 0) (f 1) (f 2) (f 3) (f 4) (f 5) (f 6)).
    { unfold bounded in *. unfold f. clear Ho Hlt. hpcases Hp; cbv [handW nthN nth N.to_nat Pos.to_nat Pos.iter_op Init.Nat.add N.pow Pos.pow Pos.iter Pos.mul] in Hb; cbv [N.eqb Pos.eqb]; lia. }
    split; [exact B'|]. split.
    - unfold plusOne, w32. rewrite N.mod_small; cycle 1.
      + pose proof (enc_lt _ _ _ _ _ _ _ B') as L. unfold f in L. unfold handOk in Ho.
        change (2 ^ 32) with 4294967296 in *. rewrite Ho. unfold enc in *. hpcases Hp; cbn [handOne nthN] in *; cbv [handOne nthN nth N.to_nat Pos.to_nat Pos.iter_op Init.Nat.add] ; cbv [N.eqb Pos.eqb] in L; lia.
      + unfold handOk in Ho. rewrite Ho at 1. unfold enc. hpcases Hp; cbv [handOne nthN nth N.to_nat Pos.to_nat Pos.iter_op Init.Nat.add]; cbv [N.eqb Pos.eqb]; lia.
    - intros hp' H'. hpcases H'; cbv [nthN nth N.to_nat Pos.to_nat Pos.iter_op Init.Nat.add]; destruct (hp =? _); lia. }
  destruct E as (a0 & a1 & a2 & a3 & a4 & a5 & a6 & B' & -> & E). split; [now apply handOk_enc|].
  intros hp' H'. rewrite numOf_enc by auto. auto.
Qed.
Lemma minusOne_spec h hp : handOk h -> hp < 7 -> 0 < numOf h hp ->
  handOk (minusOne h hp) /\ forall hp', hp' < 7 -> numOf (minusOne h hp) hp' = if hp =? hp' then numOf h hp' - 1 else numOf h hp'.
Proof.
  intros Ho Hp Hb. pose proof (numOf_bounded h) as B. pose proof (handOk_lt h Ho) as Hlt.
  assert (E : exists a0 a1 a2 a3 a4 a5 a6, bounded a0 a1 a2 a3 a4 a5 a6 /\ minusOne h hp = enc a0 a1 a2 a3 a4 a5 a6 /\
    forall hp', hp' < 7 -> nthN 0 [a0; a1; a2; a3; a4; a5; a6] hp' = if hp =? hp' then numOf h hp' - 1 else numOf h hp').
  { set (f := fun i => numOf h i - (if hp =? i then 1 else 0)).
    exists (f 0), (f 1), (f 2), (f 3), (f 4), (f 5), (f 6). unfold f.
    assert (B' : bounded (f 0) (f 1) (f 2) (f 3) (f 4) (f 5) (f 6)).
    { unfold bounded in *. unfold f. hpcases Hp; cbv [N.eqb Pos.eqb]; lia. }
    split; [exact B'|]. split.
    - unfold minusOne, sub32, w32. change (2 ^ 32) with 4294967296 in *.
      assert (G : h = enc (f 0) (f 1) (f 2) (f 3) (f 4) (f 5) (f 6) + handOne hp).
      { unfold handOk in Ho. rewrite Ho at 1. unfold f, enc. hpcases Hp; cbv [handOne nthN nth N.to_nat Pos.to_nat Pos.iter_op Init.Nat.add]; cbv [N.eqb Pos.eqb]; lia. }
      fold (f 0) (f 1) (f 2) (f 3) (f 4) (f 5) (f 6).
      pose proof (enc_lt _ _ _ _ _ _ _ B') as L. change (2 ^ 32) with 4294967296 in L.
      assert (O : handOne hp < 4294967296) by (hpcases Hp; cbv; reflexivity).
      set (X := enc _ _ _ _ _ _ _) in *. lia.
    - intros hp' H'. hpcases H'; cbv [nthN nth N.to_nat Pos.to_nat Pos.iter_op Init.Nat.add]; destruct (hp =? _); lia. }
  destruct E as (a0 & a1 & a2 & a3 & a4 & a5 & a6 & B' & -> & E). split; [now apply handOk_enc|].
  intros hp' H'. rewrite numOf_enc by auto. auto.
Qed.
Lemma handExists_num h hp : hp < 7 -> handExists h hp = negb (numOf h hp =? 0).
Proof.
  intros H. unfold handExists. f_equal. apply eq_true_iff_eq. rewrite !N.eqb_eq. unfold numOf.
  assert (E : N.land h (handMask hp) = N.shiftl (N.land (N.shiftr h (handShift hp)) (handWidthMask hp)) (handShift hp)).
  { unfold handMask. apply N.bits_inj. intros i. rewrite N.land_spec.
    destruct (N.ltb_spec i (handShift hp)).
    - rewrite !N.shiftl_spec_low by auto. apply andb_false_r.
    - rewrite !N.shiftl_spec_high' by auto. rewrite N.land_spec, N.shiftr_spec'. repeat f_equal. lia. }
  rewrite E. rewrite N.shiftr_shiftl_l, N.sub_diag, N.shiftl_0_r by lia. rewrite N.shiftl_eq_0_iff. reflexivity.
Qed.
Lemma numOfT_num h hp : handOk h -> hp < 7 -> numOfT h hp = numOf h hp.
Proof.
  intros Ho H. unfold numOfT. destruct (N.eqb_spec hp 6); [subst|reflexivity].
  rewrite numOf_arith by lia. rewrite N.shiftr_div_pow2. change (handShift 6) with 25. change (handW 6) with 2.
  symmetry. apply N.mod_small. pose proof (numOf_bounded h) as (B0 & B1 & B2 & B3 & B4 & B5 & B6).
  apply N.div_lt_upper_bound; [discriminate|]. unfold handOk, enc in Ho. change (2 ^ 25 * 2 ^ 2) with 134217728. rewrite Ho.
  generalize dependent (numOf h 0). generalize dependent (numOf h 1). generalize dependent (numOf h 2). generalize dependent (numOf h 3).
  lia.
Qed.

(* isEqualOrSuperior compares the seven counters *)
Lemma land_lor_zero a b c : N.land a (N.lor b c) = 0 <-> N.land a b = 0 /\ N.land a c = 0.
Proof. rewrite N.land_lor_distr_r. apply N.lor_eq_0_iff. Qed.
Lemma land_bit_zero a k : N.land a (2 ^ k) = 0 <-> N.testbit a k = false.
Proof.
  rewrite <- (N.shiftl_1_l k). pose proof (land_pow2_testbit a k) as H.
  destruct (N.testbit a k), (N.eqb_spec (N.land a (N.shiftl 1 k)) 0); cbn [negb] in H; split; try congruence; intros E; rewrite E in *; congruence.
Qed.
Lemma testbit_arith a k : N.testbit a k = negb ((a / 2 ^ k) mod 2 =? 0).
Proof.
  rewrite N.testbit_eqb. assert (H : (a / 2 ^ k) mod 2 < 2) by (apply N.mod_lt; lia).
  generalize dependent ((a / 2 ^ k) mod 2). intros x H.
  destruct (N.eqb_spec x 1), (N.eqb_spec x 0); cbn; lia.
Qed.
Lemma borrowMask_bits d : N.land d borrowMask = 0 <->
  N.testbit d 5 = false /\ N.testbit d 9 = false /\ N.testbit d 13 = false /\ N.testbit d 17 = false /\
  N.testbit d 21 = false /\ N.testbit d 24 = false /\ N.testbit d 27 = false.
Proof.
  replace borrowMask with (N.lor (N.lor (N.lor (N.lor (N.lor (N.lor (2 ^ 5) (2 ^ 9)) (2 ^ 13)) (2 ^ 17)) (2 ^ 21)) (2 ^ 24)) (2 ^ 27)) by reflexivity.
  rewrite !land_lor_zero, !land_bit_zero. tauto.
Qed.

Lemma testbit_split D lo y s w : D = lo + 2 ^ s * y -> lo < 2 ^ s -> N.testbit D (s + w) = N.testbit y w.
Proof.
  intros -> Hl. replace (s + w) with (w + s) by lia. rewrite <- N.shiftr_spec' , N.shiftr_div_pow2.
  assert (2 ^ s <> 0) by (apply N.pow_nonzero; lia). rewrite (N.mul_comm (2 ^ s)), N.div_add by auto. now rewrite N.div_small by auto.
Qed.
Lemma testbit_top D lo x hi s w : D = lo + 2 ^ s * (x + 2 ^ (w + 1) * hi) -> lo < 2 ^ s -> x < 2 ^ (w + 1) ->
  N.testbit D (s + w) = (2 ^ w <=? x).
Proof.
  intros E Hl Hx. rewrite (testbit_split _ _ _ _ _ E Hl). rewrite testbit_arith.
  replace (2 ^ (w + 1)) with (2 ^ w * 2) in * by (rewrite N.pow_add_r; lia).
  assert (2 ^ w <> 0) by (apply N.pow_nonzero; lia).
  replace (x + 2 ^ w * 2 * hi) with (x + (2 * hi) * 2 ^ w) by lia. rewrite N.div_add by auto. rewrite N.mul_comm, N.mod_add by lia.
  destruct (N.leb_spec (2 ^ w) x).
  - assert (x / 2 ^ w = 1). { symmetry. apply (N.div_unique x (2 ^ w) 1 (x - 2 ^ w)); lia. } rewrite H1. reflexivity.
  - rewrite N.div_small by auto. reflexivity.
Qed.

Lemma le_ex a b : a <= b -> exists d, b = a + d.
Proof. intros H. exists (b - a). lia. Qed.
Lemma lt_ex a b : a < b -> exists e, b = a + e + 1.
Proof. intros H. exists (b - a - 1). lia. Qed.
(* isEqualOrSuperior compares every counter, hand.hpp:77-90 *)
Lemma sub32_small h r : r <= h -> h < 4294967296 -> sub32 h r = h - r.
Proof. intros H1 H2. unfold sub32, w32. rewrite (N.mod_small r) by lia. replace (h + 4294967296 - r) with (h - r + 1 * 4294967296) by lia.
  rewrite N.mod_add by lia. apply N.mod_small. lia. Qed.

Lemma sup_fail0 a0 a1 a2 a3 a4 a5 a6 b0 b1 b2 b3 b4 b5 b6 : a0 < 32 -> a1 < 8 -> a2 < 8 -> a3 < 8 -> a4 < 8 -> a5 < 4 -> a6 < 4 -> b0 < 32 -> b1 < 8 -> b2 < 8 -> b3 < 8 -> b4 < 8 -> b5 < 4 -> b6 < 4 -> a0 < b0 ->
  N.testbit (sub32 (enc a0 a1 a2 a3 a4 a5 a6) (enc b0 b1 b2 b3 b4 b5 b6)) 5 = true.
Proof.
  intros. destruct (lt_ex a0 b0 ltac:(assumption)) as [e ->].
  rewrite (testbit_top _ (0) (63 - e) ((1 * a1 + 16 * a2 + 256 * a3 + 4096 * a4 + 65536 * a5 + 524288 * a6 + 67108864 - (1 * b1 + 16 * b2 + 256 * b3 + 4096 * b4 + 65536 * b5 + 524288 * b6) - 1) mod 67108864) 0 5).
  - change (2 ^ 5) with 32. lia.
  - change (2 ^ 0) with 1. change (2 ^ (5 + 1)) with 64. unfold sub32, w32, enc.
    rewrite (N.mod_small ((a0 + e + 1) + 64 * b1 + 1024 * b2 + 16384 * b3 + 262144 * b4 + 4194304 * b5 + 33554432 * b6)) by lia. lia.
  - change (2 ^ 0) with 1. lia.
  - change (2 ^ (5 + 1)) with 64. lia.
Qed.
Lemma sup_fail1 a0 a1 a2 a3 a4 a5 a6 b0 b1 b2 b3 b4 b5 b6 : a0 < 32 -> a1 < 8 -> a2 < 8 -> a3 < 8 -> a4 < 8 -> a5 < 4 -> a6 < 4 -> b0 < 32 -> b1 < 8 -> b2 < 8 -> b3 < 8 -> b4 < 8 -> b5 < 4 -> b6 < 4 -> b0 <= a0 -> a1 < b1 ->
  N.testbit (sub32 (enc a0 a1 a2 a3 a4 a5 a6) (enc b0 b1 b2 b3 b4 b5 b6)) 9 = true.
Proof.
  intros. destruct (le_ex b0 a0 ltac:(assumption)) as [d0 ->]. destruct (lt_ex a1 b1 ltac:(assumption)) as [e ->].
  rewrite (testbit_top _ (1 * d0) (15 - e) ((1 * a2 + 16 * a3 + 256 * a4 + 4096 * a5 + 32768 * a6 + 4194304 - (1 * b2 + 16 * b3 + 256 * b4 + 4096 * b5 + 32768 * b6) - 1) mod 4194304) 6 3).
  - change (2 ^ 3) with 8. lia.
  - change (2 ^ 6) with 64. change (2 ^ (3 + 1)) with 16. unfold sub32, w32, enc.
    rewrite (N.mod_small (b0 + 64 * (a1 + e + 1) + 1024 * b2 + 16384 * b3 + 262144 * b4 + 4194304 * b5 + 33554432 * b6)) by lia. lia.
  - change (2 ^ 6) with 64. lia.
  - change (2 ^ (3 + 1)) with 16. lia.
Qed.
Lemma sup_fail2 a0 a1 a2 a3 a4 a5 a6 b0 b1 b2 b3 b4 b5 b6 : a0 < 32 -> a1 < 8 -> a2 < 8 -> a3 < 8 -> a4 < 8 -> a5 < 4 -> a6 < 4 -> b0 < 32 -> b1 < 8 -> b2 < 8 -> b3 < 8 -> b4 < 8 -> b5 < 4 -> b6 < 4 -> b0 <= a0 -> b1 <= a1 -> a2 < b2 ->
  N.testbit (sub32 (enc a0 a1 a2 a3 a4 a5 a6) (enc b0 b1 b2 b3 b4 b5 b6)) 13 = true.
Proof.
  intros. destruct (le_ex b0 a0 ltac:(assumption)) as [d0 ->]. destruct (le_ex b1 a1 ltac:(assumption)) as [d1 ->]. destruct (lt_ex a2 b2 ltac:(assumption)) as [e ->].
  rewrite (testbit_top _ (1 * d0 + 64 * d1) (15 - e) ((1 * a3 + 16 * a4 + 256 * a5 + 2048 * a6 + 262144 - (1 * b3 + 16 * b4 + 256 * b5 + 2048 * b6) - 1) mod 262144) 10 3).
  - change (2 ^ 3) with 8. lia.
  - change (2 ^ 10) with 1024. change (2 ^ (3 + 1)) with 16. unfold sub32, w32, enc.
    rewrite (N.mod_small (b0 + 64 * b1 + 1024 * (a2 + e + 1) + 16384 * b3 + 262144 * b4 + 4194304 * b5 + 33554432 * b6)) by lia. lia.
  - change (2 ^ 10) with 1024. lia.
  - change (2 ^ (3 + 1)) with 16. lia.
Qed.
Lemma sup_fail3 a0 a1 a2 a3 a4 a5 a6 b0 b1 b2 b3 b4 b5 b6 : a0 < 32 -> a1 < 8 -> a2 < 8 -> a3 < 8 -> a4 < 8 -> a5 < 4 -> a6 < 4 -> b0 < 32 -> b1 < 8 -> b2 < 8 -> b3 < 8 -> b4 < 8 -> b5 < 4 -> b6 < 4 -> b0 <= a0 -> b1 <= a1 -> b2 <= a2 -> a3 < b3 ->
  N.testbit (sub32 (enc a0 a1 a2 a3 a4 a5 a6) (enc b0 b1 b2 b3 b4 b5 b6)) 17 = true.
Proof.
  intros. destruct (le_ex b0 a0 ltac:(assumption)) as [d0 ->]. destruct (le_ex b1 a1 ltac:(assumption)) as [d1 ->]. destruct (le_ex b2 a2 ltac:(assumption)) as [d2 ->]. destruct (lt_ex a3 b3 ltac:(assumption)) as [e ->].
  rewrite (testbit_top _ (1 * d0 + 64 * d1 + 1024 * d2) (15 - e) ((1 * a4 + 16 * a5 + 128 * a6 + 16384 - (1 * b4 + 16 * b5 + 128 * b6) - 1) mod 16384) 14 3).
  - change (2 ^ 3) with 8. lia.
  - change (2 ^ 14) with 16384. change (2 ^ (3 + 1)) with 16. unfold sub32, w32, enc.
    rewrite (N.mod_small (b0 + 64 * b1 + 1024 * b2 + 16384 * (a3 + e + 1) + 262144 * b4 + 4194304 * b5 + 33554432 * b6)) by lia. lia.
  - change (2 ^ 14) with 16384. lia.
  - change (2 ^ (3 + 1)) with 16. lia.
Qed.
Lemma sup_fail4 a0 a1 a2 a3 a4 a5 a6 b0 b1 b2 b3 b4 b5 b6 : a0 < 32 -> a1 < 8 -> a2 < 8 -> a3 < 8 -> a4 < 8 -> a5 < 4 -> a6 < 4 -> b0 < 32 -> b1 < 8 -> b2 < 8 -> b3 < 8 -> b4 < 8 -> b5 < 4 -> b6 < 4 -> b0 <= a0 -> b1 <= a1 -> b2 <= a2 -> b3 <= a3 -> a4 < b4 ->
  N.testbit (sub32 (enc a0 a1 a2 a3 a4 a5 a6) (enc b0 b1 b2 b3 b4 b5 b6)) 21 = true.
Proof.
  intros. destruct (le_ex b0 a0 ltac:(assumption)) as [d0 ->]. destruct (le_ex b1 a1 ltac:(assumption)) as [d1 ->]. destruct (le_ex b2 a2 ltac:(assumption)) as [d2 ->]. destruct (le_ex b3 a3 ltac:(assumption)) as [d3 ->]. destruct (lt_ex a4 b4 ltac:(assumption)) as [e ->].
  rewrite (testbit_top _ (1 * d0 + 64 * d1 + 1024 * d2 + 16384 * d3) (15 - e) ((1 * a5 + 8 * a6 + 1024 - (1 * b5 + 8 * b6) - 1) mod 1024) 18 3).
  - change (2 ^ 3) with 8. lia.
  - change (2 ^ 18) with 262144. change (2 ^ (3 + 1)) with 16. unfold sub32, w32, enc.
    rewrite (N.mod_small (b0 + 64 * b1 + 1024 * b2 + 16384 * b3 + 262144 * (a4 + e + 1) + 4194304 * b5 + 33554432 * b6)) by lia. lia.
  - change (2 ^ 18) with 262144. lia.
  - change (2 ^ (3 + 1)) with 16. lia.
Qed.
Lemma sup_fail5 a0 a1 a2 a3 a4 a5 a6 b0 b1 b2 b3 b4 b5 b6 : a0 < 32 -> a1 < 8 -> a2 < 8 -> a3 < 8 -> a4 < 8 -> a5 < 4 -> a6 < 4 -> b0 < 32 -> b1 < 8 -> b2 < 8 -> b3 < 8 -> b4 < 8 -> b5 < 4 -> b6 < 4 -> b0 <= a0 -> b1 <= a1 -> b2 <= a2 -> b3 <= a3 -> b4 <= a4 -> a5 < b5 ->
  N.testbit (sub32 (enc a0 a1 a2 a3 a4 a5 a6) (enc b0 b1 b2 b3 b4 b5 b6)) 24 = true.
Proof.
  intros. destruct (le_ex b0 a0 ltac:(assumption)) as [d0 ->]. destruct (le_ex b1 a1 ltac:(assumption)) as [d1 ->]. destruct (le_ex b2 a2 ltac:(assumption)) as [d2 ->]. destruct (le_ex b3 a3 ltac:(assumption)) as [d3 ->]. destruct (le_ex b4 a4 ltac:(assumption)) as [d4 ->]. destruct (lt_ex a5 b5 ltac:(assumption)) as [e ->].
  rewrite (testbit_top _ (1 * d0 + 64 * d1 + 1024 * d2 + 16384 * d3 + 262144 * d4) (7 - e) ((1 * a6 + 128 - (1 * b6) - 1) mod 128) 22 2).
  - change (2 ^ 2) with 4. lia.
  - change (2 ^ 22) with 4194304. change (2 ^ (2 + 1)) with 8. unfold sub32, w32, enc.
    rewrite (N.mod_small (b0 + 64 * b1 + 1024 * b2 + 16384 * b3 + 262144 * b4 + 4194304 * (a5 + e + 1) + 33554432 * b6)) by lia. lia.
  - change (2 ^ 22) with 4194304. lia.
  - change (2 ^ (2 + 1)) with 8. lia.
Qed.
Lemma sup_fail6 a0 a1 a2 a3 a4 a5 a6 b0 b1 b2 b3 b4 b5 b6 : a0 < 32 -> a1 < 8 -> a2 < 8 -> a3 < 8 -> a4 < 8 -> a5 < 4 -> a6 < 4 -> b0 < 32 -> b1 < 8 -> b2 < 8 -> b3 < 8 -> b4 < 8 -> b5 < 4 -> b6 < 4 -> b0 <= a0 -> b1 <= a1 -> b2 <= a2 -> b3 <= a3 -> b4 <= a4 -> b5 <= a5 -> a6 < b6 ->
  N.testbit (sub32 (enc a0 a1 a2 a3 a4 a5 a6) (enc b0 b1 b2 b3 b4 b5 b6)) 27 = true.
Proof.
  intros. destruct (le_ex b0 a0 ltac:(assumption)) as [d0 ->]. destruct (le_ex b1 a1 ltac:(assumption)) as [d1 ->]. destruct (le_ex b2 a2 ltac:(assumption)) as [d2 ->]. destruct (le_ex b3 a3 ltac:(assumption)) as [d3 ->]. destruct (le_ex b4 a4 ltac:(assumption)) as [d4 ->]. destruct (le_ex b5 a5 ltac:(assumption)) as [d5 ->]. destruct (lt_ex a6 b6 ltac:(assumption)) as [e ->].
  rewrite (testbit_top _ (1 * d0 + 64 * d1 + 1024 * d2 + 16384 * d3 + 262144 * d4 + 4194304 * d5) (7 - e) ((0 + 16 - (0) - 1) mod 16) 25 2).
  - change (2 ^ 2) with 4. lia.
  - change (2 ^ 25) with 33554432. change (2 ^ (2 + 1)) with 8. unfold sub32, w32, enc.
    rewrite (N.mod_small (b0 + 64 * b1 + 1024 * b2 + 16384 * b3 + 262144 * b4 + 4194304 * b5 + 33554432 * (a6 + e + 1))) by lia. lia.
  - change (2 ^ 25) with 33554432. lia.
  - change (2 ^ (2 + 1)) with 8. lia.
Qed.
Lemma sup_ok a0 a1 a2 a3 a4 a5 a6 b0 b1 b2 b3 b4 b5 b6 : a0 < 32 -> a1 < 8 -> a2 < 8 -> a3 < 8 -> a4 < 8 -> a5 < 4 -> a6 < 4 -> b0 < 32 -> b1 < 8 -> b2 < 8 -> b3 < 8 -> b4 < 8 -> b5 < 4 -> b6 < 4 -> b0 <= a0 -> b1 <= a1 -> b2 <= a2 -> b3 <= a3 -> b4 <= a4 -> b5 <= a5 -> b6 <= a6 ->
  N.land (sub32 (enc a0 a1 a2 a3 a4 a5 a6) (enc b0 b1 b2 b3 b4 b5 b6)) borrowMask = 0.
Proof.
  intros. destruct (le_ex b0 a0 ltac:(assumption)) as [d0 ->]. destruct (le_ex b1 a1 ltac:(assumption)) as [d1 ->]. destruct (le_ex b2 a2 ltac:(assumption)) as [d2 ->]. destruct (le_ex b3 a3 ltac:(assumption)) as [d3 ->]. destruct (le_ex b4 a4 ltac:(assumption)) as [d4 ->]. destruct (le_ex b5 a5 ltac:(assumption)) as [d5 ->]. destruct (le_ex b6 a6 ltac:(assumption)) as [d6 ->].  rewrite sub32_small by (unfold enc; lia).
  replace (enc (b0 + d0) (b1 + d1) (b2 + d2) (b3 + d3) (b4 + d4) (b5 + d5) (b6 + d6) - enc b0 b1 b2 b3 b4 b5 b6) with (enc d0 d1 d2 d3 d4 d5 d6) by (unfold enc; lia).
  apply borrowMask_bits. repeat split.
  - rewrite (testbit_top _ (0) d0 (1 * d1 + 16 * d2 + 256 * d3 + 4096 * d4 + 65536 * d5 + 524288 * d6) 0 5); [change (2 ^ 5) with 32; lia|..];
      change (2 ^ 0) with 1; change (2 ^ (5 + 1)) with 64; unfold enc; lia.
  - rewrite (testbit_top _ (1 * d0) d1 (1 * d2 + 16 * d3 + 256 * d4 + 4096 * d5 + 32768 * d6) 6 3); [change (2 ^ 3) with 8; lia|..];
      change (2 ^ 6) with 64; change (2 ^ (3 + 1)) with 16; unfold enc; lia.
  - rewrite (testbit_top _ (1 * d0 + 64 * d1) d2 (1 * d3 + 16 * d4 + 256 * d5 + 2048 * d6) 10 3); [change (2 ^ 3) with 8; lia|..];
      change (2 ^ 10) with 1024; change (2 ^ (3 + 1)) with 16; unfold enc; lia.
  - rewrite (testbit_top _ (1 * d0 + 64 * d1 + 1024 * d2) d3 (1 * d4 + 16 * d5 + 128 * d6) 14 3); [change (2 ^ 3) with 8; lia|..];
      change (2 ^ 14) with 16384; change (2 ^ (3 + 1)) with 16; unfold enc; lia.
  - rewrite (testbit_top _ (1 * d0 + 64 * d1 + 1024 * d2 + 16384 * d3) d4 (1 * d5 + 8 * d6) 18 3); [change (2 ^ 3) with 8; lia|..];
      change (2 ^ 18) with 262144; change (2 ^ (3 + 1)) with 16; unfold enc; lia.
  - rewrite (testbit_top _ (1 * d0 + 64 * d1 + 1024 * d2 + 16384 * d3 + 262144 * d4) d5 (1 * d6) 22 2); [change (2 ^ 2) with 4; lia|..];
      change (2 ^ 22) with 4194304; change (2 ^ (2 + 1)) with 8; unfold enc; lia.
  - rewrite (testbit_top _ (1 * d0 + 64 * d1 + 1024 * d2 + 16384 * d3 + 262144 * d4 + 4194304 * d5) d6 (0) 25 2); [change (2 ^ 2) with 4; lia|..];
      change (2 ^ 25) with 33554432; change (2 ^ (2 + 1)) with 8; unfold enc; lia.
Qed.
Theorem isEqualOrSuperior_spec h r : handOk h -> handOk r ->
  (isEqualOrSuperior h r = true <-> forall hp, hp < 7 -> numOf r hp <= numOf h hp).
Proof.
  intros Hh Hr. unfold isEqualOrSuperior. rewrite N.eqb_eq. rewrite Hh, Hr.
  destruct (numOf_bounded h) as (A0 & A1 & A2 & A3 & A4 & A5 & A6). destruct (numOf_bounded r) as (B0 & B1 & B2 & B3 & B4 & B5 & B6).
  rewrite <- Hh, <- Hr. split.
  - intros H. rewrite Hh, Hr in H. apply borrowMask_bits in H. destruct H as (T0 & T1 & T2 & T3 & T4 & T5 & T6).
    assert (L0 : numOf r 0 <= numOf h 0).
    { destruct (N.le_gt_cases (numOf r 0) (numOf h 0)) as [|G]; [assumption|]. rewrite sup_fail0 in T0 by assumption. discriminate. }
    assert (L1 : numOf r 1 <= numOf h 1).
    { destruct (N.le_gt_cases (numOf r 1) (numOf h 1)) as [|G]; [assumption|]. rewrite sup_fail1 in T1 by assumption. discriminate. }
    assert (L2 : numOf r 2 <= numOf h 2).
    { destruct (N.le_gt_cases (numOf r 2) (numOf h 2)) as [|G]; [assumption|]. rewrite sup_fail2 in T2 by assumption. discriminate. }
    assert (L3 : numOf r 3 <= numOf h 3).
    { destruct (N.le_gt_cases (numOf r 3) (numOf h 3)) as [|G]; [assumption|]. rewrite sup_fail3 in T3 by assumption. discriminate. }
    assert (L4 : numOf r 4 <= numOf h 4).
    { destruct (N.le_gt_cases (numOf r 4) (numOf h 4)) as [|G]; [assumption|]. rewrite sup_fail4 in T4 by assumption. discriminate. }
    assert (L5 : numOf r 5 <= numOf h 5).
    { destruct (N.le_gt_cases (numOf r 5) (numOf h 5)) as [|G]; [assumption|]. rewrite sup_fail5 in T5 by assumption. discriminate. }
    assert (L6 : numOf r 6 <= numOf h 6).
    { destruct (N.le_gt_cases (numOf r 6) (numOf h 6)) as [|G]; [assumption|]. rewrite sup_fail6 in T6 by assumption. discriminate. }
    intros hp Hp. hpcases Hp; assumption.
  - intros H. rewrite Hh, Hr. apply sup_ok; try assumption; apply H; reflexivity.
Qed.

(* orEqual into an empty slot sets the slot *)
Lemma lor_add a b : N.land a b = 0 -> N.lor a b = a + b.
Proof. intros H. now rewrite N.add_nocarry_lxor, N.lxor_lor. Qed.
Lemma addN_spec h hp n : handOk h -> hp < 7 -> numOf h hp + n < 2 ^ handW hp ->
  handOk (w32 (h + n * handOne hp)) /\ forall hp', hp' < 7 -> numOf (w32 (h + n * handOne hp)) hp' = if hp =? hp' then numOf h hp' + n else numOf h hp'.
Proof.
  intros Ho Hp Hb. pose proof (numOf_bounded h) as B. pose proof (handOk_lt h Ho) as Hlt.
  assert (E : exists a0 a1 a2 a3 a4 a5 a6, bounded a0 a1 a2 a3 a4 a5 a6 /\ w32 (h + n * handOne hp) = enc a0 a1 a2 a3 a4 a5 a6 /\
    forall hp', hp' < 7 -> nthN 0 [a0; a1; a2; a3; a4; a5; a6] hp' = if hp =? hp' then numOf h hp' + n else numOf h hp').
  { set (f := fun i => numOf h i + (if hp =? i then n else 0)).
    exists (f 0), (f 1), (f 2), (f 3), (f 4), (f 5), (f 6). unfold f.
    assert (B' : bounded (f 0) (f 1) (f 2) (f 3) (f 4) (f 5) (f 6)).
    { unfold bounded in *. unfold f. clear Ho Hlt. hpcases Hp; cbv [handW nthN nth N.to_nat Pos.to_nat Pos.iter_op Init.Nat.add N.pow Pos.pow Pos.iter Pos.mul] in Hb; cbv [N.eqb Pos.eqb]; lia. }
    split; [exact B'|]. split.
    - unfold w32. rewrite N.mod_small; cycle 1.
      + pose proof (enc_lt _ _ _ _ _ _ _ B') as L. unfold f in L. unfold handOk in Ho.
        change (2 ^ 32) with 4294967296 in *. rewrite Ho. unfold enc in *. hpcases Hp; cbv [handOne nthN nth N.to_nat Pos.to_nat Pos.iter_op Init.Nat.add]; cbv [N.eqb Pos.eqb] in L; lia.
      + unfold handOk in Ho. rewrite Ho at 1. unfold enc. hpcases Hp; cbv [handOne nthN nth N.to_nat Pos.to_nat Pos.iter_op Init.Nat.add]; cbv [N.eqb Pos.eqb]; lia.
    - intros hp' H'. hpcases H'; cbv [nthN nth N.to_nat Pos.to_nat Pos.iter_op Init.Nat.add]; destruct (hp =? _); lia. }
  destruct E as (a0 & a1 & a2 & a3 & a4 & a5 & a6 & B' & -> & E). split; [now apply handOk_enc|].
  intros hp' H'. rewrite numOf_enc by auto. auto.
Qed.
Lemma orEqual_add h hp n : hp < 7 -> numOf h hp = 0 -> n < 2 ^ handW hp -> handOrEqual h n hp = w32 (h + n * handOne hp).
Proof.
  intros Hp H0 Hn. unfold handOrEqual. f_equal. rewrite lor_add.
  - f_equal. rewrite N.shiftl_mul_pow2. f_equal. hpcases Hp; reflexivity.
  - apply N.bits_inj. intros i. rewrite N.land_spec, N.bits_0. rewrite numOf_arith in H0 by auto. destruct (N.ltb_spec i (handShift hp)).
    + rewrite N.shiftl_spec_low by auto. apply andb_false_r.
    + rewrite N.shiftl_spec_high' by auto. destruct (N.ltb_spec (i - handShift hp) (handW hp)).
      * assert (T : N.testbit ((h / 2 ^ handShift hp) mod 2 ^ handW hp) (i - handShift hp) = false) by (rewrite H0; apply N.bits_0).
        rewrite N.mod_pow2_bits_low, N.div_pow2_bits in T by auto. replace (i - handShift hp + handShift hp) with i in T by lia. now rewrite T.
      * rewrite (lt_bits _ _ _ Hn) by auto. apply andb_false_r.
Qed.
Lemma orEqual_spec h hp n : handOk h -> hp < 7 -> numOf h hp = 0 -> n < 2 ^ handW hp ->
  handOk (handOrEqual h n hp) /\ forall hp', hp' < 7 -> numOf (handOrEqual h n hp) hp' = if hp =? hp' then n else numOf h hp'.
Proof.
  intros Ho Hp H0 Hn. rewrite orEqual_add by auto. destruct (addN_spec h hp n Ho Hp) as [A B]; [lia|]. split; auto.
  intros hp' H'. rewrite B by auto. destruct (N.eqb_spec hp hp'); subst; lia.
Qed.
