(* Bit streams as lists of bits; writing and reading codes. *)
From Verif Require Import Packed ClaimProofs SetProofs HandProofs DoMoveProofs.
Local Open Scope N_scope.

Definition byteBits (x : N) : list bool := map (N.testbit x) (seqN 0 8).
Definition allBits (d : list N) : list bool := flat_map byteBits d.
Lemma length_allBits d : length (allBits d) = (8 * length d)%nat.
Proof. induction d as [|x d IH]; [reflexivity|]. unfold allBits in *. cbn [flat_map]. rewrite app_length, IH. cbn [byteBits map seqN length]. lia. Qed.
Lemma seq8_nth k : (k < 8)%nat -> nth k (seqN 0 8) 0 = N.of_nat k.
Proof. intros H. do 8 (destruct k as [|k]; [reflexivity|]). lia. Qed.
Lemma nth_byteBits x k : (k < 8)%nat -> nth k (byteBits x) false = N.testbit x (N.of_nat k).
Proof. intros H. unfold byteBits. rewrite (nth_indep _ false (N.testbit x 0)) by (rewrite map_length, length_seqN; lia). rewrite map_nth. now rewrite seq8_nth. Qed.
Lemma nth_allBits d : forall i k, (k < 8)%nat -> nth (8 * i + k) (allBits d) false = N.testbit (nth i d 0) (N.of_nat k).
Proof.
  induction d as [|x d IH]; intros i k Hk.
  - destruct (8 * i + k)%nat; destruct i; cbn [allBits flat_map nth]; now rewrite N.bits_0.
  - unfold allBits in *. cbn [flat_map]. destruct i as [|i].
    + rewrite app_nth1 by (cbn; lia). cbn [nth]. now apply nth_byteBits.
    + rewrite app_nth2 by (cbn [byteBits map seqN length]; lia). cbn [byteBits map seqN length nth]. replace (8 * S i + k - 8)%nat with (8 * i + k)%nat by lia. now apply IH.
Qed.

(* ---- the position of a stream ---- *)
Definition at_bit (s : Stream) : nat := (8 * N.to_nat (spos s) + N.to_nat (scurr s))%nat.
Definition okStream (s : Stream) : Prop := scurr s < 8 /\ (at_bit s <= 8 * length (sdata s))%nat.
Definition remaining (s : Stream) : list bool := skipn (at_bit s) (allBits (sdata s)).
Lemma advance_ok d s : okStream s -> spos s < sLen s -> length d = length (sdata s) -> sdata (advance d s) = d /\ at_bit (advance d s) = S (at_bit s) /\ okStream (advance d s).
Proof.
  intros [C L] P E. unfold advance, okStream, at_bit, sLen in *. destruct (N.eqb_spec (scurr s + 1) 8); cbn [sdata spos scurr]; rewrite ?E; repeat split; lia.
Qed.
Lemma skipn_cons (l : list bool) i : (i < length l)%nat -> skipn i l = nth i l false :: skipn (S i) l.
Proof. revert i. induction l as [|x l IH]; intros [|i] H; cbn [length] in H; try lia; [reflexivity|]. cbn [skipn nth]. apply IH. lia. Qed.
Lemma bit_land x k : (if N.land x (N.shiftl 1 k) =? 0 then 0 else 1) = N.b2n (N.testbit x k).
Proof.
  destruct (N.testbit x k) eqn:E; destruct (N.eqb_spec (N.land x (N.shiftl 1 k)) 0) as [Z|Z]; try reflexivity.
  - apply (f_equal (fun y => N.testbit y k)) in Z. rewrite N.land_spec, N.shiftl_spec_high', N.sub_diag, E, N.bits_0 in Z by lia. discriminate.
  - exfalso. apply Z. apply N.bits_inj. intros j. rewrite N.land_spec, N.bits_0. destruct (N.eq_dec j k) as [->|D]; [now rewrite E|]. apply andb_false_iff. right.
    destruct (N.lt_ge_cases j k); [now rewrite N.shiftl_spec_low|]. rewrite N.shiftl_spec_high' by auto. apply N.bits_above_log2. change (N.log2 1) with 0. lia.
Qed.
Lemma getBit_end s : okStream s -> remaining s = [] -> getBit s = None /\ spos s = sLen s.
Proof.
  intros [C L] R. unfold remaining in R. apply (f_equal (@length bool)) in R. rewrite skipn_length, length_allBits in R. cbn [length] in R. unfold at_bit in *.
  assert (E : spos s = sLen s) by (unfold sLen; lia). split; [|exact E]. unfold getBit. destruct (N.ltb_spec (spos s) (sLen s)); [lia|reflexivity].
Qed.
Lemma getBit_more s b l : okStream s -> remaining s = b :: l -> exists s', getBit s = Some (N.b2n b, s') /\ remaining s' = l /\ okStream s' /\ sdata s' = sdata s /\ spos s <> sLen s.
Proof.
  intros O R. assert (Lt : (at_bit s < length (allBits (sdata s)))%nat).
  { apply (f_equal (@length bool)) in R. unfold remaining in R. rewrite skipn_length in R. cbn [length] in R. lia. }
  rewrite length_allBits in Lt. pose proof O as [C L]. assert (P : spos s < sLen s) by (unfold sLen, at_bit in *; lia).
  destruct (advance_ok (sdata s) s O P eq_refl) as (A & B & D). exists (advance (sdata s) s). unfold getBit. destruct (N.ltb_spec (spos s) (sLen s)); [|lia].
  assert (Eb : nth (at_bit s) (allBits (sdata s)) false = N.testbit (nthN 0 (sdata s) (spos s)) (scurr s)).
  { unfold at_bit. rewrite nth_allBits by lia. unfold nthN. now rewrite N2Nat.id. }
  unfold remaining in R. rewrite skipn_cons in R by (rewrite length_allBits; lia). injection R as Rb Rl.
  split; [|split; [|split; [exact D|split; [exact A|lia]]]].
  - rewrite bit_land, <- Eb, Rb. reflexivity.
  - unfold remaining. now rewrite A, B.
Qed.

(* ---- getBits ---- *)
Fixpoint bitsN (l : list bool) : N := match l with [] => 0 | b :: l => N.b2n b + 2 * bitsN l end.
Definition codeBits (c : N) (n : nat) : list bool := map (N.testbit c) (seqN 0 n).
Lemma codeBits_S c n : codeBits c (S n) = N.testbit c 0 :: codeBits (N.shiftr c 1) n.
Proof.
  unfold codeBits. cbn [seqN map]. f_equal. change (0 + 1) with 1. assert (G : forall n i, map (N.testbit c) (seqN (i + 1) n) = map (N.testbit (N.shiftr c 1)) (seqN i n)).
  { clear. induction n as [|n IH]; intros i; [reflexivity|]. cbn [seqN map]. rewrite IH. f_equal. rewrite N.shiftr_spec by lia. reflexivity. }
  apply (G n 0).
Qed.
Lemma bitsN_code n : forall c, c < 2 ^ N.of_nat n -> bitsN (codeBits c n) = c.
Proof.
  induction n as [|n IH]; intros c H; [change (N.of_nat 0) with 0 in H; cbn; lia|].
  rewrite codeBits_S. cbn [bitsN]. rewrite IH.
  - rewrite N.shiftr_div_pow2. change (2 ^ 1) with 2. rewrite N.bit0_mod. pose proof (N.div_mod c 2 ltac:(lia)). lia.
  - rewrite N.shiftr_div_pow2. change (2 ^ 1) with 2. rewrite Nat2N.inj_succ, N.pow_succ_r' in H. apply N.div_lt_upper_bound; lia.
Qed.
Lemma lor_add a b i : a < 2 ^ i -> N.lor a (N.shiftl b i) = a + b * 2 ^ i.
Proof.
  intros H. rewrite <- N.shiftl_mul_pow2. symmetry. rewrite N.add_comm, N.lor_comm.
  assert (Z : N.land (N.shiftl b i) a = 0).
  { apply N.bits_inj. intros j. rewrite N.land_spec, N.bits_0. destruct (N.lt_ge_cases j i); [now rewrite N.shiftl_spec_low|]. apply andb_false_iff. right.
    destruct (N.eq_dec a 0) as [->|Na]; [apply N.bits_0|]. apply N.bits_above_log2. apply N.log2_lt_pow2 in H; lia. }
  rewrite N.add_nocarry_lxor by exact Z. now apply N.lxor_lor.
Qed.
Lemma getBitsFrom_spec l : forall s i acc r, okStream s -> acc < 2 ^ i -> remaining s = l ++ r ->
  exists s', getBitsFrom s i (length l) acc = Some (acc + bitsN l * 2 ^ i, s') /\ remaining s' = r /\ okStream s' /\ sdata s' = sdata s.
Proof.
  induction l as [|b l IH]; intros s i acc r O A R; cbn [length getBitsFrom bitsN app] in *.
  - exists s. split; [f_equal; f_equal; lia|auto].
  - destruct (getBit_more s b _ O R) as (s' & G & R' & O' & D & _). rewrite G. rewrite lor_add by auto.
    destruct (IH s' (i + 1) (acc + N.b2n b * 2 ^ i) r O') as (s'' & E & R'' & O'' & D''); [rewrite N.pow_add_r; change (2 ^ 1) with 2; destruct b; cbn [N.b2n]; lia|exact R'|].
    exists s''. rewrite E. split; [|split; [auto|split; [auto|congruence]]]. do 2 f_equal. rewrite N.pow_add_r. change (2 ^ 1) with 2. lia.
Qed.
Lemma length_codeBits c n : length (codeBits c n) = n.
Proof. unfold codeBits. now rewrite map_length, length_seqN. Qed.
Lemma getBits_code s c n r : okStream s -> c < 2 ^ N.of_nat n -> remaining s = codeBits c n ++ r ->
  exists s', getBits s n = Some (c, s') /\ remaining s' = r /\ okStream s' /\ sdata s' = sdata s.
Proof.
  intros O H R. destruct (getBitsFrom_spec (codeBits c n) s 0 0 r O ltac:(change (2 ^ 0) with 1; lia) R) as (s' & E & X). exists s'. split; [|exact X].
  rewrite length_codeBits in E. unfold getBits. rewrite E. rewrite bitsN_code by auto. do 2 f_equal. change (2 ^ 0) with 1. lia.
Qed.

(* ---- writing ---- *)
Record written (n : nat) (l : list bool) (s : Stream) : Prop := {
  w_len : length (sdata s) = n;
  w_at : at_bit s = length l;
  w_ok : okStream s;
  w_bytes : Forall (fun x => x < 256) (sdata s);
  w_bits : allBits (sdata s) = l ++ repeat false (8 * n - length l)
}.
Lemma nth_snoc_false l b k m : nth k ((l ++ [b]) ++ repeat false m) false = if Nat.eqb k (length l) then b else nth k (l ++ repeat false (S m)) false.
Proof.
  rewrite <- app_assoc. destruct (Nat.eqb_spec k (length l)) as [->|D].
  - rewrite app_nth2 by lia. now rewrite Nat.sub_diag.
  - destruct (Nat.lt_ge_cases k (length l)); [now rewrite !app_nth1 by auto|]. rewrite (app_nth2 l ([b] ++ repeat false m)), (app_nth2 l (repeat false (S m))) by auto. destruct (k - length l)%nat as [|j] eqn:E; [lia|]. reflexivity.
Qed.
Lemma putBit_spec n l s b : written n l s -> if Nat.ltb (length l) (8 * n) then exists s', putBit s (N.b2n b) = Some s' /\ written n (l ++ [b]) s' else putBit s (N.b2n b) = None.
Proof.
  intros [Ln At O By Bi]. pose proof O as [C L]. unfold putBit. destruct (Nat.ltb_spec (length l) (8 * n)) as [H|H].
  - assert (P : spos s < sLen s) by (unfold sLen, at_bit in *; lia). destruct (N.ltb_spec (spos s) (sLen s)); [|lia].
    set (x := N.lor _ _). assert (LU : length (updN (sdata s) (spos s) x) = length (sdata s)) by apply length_updN.
    destruct (advance_ok _ s O P LU) as (A & B & D). eexists. split; [reflexivity|]. constructor.
    + now rewrite A, LU.
    + rewrite B, app_length, At. cbn. lia.
    + exact D.
    + rewrite A. apply Forall_forall. intros y Hy. apply (In_nth _ _ 0) in Hy as (i & Hi & <-). rewrite LU in Hi. unfold updN.
      rewrite Forall_forall in By. destruct (Nat.eq_dec (N.to_nat (spos s)) i) as [<-|Ne].
      * rewrite nth_upd_nat_eq by lia. unfold x. assert (Hx : nthN 0 (sdata s) (spos s) < 256) by (apply By; apply nth_In; lia).
        assert (Hb : N.shiftl (N.b2n b) (scurr s) < 256) by (rewrite N.shiftl_mul_pow2; assert (2 ^ scurr s <= 2 ^ 7) by (apply N.pow_le_mono_r; lia); change (2 ^ 7) with 128 in *; destruct b; cbn [N.b2n]; lia).
        apply (N.div_small_iff _ 256); [lia|]. change 256 with (2 ^ 8) in *. rewrite <- N.shiftr_div_pow2, N.shiftr_lor, !N.shiftr_div_pow2. now rewrite !N.div_small by auto.
      * rewrite nth_upd_nat_neq by auto. apply By, nth_In, Hi.
    + rewrite A. apply (nth_ext _ _ false false); [rewrite length_allBits, LU, Ln, !app_length, repeat_length; cbn [length]; lia|].
      intros k Hk. rewrite length_allBits, LU, Ln in Hk. rewrite app_length. cbn [length]. rewrite nth_snoc_false.
      replace (S (8 * n - (length l + 1))) with (8 * n - length l)%nat by lia. rewrite <- Bi.
      pose proof (Nat.div_mod k 8 ltac:(lia)) as K. pose proof (Nat.mod_upper_bound k 8 ltac:(lia)) as M. rewrite K at 1 3. rewrite !nth_allBits by auto. unfold updN.
      destruct (Nat.eqb_spec k (length l)) as [->|Ne].
      * rewrite <- At in *. unfold at_bit in *. assert (E1 : ((8 * N.to_nat (spos s) + N.to_nat (scurr s)) / 8 = N.to_nat (spos s))%nat) by (symmetry; apply (Nat.div_unique _ 8 _ (N.to_nat (scurr s))); lia).
        assert (E2 : ((8 * N.to_nat (spos s) + N.to_nat (scurr s)) mod 8 = N.to_nat (scurr s))%nat) by (symmetry; apply (Nat.mod_unique _ 8 (N.to_nat (spos s))); lia).
        rewrite E1, E2, N2Nat.id. rewrite nth_upd_nat_eq by lia. unfold x. rewrite N.lor_spec, N.shiftl_spec_high', N.sub_diag by lia.
        assert (Z : N.testbit (nthN 0 (sdata s) (spos s)) (scurr s) = false).
        { unfold nthN. pose proof (nth_allBits (sdata s) (N.to_nat (spos s)) (N.to_nat (scurr s)) ltac:(lia)) as Q. rewrite N2Nat.id in Q. rewrite <- Q, Bi, app_nth2 by lia. apply nth_repeat. }
        rewrite Z. now destruct b.
      * destruct (Nat.eq_dec (N.to_nat (spos s)) (k / 8)) as [Eq|Nq]; [|now rewrite nth_upd_nat_neq by auto].
        rewrite <- Eq. rewrite nth_upd_nat_eq by lia. unfold x. rewrite N.lor_spec. fold (nthN 0 (sdata s) (spos s)). rewrite <- (orb_false_r (N.testbit (nthN _ _ _) _)) at 2. f_equal.
        assert (Dm : N.of_nat (k mod 8) <> scurr s) by (intros Q; apply Ne; rewrite <- At; unfold at_bit; lia).
        destruct (N.lt_ge_cases (N.of_nat (k mod 8)) (scurr s)); [now rewrite N.shiftl_spec_low|]. rewrite N.shiftl_spec_high' by auto.
        destruct b; cbn [N.b2n]; [|apply N.bits_0]. apply N.bits_above_log2. change (N.log2 1) with 0. lia.
  - assert (Le : (length l <= 8 * n)%nat) by (unfold at_bit in *; lia). unfold sLen. destruct (N.ltb_spec (spos s) (N.of_nat (length (sdata s)))); [|reflexivity]. unfold at_bit in *. lia.
Qed.
(* a run of bits *)
Definition putList (s : option Stream) (l : list bool) : option Stream := fold_left (fun s b => match s with Some s => putBit s (N.b2n b) | None => None end) l s.
Lemma putList_app s l l' : putList s (l ++ l') = putList (putList s l) l'.
Proof. apply fold_left_app. Qed.
Lemma putList_none l : putList None l = None.
Proof. induction l; auto. Qed.
Lemma putBits_list n : forall s c, putBits s c n = putList s (codeBits c n).
Proof.
  induction n as [|n IH]; intros s c; [reflexivity|]. cbn [putBits]. rewrite codeBits_S. cbn [putList fold_left]. rewrite IH. unfold putList. do 2 f_equal.
  destruct s as [s|]; [|reflexivity]. f_equal. change 1 with (N.ones 1). rewrite N.land_ones. change (2 ^ 1) with 2. now rewrite N.bit0_mod.
Qed.
Lemma putList_spec x : forall n l s, written n l s -> if Nat.leb (length l + length x) (8 * n) then exists s', putList (Some s) x = Some s' /\ written n (l ++ x) s' else putList (Some s) x = None.
Proof.
  induction x as [|b x IH]; intros n l s W.
  - cbn [length putList fold_left]. rewrite app_nil_r, Nat.add_0_r. destruct (Nat.leb_spec (length l) (8 * n)) as [H|H]; [eauto|]. destruct W as [A B [_ O] _ _]. lia.
  - pose proof (putBit_spec n l s b W) as P. cbn [putList fold_left]. cbn [length]. destruct (Nat.ltb_spec (length l) (8 * n)) as [H|H].
    + destruct P as (s' & -> & W'). specialize (IH n _ s' W'). rewrite app_length in IH. cbn [length] in IH. replace (length l + S (length x))%nat with (length l + 1 + length x)%nat by lia.
      rewrite <- app_assoc in IH. exact IH.
    + rewrite P. destruct (Nat.leb_spec (length l + S (length x)) (8 * n)); [lia|]. apply putList_none.
Qed.
Lemma written_start n : written n [] (mkStream (repeat 0 n) 0 0).
Proof.
  constructor; cbn [sdata].
  - apply repeat_length.
  - reflexivity.
  - split; cbn; lia.
  - apply Forall_forall. intros x H. apply repeat_spec in H. subst. lia.
  - cbn [app length]. rewrite Nat.sub_0_r. induction n as [|n IH]; [reflexivity|]. cbn [repeat]. unfold allBits in *. cbn [flat_map]. rewrite IH. replace (8 * S n)%nat with (8 + 8 * n)%nat by lia. reflexivity.
Qed.
