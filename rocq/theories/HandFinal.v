(* Hands as vectors of seven counters; bit primitives against their plain meaning. *)
From Verif Require Export HandProofs BitsProofs AttackProofs.
From Verif Require Import Bits Bitboard BitboardProofs.
Local Open Scope N_scope.

(* the most pieces a counter can hold, one more *)
Definition limit (hp : N) : N := nthN 0 [32; 8; 8; 8; 8; 4; 4] hp.
Definition counts (f : N -> N) : Prop := forall hp, hp < 7 -> f hp < limit hp.
(* a hand filled with f(0) .. f(6), as the setters of a position do *)
Definition packed (f : N -> N) : N := fold_left (fun h hp => handOrEqual h (f hp) hp) [0; 1; 2; 3; 4; 5; 6] 0.
Definition changed (f : N -> N) (hp n : N) : N -> N := fun i => if hp =? i then n else f i.

Lemma limit_pow hp : hp < 7 -> limit hp = 2 ^ handW hp.
Proof. intros H. destruct (hp_cases hp H) as [->|[->|[->|[->|[->|[->| ->]]]]]]; reflexivity. Qed.
Lemma packed_ok f : counts f -> handOk (packed f) /\ forall hp, hp < 7 -> numOf (packed f) hp = f hp.
Proof.
  intros C.
  assert (S : forall l h, NoDup l -> (forall hp, In hp l -> hp < 7) -> handOk h -> (forall hp, In hp l -> numOf h hp = 0) ->
    handOk (fold_left (fun h hp => handOrEqual h (f hp) hp) l h) /\
    forall hp, hp < 7 -> numOf (fold_left (fun h hp => handOrEqual h (f hp) hp) l h) hp = if existsb (N.eqb hp) l then f hp else numOf h hp).
  { induction l as [|a l IH]; intros h ND Lt Ok Z; [split; auto|]. cbn [fold_left]. inversion ND as [|? ? NI ND']; subst.
    destruct (orEqual_spec h a (f a) Ok) as [Ok' E]; [apply Lt; now left|apply Z; now left|rewrite <- limit_pow; [apply C|]; apply Lt; now left|].
    destruct (IH (handOrEqual h (f a) a) ND') as [O' E']; auto.
    - intros hp Hi. apply Lt. now right.
    - intros hp Hi. rewrite E by (apply Lt; now right). destruct (N.eqb_spec a hp) as [->|]; [contradiction|]. apply Z. now right.
    - split; auto. intros hp Hh. rewrite E', E by auto. cbn [existsb]. rewrite (N.eqb_sym hp a). destruct (N.eqb_spec a hp) as [->|]; cbn [orb]; [now destruct (existsb _ l)|reflexivity]. }
  destruct (S [0; 1; 2; 3; 4; 5; 6] 0) as [O E].
  - repeat constructor; cbn; intuition discriminate.
  - intros hp H. cbn in H. lia.
  - reflexivity.
  - intros hp H. destruct H as [<-|[<-|[<-|[<-|[<-|[<-|[<-|[]]]]]]]]; reflexivity.
  - split; [exact O|]. intros hp Hh. unfold packed. rewrite E by auto. destruct (hp_cases hp Hh) as [->|[->|[->|[->|[->|[->| ->]]]]]]; reflexivity.
Qed.
Lemma packed_read f : counts f -> forall hp, hp < 7 -> numOf (packed f) hp = f hp /\ numOfT (packed f) hp = f hp /\ (handExists (packed f) hp = true <-> 0 < f hp).
Proof.
  intros C hp H. destruct (packed_ok f C) as [O E]. split; [now apply E|]. split; [rewrite numOfT_num by auto; now apply E|]. rewrite handExists_num, E by auto. rewrite negb_true_iff, N.eqb_neq. lia.
Qed.
Lemma packed_inj f g : counts f -> counts g -> (packed f = packed g <-> forall hp, hp < 7 -> f hp = g hp).
Proof.
  intros C D. destruct (packed_ok f C) as [O E], (packed_ok g D) as [O' E']. split.
  - intros X hp H. rewrite <- E, <- E', X by auto. reflexivity.
  - intros X. apply handOk_ext; auto. intros hp H. rewrite E, E' by auto. auto.
Qed.
Lemma packed_plus f hp : counts f -> hp < 7 -> f hp + 1 < limit hp -> plusOne (packed f) hp = packed (changed f hp (f hp + 1)).
Proof.
  intros C H L. destruct (packed_ok f C) as [O E]. destruct (plusOne_spec (packed f) hp O H) as [O1 E1]; [rewrite E, <- limit_pow by auto; exact L|].
  assert (C' : counts (changed f hp (f hp + 1))) by (intros i Hi; unfold changed; destruct (N.eqb_spec hp i) as [<-|]; auto).
  destruct (packed_ok _ C') as [O2 E2]. apply handOk_ext; auto. intros i Hi. rewrite E1, E2, E by auto. unfold changed. destruct (N.eqb_spec hp i) as [<-|]; reflexivity.
Qed.
Lemma packed_minus f hp : counts f -> hp < 7 -> 0 < f hp -> minusOne (packed f) hp = packed (changed f hp (f hp - 1)).
Proof.
  intros C H L. destruct (packed_ok f C) as [O E]. destruct (minusOne_spec (packed f) hp O H) as [O1 E1]; [rewrite E by auto; exact L|].
  assert (C' : counts (changed f hp (f hp - 1))) by (intros i Hi; unfold changed; specialize (C i Hi); destruct (N.eqb_spec hp i) as [->|]; auto; lia).
  destruct (packed_ok _ C') as [O2 E2]. apply handOk_ext; auto. intros i Hi. rewrite E1, E2, E by auto. unfold changed. destruct (N.eqb_spec hp i) as [<-|]; reflexivity.
Qed.
Lemma packed_superior f g : counts f -> counts g -> (isEqualOrSuperior (packed f) (packed g) = true <-> forall hp, hp < 7 -> g hp <= f hp).
Proof.
  intros C D. destruct (packed_ok f C) as [O E], (packed_ok g D) as [O' E']. rewrite isEqualOrSuperior_spec by auto. split; intros X hp H; specialize (X hp H); [now rewrite E, E' in X|now rewrite E, E'].
Qed.
Lemma exceptPawn_or h : exceptPawnExists h = handExists h 1 || handExists h 2 || handExists h 3 || handExists h 4 || handExists h 5 || handExists h 6.
Proof.
  unfold exceptPawnExists, handExists. assert (E : exceptPawnMask = N.lor (handMask 1) (N.lor (handMask 2) (N.lor (handMask 3) (N.lor (handMask 4) (N.lor (handMask 5) (handMask 6)))))) by reflexivity.
  rewrite E. rewrite !N.land_lor_distr_r. generalize (N.land h (handMask 1)) (N.land h (handMask 2)) (N.land h (handMask 3)) (N.land h (handMask 4)) (N.land h (handMask 5)) (N.land h (handMask 6)).
  intros a b c d e f. apply eq_true_iff_eq. rewrite !orb_true_iff, !negb_true_iff, !N.eqb_neq. split.
  - intros H. destruct (N.eq_dec a 0) as [->|]; [|tauto]. destruct (N.eq_dec b 0) as [->|]; [|tauto]. destruct (N.eq_dec c 0) as [->|]; [|tauto]. destruct (N.eq_dec d 0) as [->|]; [|tauto].
    destruct (N.eq_dec e 0) as [->|]; [|tauto]. destruct (N.eq_dec f 0) as [->|]; [|tauto]. now elim H.
  - intros H X. rewrite !N.lor_eq_0_iff in X. tauto.
Qed.
Lemma packed_other f : counts f -> (exceptPawnExists (packed f) = true <-> exists hp, 1 <= hp < 7 /\ 0 < f hp).
Proof.
  intros C. rewrite exceptPawn_or, !orb_true_iff. rewrite !(fun hp H => proj2 (proj2 (packed_read f C hp H))) by lia. split.
  - intros [[[[[H|H]|H]|H]|H]|H]; [exists 1|exists 2|exists 3|exists 4|exists 5|exists 6]; (split; [lia|exact H]).
  - intros (hp & R & H). assert (X : hp = 1 \/ hp = 2 \/ hp = 3 \/ hp = 4 \/ hp = 5 \/ hp = 6) by lia. destruct X as [->|[->|[->|[->|[->| ->]]]]]; tauto.
Qed.

(* ---- bits ---- *)
Definition bit_count (x : N) : N := N.of_nat (length (filter (N.testbit x) (seqN 0 64))).
Lemma seqN_succ n : forall a, seqN (a + 1) n = map N.succ (seqN a n).
Proof. induction n as [|n IH]; intros a; [reflexivity|]. cbn [seqN map]. rewrite IH. f_equal. lia. Qed.
Lemma seqN_S a n : seqN a (S n) = a :: map N.succ (seqN a n).
Proof. cbn [seqN]. now rewrite seqN_succ. Qed.
Lemma popcount_bits n : forall x, x < 2 ^ N.of_nat n -> popcount x = N.of_nat (length (filter (N.testbit x) (seqN 0 n))).
Proof.
  induction n as [|n IH]; intros x H.
  - replace x with 0 by (cbn in H; lia). reflexivity.
  - rewrite seqN_S. cbn [filter]. assert (F : length (filter (N.testbit x) (map N.succ (seqN 0 n))) = length (filter (N.testbit (N.div2 x)) (seqN 0 n))).
    { generalize (seqN 0 n). intros l. induction l as [|a l IHl]; [reflexivity|]. cbn [map filter]. rewrite N.div2_spec, N.shiftr_spec' in *. rewrite N.add_1_r. destruct (N.testbit x (N.succ a)); cbn [length]; congruence. }
    assert (Hd : N.div2 x < 2 ^ N.of_nat n). { replace (N.of_nat (S n)) with (N.succ (N.of_nat n)) in H by lia. rewrite N.pow_succ_r' in H. rewrite N.div2_div. apply N.div_lt_upper_bound; lia. }
    specialize (IH _ Hd). pose proof (N.div2_odd x) as E. rewrite N.bit0_odd. destruct (N.odd x); cbn [N.b2n] in E.
    + cbn [length]. rewrite F. rewrite E at 1. rewrite popcount_21. lia.
    + rewrite F. rewrite E at 1. rewrite N.add_0_r, popcount_2. lia.
Qed.
Lemma count1s_meaning x : x < 2 ^ 64 -> count1s x = bit_count x /\ count1s_portable x = bit_count x.
Proof.
  intros H. pose proof (popcount_bits 64 x H) as E. split; [exact E|]. now rewrite count1s_portable_ok.
Qed.
Lemma ctz_pos_bits p : N.testbit (Npos p) (ctz_pos p) = true /\ forall i, i < ctz_pos p -> N.testbit (Npos p) i = false.
Proof.
  induction p as [p IH|p IH|]; cbn [ctz_pos]; try (split; [reflexivity|intros i Hi; lia]).
  change (N.pos p~0) with (2 * N.pos p). destruct IH as [A B].
  replace (1 + ctz_pos p) with (N.succ (ctz_pos p)) by lia. split; [now rewrite N.testbit_even_succ by lia|].
  intros i Hi. destruct (N.eq_dec i 0) as [->|Nz]; [apply N.testbit_even_0|]. replace i with (N.succ (N.pred i)) by lia. rewrite N.testbit_even_succ by lia. apply B. lia.
Qed.
Definition lowest_bit (x i : N) : Prop := N.testbit x i = true /\ forall j, j < i -> N.testbit x j = false.
Lemma firstOne_meaning x : x <> 0 -> x < 2 ^ 64 -> lowest_bit x (firstOneFromLSB x) /\ lowest_bit x (firstOneFromLSB_portable x).
Proof.
  intros Nz H. rewrite firstOne_portable_ok by auto. assert (L : lowest_bit x (firstOneFromLSB x)) by (destruct x as [|p]; [contradiction|apply ctz_pos_bits]). auto.
Qed.
