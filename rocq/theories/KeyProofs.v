(* Zobrist keys: the incrementally maintained keys equal the keys computed from scratch. *)
From Verif Require Export UndoProofs.
Open Scope Z_scope.

Definition W64 : Z := 18446744073709551616.
(* every table word is even: initZobrist clears bit 0 (position.cpp:2813-2827) *)
Definition okZob (z : Zob) : Prop := forall pt s c, N.even (zPiece z pt s c) = true.

Lemma w64_mod x : Z.of_N (w64 x) = Z.of_N x mod W64.
Proof. unfold w64. rewrite N2Z.inj_mod. reflexivity. Qed.
Lemma add64_Z a b : Z.of_N (add64 a b) = (Z.of_N a + Z.of_N b) mod W64.
Proof. unfold add64. rewrite w64_mod. f_equal. lia. Qed.
Lemma sub64_Z a b : Z.of_N (sub64 a b) = (Z.of_N a - Z.of_N b) mod W64.
Proof.
  unfold sub64. rewrite w64_mod. assert (H : (w64 b < 18446744073709551616)%N) by (unfold w64; apply N.mod_lt; discriminate).
  rewrite N2Z.inj_sub by lia. rewrite N2Z.inj_add, w64_mod.
  replace (Z.of_N a + Z.of_N 18446744073709551616 - Z.of_N b mod W64) with (Z.of_N a - Z.of_N b mod W64 + 1 * W64) by (unfold W64; lia).
  rewrite Z.mod_add by discriminate. apply Zminus_mod_idemp_r.
Qed.

(* sum of the board words *)
Definition bval (z : Zob) (s pc : N) : Z := if (pc =? 0)%N then 0 else Z.of_N (zPiece z (ptOf pc) s (colorOf pc)).
Definition bsum (z : Zob) (bd : list N) : Z := sumZ (fun s => bval z s (at_ bd s)) squares.
Definition hval (z : Zob) (hs : list N) (hp : N) : Z :=
  Z.of_N (numOf (nthN 0%N hs 0) hp) * Z.of_N (zHand z hp 0) + Z.of_N (numOf (nthN 0%N hs 1) hp) * Z.of_N (zHand z hp 1).
Definition hps : list N := [0; 1; 2; 3; 4; 5; 6]%N.
Definition hsum (z : Zob) (hs : list N) : Z := sumZ (hval z hs) hps.

Lemma foldBoard z p l acc : Z.of_N (fold_left (fun acc sq => let pc := pieceAt p sq in
    if negb (pc =? Empty)%N then add64 acc (zPiece z (ptOf pc) sq (colorOf pc)) else acc) l acc) mod W64
  = (Z.of_N acc + sumZ (fun s => bval z s (at_ (board p) s)) l) mod W64.
Proof.
  revert acc. induction l as [|a l IH]; intros acc; cbn [fold_left sumZ]; [f_equal; lia|]. rewrite IH. cbv zeta.
  generalize (sumZ (fun s => bval z s (at_ (board p) s)) l) as R. intros R. unfold bval. change (at_ (board p) a) with (pieceAt p a). unfold Empty. destruct (pieceAt p a =? 0)%N; cbn [negb]; [f_equal; lia|].
  rewrite add64_Z. rewrite Zplus_mod_idemp_l. f_equal. lia.
Qed.
Lemma foldBoard_lt z p l acc : (acc < 18446744073709551616)%N -> (fold_left (fun acc sq => let pc := pieceAt p sq in
    if negb (pc =? Empty)%N then add64 acc (zPiece z (ptOf pc) sq (colorOf pc)) else acc) l acc < 18446744073709551616)%N.
Proof.
  revert acc. induction l as [|a l IH]; intros acc H; cbn [fold_left]; auto. apply IH. cbv zeta. destruct (negb _); auto.
  unfold add64. unfold w64. apply N.mod_lt. discriminate.
Qed.
Lemma bsum_even z bd l : okZob z -> Z.even (sumZ (fun s => bval z s (at_ bd s)) l) = true.
Proof.
  intros E. induction l as [|a l IH]; [reflexivity|]. cbn [sumZ]. rewrite Z.even_add, IH. unfold bval. destruct (at_ bd a =? 0)%N; [reflexivity|].
  specialize (E (ptOf (at_ bd a)) a (colorOf (at_ bd a))). destruct (zPiece z _ _ _) as [|[| |]]; cbn in *; congruence.
Qed.
Lemma mod_even x : Z.even x = true -> Z.even (x mod W64) = true.
Proof. intros H. rewrite Z.mod_eq by discriminate. rewrite Z.even_sub, H. unfold W64. rewrite Z.even_mul. reflexivity. Qed.
Lemma evenN_Z x : 0 <= x -> Z.even x = true -> N.even (Z.to_N x) = true.
Proof. destruct x as [|[| |]|]; cbn; intros; try congruence; lia. Qed.
Lemma lxor_even_1 a : N.even a = true -> N.lxor a 1 = (a + 1)%N.
Proof. intros H. destruct a as [|[q|q|]]; cbn in *; try discriminate; reflexivity. Qed.
Lemma lxor_1_1 a : N.lxor (N.lxor a 1) 1 = a.
Proof. rewrite N.lxor_assoc, N.lxor_nilpotent. apply N.lxor_0_r. Qed.

Lemma computeBoardKey_Z z p : okZob z -> (turn p < 2)%N ->
  Z.of_N (computeBoardKey z p) = bsum z (board p) mod W64 + Z.of_N (turn p).
Proof.
  intros E Ht. unfold computeBoardKey. cbv zeta.
  pose proof (foldBoard z p squares 0%N) as F. pose proof (foldBoard_lt z p squares 0%N eq_refl) as L. fold (bsum z (board p)) in F.
  match goal with |- context [fold_left ?f squares 0%N] => set (r := fold_left f squares 0%N) in * end.
  rewrite Z.mod_small in F by (unfold W64; lia). cbn [Z.of_N] in F. rewrite Z.add_0_l in F.
  assert (Ev : N.even r = true).
  { rewrite <- N2Z.id with (n := r). rewrite F. pose proof (mod_even _ (bsum_even z (board p) squares E)) as Q. fold (bsum z (board p)) in Q.
    assert (0 <= bsum z (board p) mod W64) by (apply Z.mod_pos_bound; reflexivity).
    now apply evenN_Z. }
  unfold White, zobTurn. destruct (N.eqb_spec (turn p) 1) as [->|].
  - rewrite lxor_even_1 by auto. lia.
  - assert (turn p = 0)%N as -> by lia. lia.
Qed.

Lemma iter_add64 z hp c n acc : Z.of_N (N.iter n (fun a => add64 a (zHand z hp c)) acc) mod W64 = (Z.of_N acc + Z.of_N n * Z.of_N (zHand z hp c)) mod W64.
Proof.
  induction n using N.peano_ind; [cbn; f_equal; lia|]. rewrite N.iter_succ. rewrite add64_Z, Zmod_mod, <- Zplus_mod_idemp_l, IHn, Zplus_mod_idemp_l. f_equal. lia.
Qed.
Lemma iter_lt z hp c n acc : (acc < 18446744073709551616)%N -> (N.iter n (fun a => add64 a (zHand z hp c)) acc < 18446744073709551616)%N.
Proof. intros H. induction n using N.peano_ind; [exact H|]. rewrite N.iter_succ. unfold add64 at 1. unfold w64. apply N.mod_lt. discriminate. Qed.
Lemma computeHandKey_Z z p : Z.of_N (computeHandKey z p) = hsum z (hands p) mod W64.
Proof.
  unfold computeHandKey, hsum. fold hps.
  match goal with |- Z.of_N (fold_left ?f hps 0%N) = _ => set (g := f) end.
  assert (Hg : forall acc hp, (acc < 18446744073709551616)%N -> (g acc hp < 18446744073709551616)%N /\ Z.of_N (g acc hp) mod W64 = (Z.of_N acc + hval z (hands p) hp) mod W64).
  { intros acc hp H. unfold g. cbn [fold_left]. split; [now apply iter_lt, iter_lt|].
    rewrite iter_add64, <- Zplus_mod_idemp_l, iter_add64, Zplus_mod_idemp_l. f_equal. unfold hval, Black, White, handOf. lia. }
  clearbody g.
  assert (G : forall l acc, (acc < 18446744073709551616)%N -> (fold_left g l acc < 18446744073709551616)%N /\
     Z.of_N (fold_left g l acc) mod W64 = (Z.of_N acc + sumZ (hval z (hands p)) l) mod W64).
  { induction l as [|a l IH]; intros acc H; cbn [fold_left sumZ]; [split; [exact H|f_equal; lia]|].
    destruct (Hg acc a H) as [A B]. destruct (IH _ A) as [A' B']. split; [exact A'|]. rewrite B', <- Zplus_mod_idemp_l, B, Zplus_mod_idemp_l. f_equal. lia. }
  destruct (G hps 0%N eq_refl) as [A B]. cbv zeta in A, B. rewrite Z.mod_small in B by (unfold W64; lia). exact B.
Qed.

Definition keysOk (z : Zob) (p : Position) : Prop :=
  boardKey (st p) = computeBoardKey z p /\ handKey (st p) = computeHandKey z p.

(* the board key before any piece is moved, as a number *)
Lemma flip_key z p : okZob z -> (turn p < 2)%N -> boardKey (st p) = computeBoardKey z p ->
  Z.of_N (N.lxor (boardKey (st p)) zobTurn) = bsum z (board p) mod W64 + Z.of_N (opp (turn p)).
Proof.
  intros E Ht Hk. pose proof (computeBoardKey_Z z p E Ht) as C. rewrite <- Hk in C.
  pose proof (mod_even _ (bsum_even z (board p) squares E)) as Q. fold (bsum z (board p)) in Q.
  assert (0 <= bsum z (board p) mod W64) by (apply Z.mod_pos_bound; reflexivity).
  set (S := bsum z (board p) mod W64) in *. assert (Ev : N.even (Z.to_N S) = true) by now apply evenN_Z.
  unfold zobTurn. assert (turn p = 0 \/ turn p = 1)%N as [Et|Et] by lia; rewrite Et in *.
  - replace (boardKey (st p)) with (Z.to_N S) by lia. rewrite lxor_even_1 by auto. change (opp 0) with 1%N. lia.
  - replace (boardKey (st p)) with (N.lxor (Z.to_N S) 1) by (rewrite lxor_even_1 by auto; lia). rewrite lxor_1_1. change (opp 1) with 0%N. lia.
Qed.
(* a 64-bit word congruent to an even sum plus the turn bit is that key *)
Lemma key_close S t k : Z.even S = true -> (t < 2)%N -> 0 <= k < W64 -> k mod W64 = (S + Z.of_N t) mod W64 -> k = S mod W64 + Z.of_N t.
Proof.
  intros Ev Ht Hk H. rewrite Z.mod_small in H by auto. rewrite H. rewrite <- Zplus_mod_idemp_l.
  pose proof (mod_even _ Ev) as Q. assert (0 <= S mod W64 < W64) by (apply Z.mod_pos_bound; reflexivity).
  apply Z.mod_small. split; [lia|].
  assert (S mod W64 <> W64 - 1) by (intros X; rewrite X in Q; discriminate). lia.
Qed.
Lemma lt64 a : 0 <= a mod W64 < W64.
Proof. apply Z.mod_pos_bound. reflexivity. Qed.

Definition goKey (z : Zob) (p : Position) (m : N) : N :=
  let bk1 := add64 (sub64 (N.lxor (boardKey (st p)) zobTurn) (zPiece z (mvPtFrom m) (mvFrom m) (turn p)))
       (zPiece z (mvPtToOf m (mvPtFrom m)) (mvTo m) (turn p)) in
  if negb (mvCap m =? 0)%N then sub64 bk1 (zPiece z (mvCap m) (mvTo m) (opp (turn p))) else bk1.
Lemma doMoveCI_boardKey z p m ci b : boardKey (st (doMoveCI z p m ci b)) =
  if mvDrop m then add64 (N.lxor (boardKey (st p)) zobTurn) (zPiece z (mvPtDropped m) (mvTo m) (turn p)) else goKey z p m.
Proof. unfold doMoveCI, goKey. destruct (mvDrop m); reflexivity. Qed.
Lemma doMoveCI_handKey z p m ci b : handKey (st (doMoveCI z p m ci b)) =
  if mvDrop m then sub64 (handKey (st p)) (zHand z (ptToHand (mvPtDropped m)) (turn p))
  else if negb (mvCap m =? 0)%N then add64 (handKey (st p)) (zHand z (ptToHand (mvCap m)) (turn p)) else handKey (st p).
Proof. unfold doMoveCI. destruct (mvDrop m); reflexivity. Qed.
Lemma doMoveCI_stHand z p m ci b : stHand (st (doMoveCI z p m ci b)) = handOf (doMoveCI z p m ci b) (turn (doMoveCI z p m ci b)).
Proof. unfold doMoveCI, handOf. destruct (mvDrop m); reflexivity. Qed.

Lemma bval_mk z s c pt : (c < 2)%N -> (1 <= pt < 15)%N -> bval z s (mkPiece c pt) = Z.of_N (zPiece z pt s c).
Proof. intros. unfold bval. now rewrite mk_nz, pt_mk, col_mk by auto. Qed.

Lemma boardKey_doMoveCI z p m ci b : okZob z -> views p -> oneKing (board p) -> wfMove p m -> boardKey (st p) = computeBoardKey z p ->
  boardKey (st (doMoveCI z p m ci b)) = computeBoardKey z (doMoveCI z p m ci b).
Proof.
  intros E V O W K. pose proof (v_turn p V) as Ht. pose proof (opp_lt _ Ht) as Ho.
  apply N2Z.inj. rewrite computeBoardKey_Z; auto; [|rewrite doMoveCI_turn; auto]. rewrite doMoveCI_turn, doMoveCI_board, doMoveCI_boardKey.
  pose proof (flip_key z p E Ht K) as F. set (k := N.lxor (boardKey (st p)) zobTurn) in *.
  apply key_close; auto.
  - apply bsum_even; auto.
  - destruct (mvDrop m); [rewrite add64_Z; apply lt64|]. unfold goKey. destruct (negb _); [rewrite sub64_Z|rewrite add64_Z]; apply lt64.
  - unfold bsum. rewrite (sum_newBoard (bval z) p m V W). fold (bsum z (board p)).
    assert (B0 : forall s, bval z s 0 = 0) by reflexivity.
    destruct W as [X|X]; pose proof X as (Hd & _); rewrite Hd.
    + pose proof X as (_ & Hp & _). rewrite add64_Z, Zmod_mod, F, B0, bval_mk by (auto; lia).
      rewrite <- Z.add_assoc, Zplus_mod_idemp_l. f_equal. lia.
    + pose proof (wfGo_ptTo p m X) as (Hpt & _). pose proof X as (_ & Hne & Hto & Hpf & Hat & Hcap & Hpr).
      rewrite !bval_mk, B0 by auto. unfold goKey. fold k. cbv zeta.
      destruct Hcap as [[_ ->]|(_ & Hc & Hc8)].
      * change (0 =? 0)%N with true. cbn [negb]. rewrite B0. rewrite add64_Z, sub64_Z, Zmod_mod, Zplus_mod_idemp_l, F.
        replace (bsum z (board p) mod W64 + Z.of_N (opp (turn p)) - Z.of_N (zPiece z (mvPtFrom m) (mvFrom m) (turn p)) + Z.of_N (zPiece z (mvPtToOf m (mvPtFrom m)) (mvTo m) (turn p)))
          with (bsum z (board p) mod W64 + (Z.of_N (opp (turn p)) - Z.of_N (zPiece z (mvPtFrom m) (mvFrom m) (turn p)) + Z.of_N (zPiece z (mvPtToOf m (mvPtFrom m)) (mvTo m) (turn p)))) by lia.
        rewrite Zplus_mod_idemp_l. f_equal. lia.
      * replace (mvCap m =? 0)%N with false by lia. cbn [negb]. rewrite bval_mk by auto.
        rewrite sub64_Z, add64_Z, sub64_Z, Zmod_mod, Zminus_mod_idemp_l.
        match goal with |- (?x mod W64 + ?y - ?w) mod W64 = _ => replace (x mod W64 + y - w) with (x mod W64 + (y - w)) by lia end.
        rewrite Zplus_mod_idemp_l, F.
        match goal with |- (?x mod W64 + ?y - ?w + ?v) mod W64 = _ => replace (x mod W64 + y - w + v) with (x mod W64 + (y - w + v)) by lia end.
        rewrite Zplus_mod_idemp_l. f_equal. lia.
Qed.

Lemma hsum_upd z p m : views p -> okHands p -> okMaterial p -> wfMove p m ->
  hsum z (newHands p m) = hsum z (hands p) +
   (if mvDrop m then - Z.of_N (zHand z (ptToHand (mvPtDropped m)) (turn p))
    else if negb (mvCap m =? 0)%N then Z.of_N (zHand z (ptToHand (mvCap m)) (turn p)) else 0).
Proof.
  intros V Hk Mt W. pose proof (v_turn p V) as Ht.
  destruct (newHands_spec p m 0 V Hk Mt W) as [_ H0]; [cbv; reflexivity|]. destruct (newHands_spec p m 1 V Hk Mt W) as [_ H1]; [cbv; reflexivity|].
  assert (ND : NoDup hps) by (unfold hps; repeat constructor; cbn; intuition discriminate).
  assert (Hin : forall hp, (hp < 7)%N -> In hp hps) by (intros hp Hhp; unfold hps; cbn; hpcases Hhp; tauto).
  assert (Hlt : forall hp, In hp hps -> (hp < 7)%N) by (intros hp; unfold hps; cbn; intuition (subst; cbv; reflexivity)).
  assert (T : (turn p = 0 \/ turn p = 1)%N) by lia.
  assert (G : forall hp, (hp < 7)%N -> hval z (newHands p m) hp = hval z (hands p) hp +
     (if mvDrop m then - (b2z (ptToHand (mvPtDropped m) =? hp)%N * Z.of_N (zHand z hp (turn p)))
      else b2z (negb (mvCap m =? 0) && (ptToHand (mvCap m) =? hp))%N * Z.of_N (zHand z hp (turn p)))).
  { intros hp Hhp. unfold hval. rewrite (H0 hp Hhp), (H1 hp Hhp). unfold handOf.
    destruct T as [->| ->]; [change (0 =? 0)%N with true; change (1 =? 0)%N with false|change (0 =? 1)%N with false; change (1 =? 1)%N with true];
    destruct (mvDrop m); lia. }
  unfold hsum. destruct W as [X|X]; pose proof X as (Hd & _); rewrite Hd in *.
  - pose proof X as (_ & Hp & _). assert (Hh : (ptToHand (mvPtDropped m) < 7)%N) by (apply ptToHand_lt; lia).
    rewrite (sumZ_ext (hval z (newHands p m)) (fun hp => hval z (hands p) hp + - (b2z (ptToHand (mvPtDropped m) =? hp)%N * Z.of_N (zHand z hp (turn p)))))
      by (intros; apply G; auto).
    rewrite (sumZ_upd (hval z (hands p)) _ hps (ptToHand (mvPtDropped m)) ND (Hin _ Hh)).
    + rewrite N.eqb_refl. cbn [b2z]. lia.
    + intros x Hx. rewrite (proj2 (N.eqb_neq _ _) (not_eq_sym Hx)). cbn [b2z]. lia.
  - destruct (N.eqb_spec (mvCap m) 0) as [E0|E0]; cbn [negb andb b2z] in *.
    + rewrite (sumZ_ext (hval z (newHands p m)) (hval z (hands p))); [lia|]. intros x Hx. rewrite G by auto. lia.
    + pose proof X as (_ & _ & _ & _ & _ & Hcap & _). assert (Hh : (ptToHand (mvCap m) < 7)%N) by (destruct Hcap as [[_ ?]|(_ & ? & ?)]; [congruence|now apply ptToHand_lt]).
      rewrite (sumZ_ext (hval z (newHands p m)) (fun hp => hval z (hands p) hp + b2z (ptToHand (mvCap m) =? hp)%N * Z.of_N (zHand z hp (turn p))))
        by (intros; apply G; auto).
      rewrite (sumZ_upd (hval z (hands p)) _ hps (ptToHand (mvCap m)) ND (Hin _ Hh)).
      * rewrite N.eqb_refl. cbn [b2z]. lia.
      * intros x Hx. rewrite (proj2 (N.eqb_neq _ _) (not_eq_sym Hx)). cbn [b2z]. lia.
Qed.
Lemma handKey_doMoveCI z p m ci b : views p -> okHands p -> okMaterial p -> wfMove p m -> handKey (st p) = computeHandKey z p ->
  handKey (st (doMoveCI z p m ci b)) = computeHandKey z (doMoveCI z p m ci b).
Proof.
  intros V Hk Mt W K. apply N2Z.inj. rewrite computeHandKey_Z, doMoveCI_hands, hsum_upd by auto. rewrite doMoveCI_handKey.
  pose proof (computeHandKey_Z z p) as C. rewrite <- K in C.
  destruct (mvDrop m); [|destruct (negb _)].
  - rewrite sub64_Z, C. rewrite Zminus_mod_idemp_l. reflexivity.
  - rewrite add64_Z, C. rewrite Zplus_mod_idemp_l. reflexivity.
  - rewrite C. f_equal. lia.
Qed.
Theorem keys_doMoveCI z p m ci b : okZob z -> views p -> oneKing (board p) -> okHands p -> okMaterial p -> wfMove p m -> keysOk z p ->
  keysOk z (doMoveCI z p m ci b).
Proof. intros E V O Hk Mt W [K1 K2]. split; [now apply boardKey_doMoveCI|now apply handKey_doMoveCI]. Qed.

(* ---- predicted keys ---- *)
Lemma ptOf_promoted c pt : (c < 2)%N -> (1 <= pt <= 6)%N -> (mkPiece c pt + 8 = mkPiece c (pt + 8))%N.
Proof.
  intros Hc Hp. assert (G : forallb (fun c => forallb (fun pt => mkPiece c pt + 8 =? mkPiece c (pt + 8))%N (seqN 1 6)) [0; 1]%N = true) by reflexivity.
  pose proof (forallb_colors _ G c Hc) as G'. cbv beta in G'. pose proof (forallb_seqN _ _ _ G' pt ltac:(lia)) as E. cbv beta in E. now apply N.eqb_eq.
Qed.
Lemma addsub_comm k c f t : add64 (sub64 (sub64 k c) f) t = sub64 (add64 (sub64 k f) t) c.
Proof.
  apply N2Z.inj. repeat rewrite ?add64_Z, ?sub64_Z. generalize (Z.of_N k) (Z.of_N c) (Z.of_N f) (Z.of_N t). clear. intros k c f t.
  transitivity ((k - c - f + t) mod W64).
  - rewrite Zplus_mod_idemp_l. replace ((k - c) mod W64 - f + t) with ((k - c) mod W64 + (t - f)) by lia. rewrite Zplus_mod_idemp_l. f_equal. lia.
  - rewrite Zminus_mod_idemp_l. replace ((k - f) mod W64 + t - c) with ((k - f) mod W64 + (t - c)) by lia. rewrite Zplus_mod_idemp_l. f_equal. lia.
Qed.
Lemma getBoardKeyAfter_ok z p m ci b : views p -> wfMove p m -> getBoardKeyAfter z p m = boardKey (st (doMoveCI z p m ci b)).
Proof.
  intros V W. pose proof (v_turn p V) as Ht. pose proof (opp_lt _ Ht) as Ho. rewrite doMoveCI_boardKey. unfold getBoardKeyAfter. cbv zeta.
  destruct W as [X|X]; pose proof X as (Hd & _); rewrite Hd; [reflexivity|].
  pose proof (wfGo_ptTo p m X) as (Hpt & _). pose proof X as (_ & Hne & Hto & Hpf & Hat & Hcap & Hpr).
  rewrite Hat. assert (A : ptOf (if mvPromo m then (mkPiece (turn p) (mvPtFrom m) + 8)%N else mkPiece (turn p) (mvPtFrom m)) = mvPtToOf m (mvPtFrom m)).
  { rewrite mvPtToOf_eq in Hpt |- *. destruct (mvPromo m); [rewrite ptOf_promoted by (auto; specialize (Hpr eq_refl); lia)|rewrite N.add_0_r in *]; apply pt_mk; auto. }
  rewrite A, pt_mk by auto. unfold goKey. cbv zeta. unfold Empty. apply N2Z.inj.
  destruct Hcap as [[-> ->]|(-> & Hc & Hc8)].
  - change (0 =? 0)%N with true. cbn [negb]. reflexivity.
  - rewrite mk_nz, pt_mk, col_mk by auto. replace (mvCap m =? 0)%N with false by lia. cbn [negb].
    f_equal. apply addsub_comm.
Qed.
Lemma getKeyAfter_ok z p m ci b : views p -> wfMove p m -> getKeyAfter z p m = getKey (doMoveCI z p m ci b).
Proof.
  intros V W. unfold getKey, stKey. rewrite <- (getBoardKeyAfter_ok z p m ci b V W), doMoveCI_handKey. unfold getKeyAfter, getBoardKeyAfter. cbv zeta.
  pose proof (v_turn p V) as Ht. pose proof (opp_lt _ Ht) as Ho.
  destruct W as [X|X]; pose proof X as (Hd & _); rewrite Hd; [reflexivity|].
  pose proof X as (_ & Hne & Hto & Hpf & Hat & Hcap & Hpr). unfold Empty.
  destruct Hcap as [[-> ->]|(-> & Hc & Hc8)].
  - change (0 =? 0)%N with true. cbn [negb]. reflexivity.
  - rewrite mk_nz, pt_mk, col_mk by auto. replace (mvCap m =? 0)%N with false by lia. cbn [negb]. reflexivity.
Qed.
Close Scope Z_scope.
