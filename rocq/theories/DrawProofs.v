(* The repetition tests against DrawSpec.v. *)
From Verif Require Export DrawSpec Fresh.
Local Open Scope Z_scope.

(* ---- lines ---- *)
Fixpoint run (line : list (option move)) : nat := match line with Some _ :: l => S (run l) | _ => 0%nat end.
Lemma run_unbroken line i : unbroken line i <-> (i <= run line)%nat.
Proof.
  unfold unbroken. revert i. induction line as [|[m|] l IH]; intros i.
  - cbn [length run]. rewrite firstn_nil. split; [tauto|intros; split; [auto|constructor]].
  - destruct i as [|i]; [cbn; split; [lia|split; [lia|constructor]]|]. cbn [length run firstn]. split.
    + intros [A B]. inversion B; subst. assert (i <= run l)%nat by (apply IH; split; [lia|auto]). lia.
    + intros A. destruct (proj2 (IH i) ltac:(lia)) as [B C]. split; [lia|]. constructor; [discriminate|auto].
  - destruct i as [|i]; [cbn; split; [lia|split; [lia|constructor]]|]. cbn [length run firstn]. split; [|lia].
    intros [_ B]. inversion B; subst. congruence.
Qed.
Lemma ago_cons P0 x line i : ago P0 (x :: line) (S i) = ago P0 line i. Proof. reflexivity. Qed.
Lemma ago_0 P0 line : ago P0 line 0 = after P0 line. Proof. reflexivity. Qed.
Lemma other_other c : other (other c) = c. Proof. now destruct c. Qed.
Lemma other_ne c : other c <> c. Proof. now destruct c. Qed.

(* ---- what a stored state says about its position ---- *)
Record snap (z : Zob) (P : position) (s : StateInfo) : Prop := {
  s_board : Z.of_N (boardKey s) = scratch_board_hash z P;
  s_key : Z.of_N (stKey s) = scratch_hash z P;
  s_hand : handOk (stHand s);
  s_nums : forall k, in_hand P (side P) k = match handSlot k with Some hp => Z.of_N (numOf (stHand s) hp) | None => 0 end
}.
Lemma board_hash_scratch z p : okZob z -> good p -> cached z p -> Z.of_N (boardKey (st p)) = scratch_board_hash z (abs p).
Proof.
  intros Z G C. destruct (c_keys z p C) as [K1 _]. rewrite K1. pose proof (good_turn p G) as Ht. rewrite computeBoardKey_Z by auto. rewrite bsum_abs by (apply (v_board p (g_views p G))).
  unfold scratch_board_hash. change (2 ^ 64)%Z with W64.
  replace (match side (abs p) with Sente => 0 | Gote => 1 end)%Z with (Z.of_N (turn p)) by (cbn [abs side]; unfold colorN; assert (turn p = 0 \/ turn p = 1)%N as [->| ->] by lia; reflexivity).
  reflexivity.
Qed.
Lemma board_hash_same z P Q : same_board P Q -> scratch_board_hash z P = scratch_board_hash z Q.
Proof. intros (A & C). unfold scratch_board_hash. rewrite C. now rewrite (sum_ext (square_value z P) (square_value z Q)) by (intros s _; unfold square_value; now rewrite A). Qed.
Lemma same_same_board P Q : same_position P Q -> same_board P Q. Proof. intros (A & _ & C). now split. Qed.
Lemma snap_ok z p P : okZob z -> good p -> cached z p -> same_position (abs p) P -> snap z P (st p).
Proof.
  intros Z G C S. constructor.
  - rewrite (board_hash_scratch z) by auto. apply board_hash_same. now apply same_same_board.
  - change (stKey (st p)) with (getKey p). rewrite (hash_scratch z p) by auto. now apply scratch_same.
  - rewrite (c_hand z p C). apply (g_hands p G). now apply good_turn.
  - intros k. rewrite (c_hand z p C). destruct S as (_ & B & D). rewrite <- B, <- D. cbn [abs in_hand side]. now rewrite color_inv by now apply good_turn.
Qed.

Lemma fresh_cc z p : fresh z p -> ccOk p.
Proof.
  intros F. pose proof (f_cc _ _ F) as Ec. split; rewrite Ec; [reflexivity|]. intros _. unfold nthN. destruct (N.to_nat (opp (turn p))) as [|[|[|?]]]; reflexivity.
Qed.

(* ---- the states kept along a line ---- *)
Section Line.
  Variables (z : Zob) (b0 : Board).
  Hypothesis Z : okZob z.
  Hypothesis F : fresh z (bpos b0).
  Let P0 := abs (bpos b0).
  Let R line := bpos (replay z b0 line).
  Let G0 : good (bpos b0) := f_good _ _ F.
  Let C0 : cached z (bpos b0) := f_cached _ _ F.

  Lemma line_states line : legal_line no_double_pass P0 line ->
    Z.of_N (pliesFromNull (st (R line))) = Z.of_nat (run line) /\
    forall j, (j <= run line)%nat -> exists s, nth_error (st (R line) :: prev (R line)) j = Some s /\ snap z (ago P0 line j) s.
  Proof.
    intros H. assert (T : snap z (after P0 line) (st (R line))) by (destruct (replay_ok _ z b0 line Z G0 C0 H) as (G & C & S); now apply snap_ok).
    clear -H T F G0 C0 Z. revert H T. induction line as [|[m|] l IH]; intros H T.
    - split; [unfold R; cbn [replay run]; rewrite (f_plies _ _ F); reflexivity|]. intros j Hj. cbn [run] in Hj. assert (j = 0%nat) as -> by lia. exists (st (R [])). split; auto.
    - pose proof (replay_ok _ z b0 l Z G0 C0 (proj2 H)) as (G & C & S). specialize (IH (proj2 H) (snap_ok z _ _ Z G C S)) as [A B]. split.
      + unfold R in *. cbn [replay push bpos run]. unfold doMove, doMoveCI. cbv zeta.
        assert (Z.of_N (pliesFromNull (st (bpos (replay z b0 l))) + 1) = Z.of_nat (Datatypes.S (run l))) by lia. destruct (mvDrop _); cbn [st pliesFromNull]; auto.
      + intros [|j] Hj; [exists (st (R (Some m :: l))); split; auto|]. cbn [run] in Hj. destruct (B j ltac:(lia)) as (s & E & K). exists s. split; [|exact K].
        cbn [nth_error]. unfold R in *. cbn [replay push bpos]. unfold doMove. cbv zeta. rewrite doMoveCI_prev. exact E.
    - split; [reflexivity|]. intros j Hj. cbn [run] in Hj. assert (j = 0%nat) as -> by lia. exists (st (R (None :: l))). split; auto.
  Qed.

  (* how many of the last i plies c made *)
  Definition movesBy (P : position) (c : color) (i : nat) : nat := if color_eqb c (side P) then (i / 2)%nat else ((i + 1) / 2)%nat.
  Lemma line_checks line : legal_line no_double_pass P0 line -> forall c i, (i <= run line)%nat ->
    (Z.of_nat (2 * movesBy (after P0 line) c i) <= Z.of_N (nthN 0%N (contCheck (st (R line))) (ncolor c)) <-> all_checks P0 line c i).
  Proof.
    intros H. assert (Base : forall line c, Z.of_nat (2 * movesBy (after P0 line) c 0) <= Z.of_N (nthN 0%N (contCheck (st (R line))) (ncolor c)) <-> all_checks P0 line c 0).
    { intros ln c. unfold movesBy. split; [intros _ j Hj; lia|intros _]. change ((0 + 1) / 2)%nat with 0%nat. change (0 / 2)%nat with 0%nat. destruct (color_eqb _ _); lia. }
    induction line as [|[m|] l IH]; intros c i Hi; [cbn [run] in Hi; assert (i = 0%nat) as -> by lia; apply Base| |cbn [run] in Hi; assert (i = 0%nat) as -> by lia; apply Base].
    destruct i as [|i]; [apply Base|]. cbn [run] in Hi. pose proof (replay_ok _ z b0 l Z G0 C0 (proj2 H)) as (G & C & S). specialize (IH (proj2 H) c i ltac:(lia)).
    pose proof (replay_ok _ z b0 _ Z G0 C0 H) as (G' & C' & S'). destruct (replay_cc z b0 l Z G0 C0) as [L2 _]; [|exact (proj2 H)|].
    { apply fresh_cc with (1 := F). }
    fold P0 in S, S'. destruct H as [LL H]. apply (legal0_same _ _ _ (same_sym _ _ S)) in LL.
    assert (Sd : side (after P0 (Some m :: l)) = other (side (after P0 l))) by (cbn [after]; unfold play; now destruct m).
    assert (Tu : turn (R l) = ncolor (side (after P0 l))) by (rewrite <- (proj2 (proj2 S)); cbn [abs side]; symmetry; apply color_inv; now apply good_turn).
    assert (Ck : moveGivesCheck (R l) (code (R l) m) (checkInfo (R l)) = true <-> in_check (after P0 (Some m :: l)) (side (after P0 (Some m :: l)))).
    { unfold R. rewrite (gives_inCheck_code z) by (auto; apply LL). change (doMove z (bpos (replay z b0 l)) (code (bpos (replay z b0 l)) m)) with (bpos (replay z b0 (Some m :: l))).
      rewrite (inCheck_exact z) by auto. rewrite <- (proj2 (proj2 S')). split; apply in_check_same; [exact S'|now apply same_sym]. }
    assert (Ec : contCheck (st (R (Some m :: l))) = setContCheck (contCheck (st (R l))) (turn (R l)) (moveGivesCheck (R l) (code (R l) m) (checkInfo (R l)))).
    { unfold R. cbn [replay push bpos]. unfold doMove at 1. cbv zeta. apply doMoveCI_cc. }
    rewrite Ec. clear Ec. unfold setContCheck. rewrite nthN_updN by (rewrite Tu; unfold R; rewrite ?L2; destruct (side (after P0 l)); cbn; lia).
    assert (Tail : all_checks P0 (Some m :: l) c (Datatypes.S i) <-> (side (after P0 (Some m :: l)) = other c -> in_check (after P0 (Some m :: l)) (other c)) /\ all_checks P0 l c i).
    { unfold all_checks. split.
      - intros X. split; [exact (X 0%nat ltac:(lia))|]. intros j Hj. exact (X (Datatypes.S j) ltac:(lia)).
      - intros [X Y] [|j] Hj; [exact X|]. apply Y. lia. }
    rewrite Tail. clear Tail. rewrite Sd in *. unfold movesBy in *. rewrite Sd. rewrite Tu.
    destruct (color_eqb c (side (after P0 l))) eqn:E.
    - assert (c = side (after P0 l)) as -> by (now destruct c, (side (after P0 l))). rewrite N.eqb_refl.
      replace (color_eqb (side (after P0 l)) (other (side (after P0 l)))) with false by (now destruct (side (after P0 l))).
      replace ((Datatypes.S i + 1) / 2)%nat with (1 + i / 2)%nat by (replace (Datatypes.S i + 1)%nat with (i + 1 * 2)%nat by lia; rewrite Nat.div_add by lia; lia).
      destruct (moveGivesCheck _ _ _).
      + rewrite <- IH. split; [intros X; split; [intros _; now apply Ck|lia]|]. intros [_ X]. lia.
      + split; [lia|]. intros [X _]. specialize (X eq_refl). apply Ck in X. discriminate.
    - assert (c = other (side (after P0 l))) as -> by (now destruct c, (side (after P0 l))).
      replace (color_eqb (other (side (after P0 l))) (other (side (after P0 l)))) with true by (now destruct (side (after P0 l))).
      replace (ncolor (side (after P0 l)) =? ncolor (other (side (after P0 l))))%N with false by (now destruct (side (after P0 l))).
      assert (E2 : (Datatypes.S i / 2)%nat = ((i + 1) / 2)%nat) by (f_equal; lia). rewrite E2, <- IH, other_other. clear. generalize (Z.of_N (nthN 0%N (contCheck (st (R l))) (ncolor (other (side (after P0 l)))))). intros w.
      split; [intros X; split; [|exact X]|intros [_ X]; exact X].
      intros Y. exfalso. now apply (other_ne (side (after P0 l))).
  Qed.
End Line.

(* ---- one comparison ---- *)
Definition look (cur : StateInfo) (us : N) (s : StateInfo) (i : Z) : option Rep :=
  if (stKey s =? stKey cur)%N then
    Some (if i <=? Z.of_N (nthN 0%N (contCheck cur) us) then RepetitionLose
          else if i <=? Z.of_N (nthN 0%N (contCheck cur) (opp us)) then RepetitionWin else RepetitionDraw)
  else if (boardKey s =? boardKey cur)%N && isEqualOrSuperior (stHand cur) (stHand s) then Some RepetitionSuperior
  else if (boardKey s =? boardKey cur)%N && isEqualOrSuperior (stHand s) (stHand cur) then Some RepetitionInferior
  else None.
Lemma look_real cur us s i r : look cur us s i = Some r -> r <> NotRepetition.
Proof. unfold look. repeat match goal with |- context [if ?b then _ else _] => destruct b end; congruence. Qed.
(* both searches walk the states two at a time *)
Fixpoint scanLoop (lk : StateInfo -> Z -> option Rep) (l : list StateInfo) (i e : Z) : option Rep :=
  match l with
  | _ :: s :: l => match lk s i with Some r => Some r | None => if i + 2 <=? e then scanLoop lk l (i + 2) e else Some NotRepetition end
  | _ => None
  end.
Lemma drawLoop_look cur us e : forall l i, drawLoop cur us l i e = scanLoop (look cur us) l i e.
Proof.
  fix IH 1. intros [|a [|s l]] i; [reflexivity|reflexivity|]. cbn [drawLoop scanLoop]. rewrite (IH l). unfold look.
  repeat match goal with |- context [if ?b then _ else _] => destruct b end; reflexivity.
Qed.
Definition mlook (cur : StateInfo) (us key : N) (s : StateInfo) (i : Z) : option Rep :=
  if (stKey s =? key)%N then
    Some (if i <=? Z.of_N (nthN 0%N (contCheck cur) us) then RepetitionWin
          else if i <=? Z.of_N (nthN 0%N (contCheck cur) (opp us)) then RepetitionLose else RepetitionDraw)
  else None.
Lemma moveLoop_look cur us key e : forall l i, moveLoop cur us key l i e = scanLoop (mlook cur us key) l i e.
Proof.
  fix IH 1. intros [|a [|s l]] i; [reflexivity|reflexivity|]. cbn [moveLoop scanLoop]. rewrite (IH l). unfold mlook.
  repeat match goal with |- context [if ?b then _ else _] => destruct b end; reflexivity.
Qed.
Lemma skipn_two {A} (L : list A) i x y : (1 <= i)%nat -> nth_error L (i - 1) = Some x -> nth_error L i = Some y -> skipn (i - 1) L = x :: y :: skipn (i + 1) L.
Proof.
  intros Hi. destruct i as [|i]; [lia|]. rewrite Nat.sub_succ, Nat.sub_0_r. replace (S i + 1)%nat with (S (S i)) by lia. clear Hi. revert L. induction i as [|i IH]; intros L E1 E2.
  - destruct L as [|a [|b L]]; try discriminate. cbn in *. congruence.
  - destruct L as [|a L]; [discriminate|]. exact (IH L E1 E2).
Qed.
Lemma scanLoop_scan lk L e : e < Z.of_nat (length L) -> forall n i, (length L - i <= n)%nat -> Nat.even i = true -> (4 <= i)%nat -> Z.of_nat i <= e ->
  (exists i' s r, Nat.even i' = true /\ (i <= i')%nat /\ Z.of_nat i' <= e /\ nth_error L i' = Some s /\ lk s (Z.of_nat i') = Some r /\
     (forall j t, Nat.even j = true -> (i <= j < i')%nat -> nth_error L j = Some t -> lk t (Z.of_nat j) = None) /\
     scanLoop lk (skipn (i - 1) L) (Z.of_nat i) e = Some r) \/
  (scanLoop lk (skipn (i - 1) L) (Z.of_nat i) e = Some NotRepetition /\
   forall j t, Nat.even j = true -> (i <= j)%nat -> Z.of_nat j <= e -> nth_error L j = Some t -> lk t (Z.of_nat j) = None).
Proof.
  intros He. induction n as [|n IH]; intros i Hn Ev H4 Hi; [lia|].
  destruct (nth_error L (i - 1)) as [x|] eqn:E1; [|apply nth_error_None in E1; lia]. destruct (nth_error L i) as [y|] eqn:E2; [|apply nth_error_None in E2; lia].
  rewrite (skipn_two L i x y) by (auto; lia). cbn [scanLoop]. destruct (lk y (Z.of_nat i)) as [r|] eqn:K.
  - left. exists i, y, r. do 5 (split; [first [assumption|lia]|]). split; [|reflexivity]. intros; lia.
  - destruct (Z.of_nat i + 2 <=? e) eqn:Q.
    + apply Z.leb_le in Q. assert (Ev2 : Nat.even (i + 2) = true) by (rewrite Nat.even_add, Ev; reflexivity).
      assert (One : forall j, Nat.even j = true -> (i <= j)%nat -> j = i \/ (i + 2 <= j)%nat).
      { intros j Ej Hj. assert (j = (i + 1)%nat -> False) by (intros ->; rewrite Nat.even_add, Ev in Ej; discriminate). lia. }
      replace (Z.of_nat i + 2) with (Z.of_nat (i + 2)) by lia. replace (i + 1)%nat with (i + 2 - 1)%nat by lia.
      destruct (IH (i + 2)%nat ltac:(lia) Ev2 ltac:(lia) ltac:(lia)) as [(i' & s & r & A1 & A2 & A3 & A4 & A5 & A6 & A7)|[A1 A2]].
      * left. exists i', s, r. do 5 (split; [first [assumption|lia]|]). split; [|assumption]. intros j t Ej Hj Et. destruct (One j Ej) as [->|O]; [lia| |]; [congruence|]. apply (A6 j t); auto. lia.
      * right. split; [assumption|]. intros j t Ej Hj Lj Et. destruct (One j Ej Hj) as [->|O]; [congruence|]. now apply (A2 j t).
    + right. split; [reflexivity|]. apply Z.leb_gt in Q. intros j t Ej Hj Lj Et. assert (j = i \/ j = (i + 1)%nat) as [->| ->] by lia; [congruence|]. rewrite Nat.even_add, Ev in Ej. discriminate.
Qed.

Lemma covers_iff z P Q s t : snap z P s -> snap z Q t -> side P = side Q -> (isEqualOrSuperior (stHand s) (stHand t) = true <-> hand_covers P Q (side P)).
Proof.
  intros A B E. rewrite (isEqualOrSuperior_spec _ _ (s_hand _ _ _ A) (s_hand _ _ _ B)). unfold hand_covers. split.
  - intros H k. rewrite E at 1. rewrite (s_nums _ _ _ A), (s_nums _ _ _ B). destruct (handSlot k) as [hp|] eqn:K; [|lia]. apply slotKind_inv in K as [K _]. specialize (H hp K). lia.
  - intros H hp Hh. specialize (H (slotKind hp)). rewrite E in H at 1. rewrite (s_nums _ _ _ A), (s_nums _ _ _ B), (proj1 (slotKind_ok hp Hh)) in H. lia.
Qed.

Section Test.
  Variables (z : Zob) (b0 : Board) (line : list (option move)).
  Hypothesis Z : okZob z.
  Hypothesis F : fresh z (bpos b0).
  Let P0 := abs (bpos b0).
  Hypothesis H : legal_line no_double_pass P0 line.
  Let p := bpos (replay z b0 line).

  Lemma test_turn : turn p = ncolor (side (after P0 line)).
  Proof.
    destruct (replay_ok _ z b0 line Z (f_good _ _ F) (f_cached _ _ F) H) as (G & _ & S). fold P0 in S. rewrite <- (proj2 (proj2 S)). cbn [abs side]. symmetry. apply color_inv. now apply good_turn.
  Qed.
  Lemma test_state j : (j <= run line)%nat -> exists s, nth_error (st p :: prev p) j = Some s /\ snap z (ago P0 line j) s.
  Proof. apply (line_states z b0 Z F line H). Qed.
  Lemma test_now : snap z (after P0 line) (st p).
  Proof. destruct (test_state 0 ltac:(lia)) as (s & E & S). injection E as <-. exact S. Qed.
  Lemma test_checks c i : Nat.even i = true -> (i <= run line)%nat -> (Z.of_nat i <=? Z.of_N (nthN 0%N (contCheck (st p)) (ncolor c))) = true <-> all_checks P0 line c i.
  Proof.
    intros Ev Hi. pose proof (line_checks z b0 Z F line H c i Hi) as LC. fold P0 p in LC. rewrite <- LC, Z.leb_le. clear LC. apply Nat.even_spec in Ev as [k ->].
    assert (E : (2 * movesBy (after P0 line) c (2 * k) = 2 * k)%nat).
    { unfold movesBy. rewrite (Nat.mul_comm 2 k). rewrite Nat.div_add_l, Nat.div_mul by lia. change (1 / 2)%nat with 0%nat. destruct (color_eqb _ _); lia. }
    rewrite E. reflexivity.
  Qed.
  Lemma test_opp : opp (turn p) = ncolor (other (side (after P0 line))).
  Proof. rewrite test_turn. now destruct (side (after P0 line)). Qed.
  (* without collisions a comparison is a judgement *)
  Lemma look_ok n i s : no_collision z P0 line n -> candidate line n i -> nth_error (st p :: prev p) i = Some s ->
    forall r, look (st p) (turn p) s (Z.of_nat i) = Some r <-> judgement P0 line i r.
  Proof.
    intros NC Ca Es. pose proof Ca as (Ev & H4 & Hn & U). apply run_unbroken in U. destruct (NC i Ca) as [N1 N2]. destruct (test_state i U) as (s' & Es' & Sn). rewrite Es in Es'. injection Es' as <-. pose proof test_now as S0.
    assert (Ey : (stKey s =? stKey (st p))%N = true <-> same_position (after P0 line) (ago P0 line i)).
    { rewrite N.eqb_eq. split; intros X; [apply N1|apply N2Z.inj]; rewrite <- ?(s_key _ _ _ S0), <- ?(s_key _ _ _ Sn); [now rewrite X|]. rewrite (s_key _ _ _ S0), (s_key _ _ _ Sn). symmetry. now apply scratch_same. }
    assert (Eb : (boardKey s =? boardKey (st p))%N = true <-> same_board (after P0 line) (ago P0 line i)).
    { rewrite N.eqb_eq. split; intros X; [apply N2|apply N2Z.inj]; rewrite <- ?(s_board _ _ _ S0), <- ?(s_board _ _ _ Sn); [now rewrite X|]. rewrite (s_board _ _ _ S0), (s_board _ _ _ Sn). symmetry. now apply board_hash_same. }
    pose proof (test_checks (side (after P0 line)) i Ev U) as K1. pose proof (test_checks (other (side (after P0 line))) i Ev U) as K2. rewrite <- test_turn in K1. rewrite <- test_opp in K2.
    assert (C1 : same_board (after P0 line) (ago P0 line i) -> (isEqualOrSuperior (stHand (st p)) (stHand s) = true <-> hand_covers (after P0 line) (ago P0 line i) (side (after P0 line)))) by (intros [_ E]; now apply (covers_iff z)).
    assert (C2 : same_board (after P0 line) (ago P0 line i) -> (isEqualOrSuperior (stHand s) (stHand (st p)) = true <-> hand_covers (ago P0 line i) (after P0 line) (side (after P0 line)))) by (intros [_ E]; rewrite E; now apply (covers_iff z)).
    assert (SB := same_same_board (after P0 line) (ago P0 line i)).
    unfold look. revert Ey Eb K1 K2 C1 C2 SB. clear. fold P0.
    destruct (stKey s =? stKey (st p))%N; [|destruct (boardKey s =? boardKey (st p))%N].
    - intros [Ey _] _ K1 K2 _ _ _ r. specialize (Ey eq_refl). destruct (Z.of_nat i <=? Z.of_N (nthN 0%N (contCheck (st p)) (turn p))).
      + split; [intros [= <-]; apply j_lose; auto; now apply K1|]. intros J. inversion J; subst; tauto.
      + assert (~ all_checks P0 line (side (after P0 line)) i) by (intros X; apply K1 in X; discriminate). destruct (Z.of_nat i <=? Z.of_N (nthN 0%N (contCheck (st p)) (opp (turn p)))).
        * split; [intros [= <-]; apply j_win; auto; now apply K2|]. intros J. inversion J; subst; tauto.
        * assert (~ all_checks P0 line (other (side (after P0 line))) i) by (intros X; apply K2 in X; discriminate). split; [intros [= <-]; apply j_draw; auto|]. intros J. inversion J; subst; tauto.
    - intros Ey [Eb _] _ _ C1 C2 _ r. specialize (Eb eq_refl). specialize (C1 Eb). specialize (C2 Eb). assert (~ same_position (after P0 line) (ago P0 line i)) by (intros X; apply Ey in X; discriminate). cbn [andb].
      destruct (isEqualOrSuperior (stHand (st p)) (stHand s)); [|destruct (isEqualOrSuperior (stHand s) (stHand (st p)))].
      + split; [intros [= <-]; apply j_superior; auto; now apply C1|]. intros J. inversion J; subst; tauto.
      + assert (~ hand_covers (after P0 line) (ago P0 line i) (side (after P0 line))) by (intros X; apply C1 in X; discriminate). split; [intros [= <-]; apply j_inferior; auto; now apply C2|]. intros J. inversion J; subst; tauto.
      + split; [discriminate|]. intros J. exfalso. inversion J; subst; tauto.
    - intros Ey Eb _ _ _ _ SB r. cbn [andb]. split; [discriminate|]. intros J. exfalso. assert (false = true); [|discriminate]. inversion J; subst; tauto.
  Qed.
  (* with or without collisions, a judgement stops the search *)
  Lemma look_hit n i s r : candidate line n i -> nth_error (st p :: prev p) i = Some s -> judgement P0 line i r -> look (st p) (turn p) s (Z.of_nat i) <> None.
  Proof.
    intros (Ev & H4 & Hn & U) Es J. apply run_unbroken in U. destruct (test_state i U) as (s' & Es' & Sn). rewrite Es in Es'. injection Es' as <-. pose proof test_now as S0. unfold look.
    assert (Ey : same_position (after P0 line) (ago P0 line i) -> (stKey s =? stKey (st p))%N = true).
    { intros X. apply N.eqb_eq, N2Z.inj. rewrite (s_key _ _ _ S0), (s_key _ _ _ Sn). symmetry. now apply scratch_same. }
    assert (Eb : same_board (after P0 line) (ago P0 line i) -> (boardKey s =? boardKey (st p))%N = true).
    { intros X. apply N.eqb_eq, N2Z.inj. rewrite (s_board _ _ _ S0), (s_board _ _ _ Sn). symmetry. now apply board_hash_same. }
    destruct J as [S _|S _ _|S _ _|B _ C|B _ _ C]; try (rewrite (Ey S); discriminate); rewrite (Eb B); cbn [andb]; pose proof (proj2 B) as E; fold P0 in E.
    - rewrite (proj2 (covers_iff z _ _ _ _ S0 Sn E) C). destruct (_ =? _)%N; discriminate.
    - rewrite E in C. rewrite (proj2 (covers_iff z _ _ _ _ Sn S0 (eq_sym E)) C). destruct (_ =? _)%N; [discriminate|]. destruct (isEqualOrSuperior (stHand (st p)) (stHand s)); discriminate.
  Qed.
  Lemma test_length : Z.of_nat (run line) < Z.of_nat (length (st p :: prev p)).
  Proof. destruct (test_state (run line) ltac:(lia)) as (s & E & _). assert (nth_error (st p :: prev p) (run line) <> None) by congruence. apply nth_error_Some in H0. lia. Qed.
  Lemma test_plies : Z.of_N (pliesFromNull (st p)) = Z.of_nat (run line). Proof. apply (line_states z b0 Z F line H). Qed.
  Lemma cand_iff n i : candidate line n i <-> Nat.even i = true /\ (4 <= i)%nat /\ Z.of_nat i <= Z.min (Z.of_N (pliesFromNull (st p))) n.
  Proof. unfold candidate. rewrite run_unbroken, test_plies. intuition lia. Qed.

  (* the search as a whole *)
  Lemma isDraw_scan n :
    (exists i s r, candidate line n i /\ nth_error (st p :: prev p) i = Some s /\ look (st p) (turn p) s (Z.of_nat i) = Some r /\
       (forall j t, candidate line n j -> (j < i)%nat -> nth_error (st p :: prev p) j = Some t -> look (st p) (turn p) t (Z.of_nat j) = None) /\ isDraw p n = Some r) \/
    (isDraw p n = Some NotRepetition /\ forall j t, candidate line n j -> nth_error (st p :: prev p) j = Some t -> look (st p) (turn p) t (Z.of_nat j) = None).
  Proof.
    pose proof test_length as TL. pose proof test_plies as TP. unfold isDraw. cbv zeta. destruct (4 <=? Z.min (Z.of_N (pliesFromNull (st p))) n) eqn:Q.
    - apply Z.leb_le in Q. destruct (test_state 1 ltac:(lia)) as (s1 & E1 & _). destruct (test_state 2 ltac:(lia)) as (s2 & E2 & _).
      pose proof (skipn_two (st p :: prev p) 2 s1 s2 ltac:(lia) E1 E2) as Sk. cbn [skipn Nat.sub Nat.add] in Sk.
      assert (Em : forall e, match prev p with _ :: _ :: l => drawLoop (st p) (turn p) l 4 e | _ => None end = drawLoop (st p) (turn p) (skipn (4 - 1) (st p :: prev p)) (Z.of_nat 4) e).
      { intros e. clear -Sk. destruct (prev p) as [|x [|y l]]; try discriminate. reflexivity. }
      rewrite Em. clear Em. rewrite drawLoop_look.
      pose proof (scanLoop_scan (look (st p) (turn p)) (st p :: prev p) (Z.min (Z.of_N (pliesFromNull (st p))) n) ltac:(lia) _ 4%nat (le_n _) eq_refl ltac:(lia) ltac:(lia)) as [(i' & s & r & A1 & A2 & A3 & A4 & A5 & A6 & A7)|[A1 A2]].
      + left. exists i', s, r. split; [apply cand_iff; auto|]. split; [assumption|]. split; [assumption|]. split; [|exact A7]. intros j t Cj Hj. apply cand_iff in Cj as (X1 & X2 & X3). apply A6; auto.
      + right. split; [exact A1|]. intros j t Cj. apply cand_iff in Cj as (X1 & X2 & X3). apply A2; auto.
    - apply Z.leb_gt in Q. right. split; [reflexivity|]. intros j t Cj. apply cand_iff in Cj as (X1 & X2 & X3). lia.
  Qed.
  Lemma cand_state n i : candidate line n i -> exists s, nth_error (st p :: prev p) i = Some s.
  Proof. intros (_ & _ & _ & U). apply run_unbroken in U. destruct (test_state i U) as (s & E & _). eauto. Qed.
  Theorem isDraw_ok n : no_collision z P0 line n -> exists r, isDraw p n = Some r /\ repetition P0 line n r.
  Proof.
    intros NC. destruct (isDraw_scan n) as [(i & s & r & Ca & Es & Lk & Le & Ed)|[Ed Le]].
    - exists r. split; [exact Ed|]. apply (r_found _ _ _ i); auto.
      + now apply (look_ok n i s).
      + intros i' r' Ca' Hi J. destruct (cand_state n i' Ca') as (t & Et). pose proof (Le i' t Ca' Hi Et) as X. apply (look_ok n i' t NC Ca' Et) in J. congruence.
    - exists NotRepetition. split; [exact Ed|]. apply r_none. intros i' r' Ca' J. destruct (cand_state n i' Ca') as (t & Et). pose proof (Le i' t Ca' Et) as X. apply (look_ok n i' t NC Ca' Et) in J. congruence.
  Qed.
  Theorem isDraw_hit n i r : candidate line n i -> judgement P0 line i r -> exists r', isDraw p n = Some r' /\ r' <> NotRepetition.
  Proof.
    intros Ca J. destruct (isDraw_scan n) as [(i' & s & r' & _ & _ & Lk & _ & Ed)|[Ed Le]].
    - exists r'. split; [exact Ed|]. now apply look_real in Lk.
    - exfalso. destruct (cand_state n i Ca) as (t & Et). apply (look_hit n i t r Ca Et J). now apply (Le i t).
  Qed.
End Test.

(* ---- the prediction ---- *)
Section Predict.
  Variables (z : Zob) (b0 : Board) (line : list (option move)) (m : move).
  Hypothesis Z : okZob z.
  Hypothesis F : fresh z (bpos b0).
  Let P0 := abs (bpos b0).
  Let line' := Some m :: line.
  Hypothesis H : legal_line no_double_pass P0 line'.
  Let p := bpos (replay z b0 line).
  Let p' := bpos (replay z b0 line').

  Lemma pred_good : good p /\ legal_but_drop_mate (abs p) m.
  Proof.
    destruct (replay_ok _ z b0 line Z (f_good _ _ F) (f_cached _ _ F) (proj2 H)) as (G & _ & S). split; auto. apply (legal0_same _ _ _ (same_sym _ _ S)). apply H.
  Qed.
  Lemma pred_key : getKeyAfter z p (code p m) = stKey (st p').
  Proof.
    destruct pred_good as [G L]. destruct (wf_code p m G (proj1 L)) as (W & _). unfold p', line'. cbn [replay push bpos]. unfold doMove. cbv zeta. apply getKeyAfter_ok; auto. apply G.
  Qed.
  Lemma pred_prev : prev p' = st p :: prev p.
  Proof. unfold p', line'. cbn [replay push bpos]. unfold doMove. cbv zeta. apply doMoveCI_prev. Qed.
  Let lk := mlook (st p) (turn p) (stKey (st p')).
  Lemma pred_scan n :
    (exists i s r, candidate line' n i /\ nth_error (st p' :: prev p') i = Some s /\ lk s (Z.of_nat i) = Some r /\
       (forall j t, candidate line' n j -> (j < i)%nat -> nth_error (st p' :: prev p') j = Some t -> lk t (Z.of_nat j) = None) /\ moveIsDraw z p (code p m) n = Some r) \/
    (moveIsDraw z p (code p m) n = Some NotRepetition /\ forall j t, candidate line' n j -> nth_error (st p' :: prev p') j = Some t -> lk t (Z.of_nat j) = None).
  Proof.
    pose proof (test_length z b0 line' Z F H) as TL. pose proof (test_plies z b0 line' Z F H) as TP. pose proof (test_plies z b0 line Z F (proj2 H)) as TP0. fold p' in TL, TP. fold p in TP0.
    pose proof (cand_iff z b0 line' Z F H n) as CI. fold p' in CI.
    assert (Ee : Z.min (Z.of_N (pliesFromNull (st p))) (n - 1) + 1 = Z.min (Z.of_N (pliesFromNull (st p'))) n) by (rewrite TP, TP0; unfold line'; cbn [run]; lia).
    unfold moveIsDraw. rewrite pred_key. cbv zeta. rewrite Ee. clear Ee. destruct (4 <=? Z.min (Z.of_N (pliesFromNull (st p'))) n) eqn:Q.
    - apply Z.leb_le in Q. destruct (test_state z b0 line' Z F H 2 ltac:(lia)) as (s1 & E1 & _). fold p' in E1.
      assert (Em : forall e, match prev p with _ :: l => moveLoop (st p) (turn p) (stKey (st p')) l 4 e | _ => None end = scanLoop lk (skipn (4 - 1) (st p' :: prev p')) (Z.of_nat 4) e).
      { intros e. rewrite pred_prev in E1 |- *. clear -E1. destruct (prev p) as [|x l]; [discriminate|]. rewrite moveLoop_look. reflexivity. }
      rewrite Em. clear Em.
      pose proof (scanLoop_scan lk (st p' :: prev p') (Z.min (Z.of_N (pliesFromNull (st p'))) n) ltac:(lia) _ 4%nat (le_n _) eq_refl ltac:(lia) ltac:(lia)) as [(i' & s & r & A1 & A2 & A3 & A4 & A5 & A6 & A7)|[A1 A2]].
      + left. exists i', s, r. split; [apply CI; auto|]. split; [assumption|]. split; [assumption|]. split; [|exact A7]. intros j t Cj Hj. apply CI in Cj as (X1 & X2 & X3). apply A6; auto.
      + right. split; [exact A1|]. intros j t Cj. apply CI in Cj as (X1 & X2 & X3). apply A2; auto.
    - apply Z.leb_gt in Q. right. split; [reflexivity|]. intros j t Cj. apply CI in Cj as (X1 & X2 & X3). lia.
  Qed.
  Let lk' := look (st p') (turn p').
  Lemma lk_lk' s i : lk s i <> None -> lk' s i <> None.
  Proof. unfold lk, lk', look, mlook. destruct (stKey s =? stKey (st p'))%N; congruence. Qed.
  Theorem pred_not n : isDraw p' n = Some NotRepetition -> moveIsDraw z p (code p m) n = Some NotRepetition.
  Proof.
    intros E. destruct (pred_scan n) as [(i & s & r & Ca & Es & Lk & _ & Em)|[Em _]]; [|exact Em]. exfalso.
    destruct (isDraw_scan z b0 line' Z F H n) as [(i' & s' & r' & Ca' & Es' & Lk' & _ & Ed)|[Ed Le]]; fold p' in Ed.
    - rewrite E in Ed. injection Ed as <-. now apply look_real in Lk'.
    - apply (lk_lk' s (Z.of_nat i)); [congruence|]. now apply Le.
  Qed.
  Theorem pred_hit n : exists r, moveIsDraw z p (code p m) n = Some r /\ (r <> NotRepetition -> exists r', isDraw p' n = Some r' /\ r' <> NotRepetition).
  Proof.
    destruct (pred_scan n) as [(i & s & r & Ca & Es & Lk & _ & Em)|[Em _]]; [|exists NotRepetition; split; [exact Em|congruence]]. exists r. split; [exact Em|]. intros _.
    destruct (isDraw_scan z b0 line' Z F H n) as [(i' & s' & r' & Ca' & Es' & Lk' & _ & Ed)|[Ed Le]]; fold p' in Ed; [exists r'; split; [exact Ed|now apply look_real in Lk']|].
    exfalso. apply (lk_lk' s (Z.of_nat i)); [congruence|]. now apply Le.
  Qed.
  Lemma shift_checks i : Nat.even i = true -> (4 <= i)%nat -> (i <= run line)%nat -> same_position (after P0 line') (ago P0 line' i) ->
    (all_checks P0 line' (side (after P0 line)) i <-> all_checks P0 line (side (after P0 line)) i).
  Proof.
    intros Ev H4 Hi S. assert (Sd : side (after P0 line') = other (side (after P0 line))) by (unfold line'; cbn [after]; unfold play; now destruct m).
    unfold all_checks. split; intros X j Hj Sj.
    - destruct (Nat.eq_dec j (i - 1)) as [->|N].
      + specialize (X 0%nat ltac:(lia) Sd). rewrite ago_0 in X. replace i with (Datatypes.S (i - 1)) in S by lia. change (ago P0 line' (Datatypes.S (i - 1))) with (ago P0 line (i - 1)) in S. exact (in_check_same _ _ _ S X).
      + exact (X (Datatypes.S j) ltac:(lia) Sj).
    - destruct j as [|j]; [|exact (X j ltac:(lia) Sj)]. rewrite ago_0. apply (in_check_same _ _ _ (same_sym _ _ S)). replace i with (Datatypes.S (i - 1)) in S |- * by lia. apply (X (i - 1)%nat ltac:(lia)).
      change (ago P0 line (i - 1)) with (ago P0 line' (Datatypes.S (i - 1))). rewrite <- (proj2 (proj2 S)). exact Sd.
  Qed.
  Theorem pred_same n r : no_collision z P0 line' n -> isDraw p' n = Some r -> r <> RepetitionSuperior -> r <> RepetitionInferior ->
    (forall i, candidate line' n i -> same_position (after P0 line') (ago P0 line' i) ->
       (forall i', candidate line' n i' -> (i' < i)%nat -> ~ same_position (after P0 line') (ago P0 line' i')) ->
       unbroken line i /\ ~ (all_checks P0 line' Sente i /\ all_checks P0 line' Gote i)) ->
    moveIsDraw z p (code p m) n = Some r.
  Proof.
    intros NC E R1 R2 Cond. destruct (isDraw_scan z b0 line' Z F H n) as [(i & s & r' & Ca & Es & Lk' & Le & Ed)|[Ed Le]]; [fold p' in Es, Lk', Le, Ed|fold p' in Ed].
    2:{ rewrite E in Ed. injection Ed as ->. now apply pred_not. }
    rewrite E in Ed. injection Ed as <-. pose proof (proj1 (look_ok z b0 line' Z F H n i s NC Ca Es r) Lk') as J. fold P0 in J.
    assert (Ey : (stKey s =? stKey (st p'))%N = true).
    { revert Lk' R1 R2. unfold look. destruct (stKey s =? stKey (st p'))%N; [reflexivity|]. repeat match goal with |- context [if ?b then _ else _] => destruct b end; congruence. }
    assert (S : same_position (after P0 line') (ago P0 line' i)) by (destruct J; assumption || congruence).
    assert (First : forall i', candidate line' n i' -> (i' < i)%nat -> ~ same_position (after P0 line') (ago P0 line' i')).
    { intros i' Ca' Hi' S'. destruct (cand_state z b0 line' Z F H n i' Ca') as (t & Et). fold p' in Et. pose proof (Le i' t Ca' Hi' Et) as X.
      destruct (test_state z b0 line' Z F H i') as (t' & Et' & Sn); [apply run_unbroken; apply Ca'|]. fold p' in Et'. rewrite Et in Et'. injection Et' as <-. pose proof (test_now z b0 line' Z F H) as S0. fold p' in S0.
      unfold look in X. replace (stKey t =? stKey (st p'))%N with true in X; [discriminate|]. symmetry. apply N.eqb_eq, N2Z.inj. rewrite (s_key _ _ _ S0), (s_key _ _ _ Sn). symmetry. now apply scratch_same. }
    destruct (Cond i Ca S First) as [U NB]. pose proof Ca as (Ev & H4 & Hn & U'). apply run_unbroken in U. apply run_unbroken in U'.
    assert (Lm : lk s (Z.of_nat i) = Some r).
    { unfold lk, mlook. rewrite Ey. f_equal.
      pose proof (test_checks z b0 line Z F (proj2 H) (side (after P0 line)) i Ev U) as K1. pose proof (test_checks z b0 line' Z F H (other (side (after P0 line))) i Ev U') as K2.
      pose proof (test_checks z b0 line' Z F H (side (after P0 line)) i Ev U') as K3. pose proof (shift_checks i Ev H4 U S) as K4.
      pose proof (test_turn z b0 line Z F (proj2 H)) as T1. pose proof (test_opp z b0 line Z F (proj2 H)) as T2. fold P0 p p' in K1, K2, K3, T1, T2.
      assert (Cc : nthN 0%N (contCheck (st p)) (opp (turn p)) = nthN 0%N (contCheck (st p')) (opp (turn p))).
      { unfold p', line'. cbn [replay push bpos]. unfold doMove. cbv zeta. rewrite doMoveCI_cc. unfold setContCheck. fold p. destruct (replay_cc z b0 line Z (f_good _ _ F) (f_cached _ _ F) (fresh_cc _ _ F) (proj2 H)) as [L2 _]. fold p in L2.
        rewrite nthN_updN by (rewrite T1, L2; destruct (side (after P0 line)); cbn; lia). rewrite T2, T1. now destruct (side (after P0 line)). }
      rewrite Cc. rewrite T2. rewrite T1. assert (Sd : side (after P0 line') = other (side (after P0 line))) by (unfold line'; cbn [after]; unfold play; now destruct m).
      assert (NB' : ~ (all_checks P0 line' (side (after P0 line)) i /\ all_checks P0 line' (other (side (after P0 line))) i)) by (destruct (side (after P0 line)); cbn [other]; tauto). clear NB.
      rewrite <- K4 in K1.
      destruct (Z.of_nat i <=? Z.of_N (nthN 0%N (contCheck (st p)) (ncolor (side (after P0 line))))) eqn:Q1.
      - assert (A : all_checks P0 line' (side (after P0 line)) i) by now apply K1. inversion J; subst r; try rewrite Sd in *; try rewrite other_other in *; try tauto; congruence.
      - assert (A : ~ all_checks P0 line' (side (after P0 line)) i) by (intros X; apply K1 in X; congruence).
        destruct (Z.of_nat i <=? Z.of_N (nthN 0%N (contCheck (st p')) (ncolor (other (side (after P0 line)))))) eqn:Q2.
        + assert (B : all_checks P0 line' (other (side (after P0 line))) i) by now apply K2. inversion J; subst r; try rewrite Sd in *; try rewrite other_other in *; try tauto; congruence.
        + assert (B : ~ all_checks P0 line' (other (side (after P0 line))) i) by (intros X; apply K2 in X; congruence). inversion J; subst r; try rewrite Sd in *; try rewrite other_other in *; try tauto; congruence. }
    destruct (pred_scan n) as [(i2 & s2 & r2 & Ca2 & Es2 & Lk2 & Le2 & Em)|[Em Le2]].
    - assert (i2 = i) as ->.
      { destruct (Nat.lt_trichotomy i2 i) as [L|[L|L]]; auto; exfalso.
        - apply (lk_lk' s2 (Z.of_nat i2)); [congruence|]. now apply Le.
        - rewrite (Le2 i s Ca L Es) in Lm. discriminate. }
      assert (s2 = s) as -> by congruence. congruence.
    - rewrite (Le2 i s Ca Es) in Lm. discriminate.
  Qed.
End Predict.
