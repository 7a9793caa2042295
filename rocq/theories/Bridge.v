(* The model's geometry and boards against the rules of Spec.v. *)
From Verif Require Export Abs LineProofs CheckersProofs.
Local Open Scope N_scope.

(* ---- numbering ---- *)
Lemma color_inv c : c < 2 -> ncolor (colorN c) = c.
Proof. intros H. assert (c = 0 \/ c = 1) as [->| ->] by lia; reflexivity. Qed.
Lemma color_inv' c : colorN (ncolor c) = c.
Proof. now destruct c. Qed.
Lemma ncolor_lt c : ncolor c < 2.
Proof. destruct c; reflexivity. Qed.
Lemma colorN_opp c : c < 2 -> colorN (opp c) = other (colorN c).
Proof. intros H. assert (c = 0 \/ c = 1) as [->| ->] by lia; reflexivity. Qed.
Lemma ncolor_other c : ncolor (other c) = opp (ncolor c).
Proof. now destruct c. Qed.
Lemma other_other c : other (other c) = c.
Proof. now destruct c. Qed.
Lemma kind_inv k : kindN (nkind k) = k.
Proof. now destruct k. Qed.
Lemma kind_inv' pt : 1 <= pt < 15 -> nkind (kindN pt) = pt.
Proof. intros H. apply ptCases in H. repeat (destruct H as [->|H]); try reflexivity. now subst. Qed.
Lemma nkind_lt k : 1 <= nkind k < 15.
Proof. destruct k; cbn; lia. Qed.
Lemma square_inv i : i < 81 -> nsquare (squareN i) = i.
Proof. intros H. unfold nsquare, squareN. cbn [fst snd]. pose proof (N.div_mod i 9 ltac:(lia)). lia. Qed.
Lemma square_inv' s : on_board s -> squareN (nsquare s) = s.
Proof.
  destruct s as [f r]. unfold on_board, nsquare, squareN. cbn [fst snd]. intros [F R].
  assert (E : Z.of_N (Z.to_N ((f - 1) * 9 + (r - 1))) = ((f - 1) * 9 + (r - 1))%Z) by lia.
  f_equal; rewrite ?N2Z.inj_div, ?N2Z.inj_mod, E; change (Z.of_N 9) with 9%Z.
  - rewrite Z.div_add_l by lia. rewrite (Z.div_small (r - 1)) by lia. lia.
  - rewrite (Z.add_comm ((f - 1) * 9)), Z.mod_add by lia. rewrite Z.mod_small by lia. lia.
Qed.
Lemma nsquare_lt s : on_board s -> nsquare s < 81.
Proof. destruct s as [f r]. unfold on_board, nsquare. cbn [fst snd]. lia. Qed.
Lemma on_board_N i : i < 81 -> on_board (squareN i).
Proof. intros H. unfold on_board, squareN. cbn [fst snd]. assert (i / 9 < 9) by (apply N.div_lt_upper_bound; lia). pose proof (N.mod_lt i 9 ltac:(lia)). lia. Qed.
Lemma on_boardb_iff s : on_boardb s = true <-> on_board s.
Proof. unfold on_boardb, on_board. rewrite !andb_true_iff, !Z.leb_le. tauto. Qed.
Lemma square_inj s t : on_board s -> on_board t -> nsquare s = nsquare t -> s = t.
Proof. intros Hs Ht H. rewrite <- (square_inv' s Hs), <- (square_inv' t Ht). now rewrite H. Qed.
Lemma squareN_inj i j : i < 81 -> j < 81 -> squareN i = squareN j -> i = j.
Proof. intros Hi Hj H. rewrite <- (square_inv i Hi), <- (square_inv j Hj). now rewrite H. Qed.
Lemma square_eqb_iff s t : square_eqb s t = true <-> s = t.
Proof. destruct s as [a b], t as [c d]. unfold square_eqb. cbn [fst snd]. rewrite andb_true_iff, !Z.eqb_eq. split; [intros [-> ->]; reflexivity|intros E; injection E; auto]. Qed.
Lemma square_eqb_N i j : i < 81 -> j < 81 -> square_eqb (squareN i) (squareN j) = (i =? j).
Proof. intros Hi Hj. apply eq_true_iff_eq. rewrite square_eqb_iff, N.eqb_eq. split; [now apply squareN_inj|now intros ->]. Qed.
Lemma kind_eqb_iff a b : kind_eqb a b = true <-> a = b.
Proof. split; [|intros ->; now destruct b]. destruct a, b; cbn; congruence. Qed.
Lemma color_eqb_iff a b : color_eqb a b = true <-> a = b.
Proof. split; [|intros ->; now destruct b]. destruct a, b; cbn; congruence. Qed.
Lemma mkPiece_arith c pt : c < 2 -> pt < 16 -> mkPiece c pt = 16 * c + pt.
Proof.
  intros Hc Hp. assert (c = 0 \/ c = 1) as [->| ->] by lia.
  - unfold mkPiece. rewrite N.shiftl_0_l, N.lor_0_l. lia.
  - assert (G : forallb (fun y => mkPiece 1 y =? 16 + y) (seqN 0 16) = true) by reflexivity.
    pose proof (forallb_seqN _ _ _ G pt ltac:(lia)) as E. cbv beta in E. lia.
Qed.
Lemma ptOf_arith x : ptOf x = x mod 16.
Proof. unfold ptOf. change 15 with (N.ones 4). now rewrite N.land_ones. Qed.
Lemma colorOf_arith x : colorOf x = x / 16.
Proof. unfold colorOf. now rewrite N.shiftr_div_pow2. Qed.
Lemma pieceN_mk c pt : c < 2 -> 1 <= pt < 15 -> pieceN (mkPiece c pt) = Some (colorN c, kindN pt).
Proof. intros Hc Hp. unfold pieceN. rewrite <- ptOf_arith, <- colorOf_arith. rewrite pt_mk, col_mk, mk_nz by auto. reflexivity. Qed.
Lemma pieceN_some x : vpc x = true -> x <> 0 -> pieceN x = Some (colorN (colorOf x), kindN (ptOf x)).
Proof. intros V H. unfold pieceN. rewrite <- ptOf_arith, <- colorOf_arith. now rewrite (proj2 (N.eqb_neq _ _) H). Qed.
Lemma pieceN_iff x c k : vpc x = true -> (pieceN x = Some (c, k) <-> x = mkPiece (ncolor c) (nkind k)).
Proof.
  intros V. destruct (N.eq_dec x 0) as [->|H].
  - split; [discriminate|]. intros E. exfalso. pose proof (mk_nz (ncolor c) (nkind k) (ncolor_lt c) (nkind_lt k)) as M. rewrite <- E in M. discriminate.
  - rewrite pieceN_some by auto. destruct (vpc_facts x V H) as (P & C & E). split.
    + intros F. injection F as <- <-. now rewrite color_inv, kind_inv' by auto.
    + intros ->. rewrite col_mk, pt_mk by (auto using ncolor_lt, nkind_lt). now rewrite color_inv', kind_inv.
Qed.
Lemma pieceN_none x : pieceN x = None <-> x = 0.
Proof. unfold pieceN. destruct (N.eqb_spec x 0); [tauto|]. split; [discriminate|contradiction]. Qed.

(* ---- directions ---- *)
Definition turnDir (c : N) (d : Z * Z) : dir := (fst d, fwd c * snd d)%Z.
Lemma fwd_forward c : c < 2 -> fwd c = forward (colorN c).
Proof. intros H. assert (c = 0 \/ c = 1) as [->| ->] by lia; reflexivity. Qed.
Lemma steps_turn_check : forallb (fun c => forallb (fun pt =>
  inclb (map (turnDir c) (steps (kindN pt))) (stepsOf pt c) && inclb (stepsOf pt c) (map (turnDir c) (steps (kindN pt)))
  && inclb (map (turnDir c) (slides (kindN pt))) (slidesOf pt c) && inclb (slidesOf pt c) (map (turnDir c) (slides (kindN pt)))) (seqN 1 14)) [0; 1] = true.
Proof. vmtrue. Qed.
Lemma dirs_turn c pt e : c < 2 -> 1 <= pt < 15 ->
  (In e (stepsOf pt c) <-> exists d, In d (steps (kindN pt)) /\ e = turnDir c d) /\
  (In e (slidesOf pt c) <-> exists d, In d (slides (kindN pt)) /\ e = turnDir c d).
Proof.
  intros Hc Hp. pose proof (forallb_colors _ steps_turn_check c Hc) as G. cbv beta in G.
  pose proof (forallb_seqN _ _ _ G pt ltac:(lia)) as G'. cbv beta in G'. rewrite !andb_true_iff in G'. destruct G' as [[[A B] C] D].
  apply inclb_sound in A, B, C, D. split; split.
  - intros H. apply B in H. apply in_map_iff in H as (d & <- & H). eauto.
  - intros (d & H & ->). apply A. now apply in_map.
  - intros H. apply D in H. apply in_map_iff in H as (d & <- & H). eauto.
  - intros (d & H & ->). apply C. now apply in_map.
Qed.
Lemma off_shift c s d n t : c < 2 -> (off s (turnDir c d) n t <-> squareN t = displaced (colorN c) (squareN s) d n).
Proof.
  intros Hc. unfold off, turnDir, displaced, squareN, fz, rz. cbn [fst snd]. rewrite (fwd_forward c Hc). split.
  - intros [A B]. f_equal; lia.
  - intros E. injection E as A B. lia.
Qed.
Lemma betw_line s e n t x : s < 81 -> t < 81 -> In e allDirs -> (1 <= n)%Z -> off s e n t ->
  (In x (betw s t) <-> x < 81 /\ exists i, (1 <= i < n)%Z /\ off s e i x).
Proof.
  intros Hs Ht He Hn O. rewrite betw_iff by auto. split.
  - intros [Hx (d & a & b & Hd & Ha & Hb & O1 & O2)]. split; auto.
    assert (d = e /\ (a + b = n)%Z) as [-> E] by (apply (off_uniq s t); auto; [lia|eapply off_add; eauto]). exists a. split; [lia|auto].
  - intros [Hx (i & Hi & O1)]. split; auto. exists e, i, (n - i)%Z. split; auto. split; [lia|]. split; [lia|]. split; auto. eapply off_sub; eauto.
Qed.
(* a square on the way is on the board *)
Lemma off_mid s e n t i : s < 81 -> t < 81 -> In e allDirs -> off s e n t -> (1 <= i < n)%Z -> exists x, x < 81 /\ off s e i x.
Proof.
  intros Hs Ht He [F R] Hi.
  assert (Fs : (0 <= fz s < 9 /\ 0 <= rz s < 9 /\ 0 <= fz t < 9 /\ 0 <= rz t < 9)%Z).
  { unfold fz, rz. assert (s / 9 < 9) by (apply N.div_lt_upper_bound; lia). assert (t / 9 < 9) by (apply N.div_lt_upper_bound; lia).
    pose proof (N.mod_lt s 9 ltac:(lia)). pose proof (N.mod_lt t 9 ltac:(lia)). lia. }
  assert (Q : (0 <= fz s + i * fst e < 9 /\ 0 <= rz s + i * snd e < 9)%Z) by (dcase e He; lia).
  destruct Q as [Q1 Q2]. assert (Hon : on_board (fz s + i * fst e + 1, rz s + i * snd e + 1)%Z) by (unfold on_board; cbn [fst snd]; lia).
  exists (nsquare (fz s + i * fst e + 1, rz s + i * snd e + 1)%Z). split; [now apply nsquare_lt|].
  pose proof (square_inv' _ Hon) as E. unfold squareN at 1 in E. injection E as E1 E2. unfold off, fz, rz in *. lia.
Qed.
Lemma attacks_N (occ : N -> bool) (P : square -> Prop) c pt s t : c < 2 -> 1 <= pt < 15 -> s < 81 -> t < 81 ->
  (forall x, x < 81 -> (P (squareN x) <-> occ x = true)) ->
  (reach pt c s t && clear occ s t = true <-> attacks P (colorN c) (kindN pt) (squareN s) (squareN t)).
Proof.
  intros Hc Hp Hs Ht HP. rewrite reach_eq. unfold attacks. rewrite andb_true_iff, orb_true_iff. split.
  - intros [[H|H] C].
    + left. unfold stepIn in H. apply existsb_exists in H as (e & He & H). apply stepHits_iff in H; auto.
      apply (dirs_turn c pt e Hc Hp) in He as (d & Hd & ->). exists d. split; auto. now apply off_shift.
    + right. unfold rayIn in H. apply existsb_exists in H as (e & He & H). assert (He' := He). apply slides_allDirs in He'.
      apply memN_ray in H as (n & Hn & O); auto. assert (Hi := betw_line s e n t). rewrite clear_iff in C.
      apply (dirs_turn c pt e Hc Hp) in He as (d & Hd & ->). exists d, n. split; auto. split; auto. split; [now apply off_shift|].
      intros i Hi' Hocc. destruct (off_mid s _ n t i Hs Ht He' O Hi') as (x & Hx & Ox). assert (E := Ox). rewrite off_shift in E by auto.
      rewrite <- E in Hocc. apply HP in Hocc; auto. rewrite C in Hocc; [discriminate|]. apply Hi; auto. split; auto. exists i. auto.
  - intros [(d & Hd & E)|(d & n & Hd & Hn & E & C)]; apply off_shift in E; auto.
    + assert (He : In (turnDir c d) (stepsOf pt c)) by (apply (dirs_turn c pt _ Hc Hp); eauto).
      assert (H : stepIn (stepsOf pt c) s t = true) by (apply existsb_exists; exists (turnDir c d); split; auto; now apply stepHits_iff).
      split; [now left|]. now apply (stepsOf_clear pt c).
    + assert (He : In (turnDir c d) (slidesOf pt c)) by (apply (dirs_turn c pt _ Hc Hp); eauto). assert (He' := He). apply slides_allDirs in He'.
      split; [right; apply existsb_exists; exists (turnDir c d); split; auto; apply memN_ray; eauto|].
      rewrite clear_iff. intros x Hx. apply (betw_line s _ n t x Hs Ht He' Hn E) in Hx as (Hx & i & Hi & Ox).
      apply off_shift in Ox; auto. specialize (C i Hi). rewrite <- Ox in C. destruct (occ x) eqn:Eo; [|reflexivity]. exfalso. apply C. now apply HP.
Qed.

(* ---- positions ---- *)
Lemma abs_at p i : i < 81 -> at_square (abs p) (squareN i) = pieceN (pieceAt p i).
Proof. intros H. cbn [abs at_square]. rewrite (proj2 (on_boardb_iff _)) by now apply on_board_N. now rewrite square_inv. Qed.
Lemma abs_off p s : ~ on_board s -> at_square (abs p) s = None.
Proof. intros H. cbn [abs at_square]. destruct (on_boardb s) eqn:E; [|reflexivity]. now apply on_boardb_iff in E. Qed.
Lemma abs_occ p i : i < 81 -> (occupied (abs p) (squareN i) <-> occOf (board p) i = true).
Proof.
  intros H. unfold occupied. rewrite abs_at by auto. rewrite pieceN_none. unfold occOf. rewrite negb_true_iff, N.eqb_neq. reflexivity.
Qed.
Lemma okB_at p i : okBoard (board p) -> i < 81 -> vpc (pieceAt p i) = true.
Proof. intros [_ H] Hi. now apply H. Qed.
Lemma attacks_abs p c pt s t : c < 2 -> 1 <= pt < 15 -> s < 81 -> t < 81 ->
  (reach pt c s t && clear (occOf (board p)) s t = true <-> attacks (occupied (abs p)) (colorN c) (kindN pt) (squareN s) (squareN t)).
Proof. intros. apply attacks_N; auto. intros. now apply abs_occ. Qed.
Lemma piece_attacks_abs p c s t : okBoard (board p) -> c < 2 -> s < 81 -> t < 81 ->
  (piece_attacks (abs p) (colorN c) (squareN s) (squareN t) <-> isCol (board p) c s && att (board p) s t = true).
Proof.
  intros Ok Hc Hs Ht. unfold piece_attacks. rewrite abs_at by auto. unfold isCol, att, attOcc. change (at_ (board p) s) with (pieceAt p s).
  pose proof (okB_at p s Ok Hs) as V. split.
  - intros (k & E & A). apply pieceN_iff in E; auto. rewrite color_inv in E by auto. pose proof (nkind_lt k) as Hk.
    rewrite <- (kind_inv k) in A. apply attacks_abs in A; auto. rewrite E. rewrite col_mk, pt_mk, mk_nz, N.eqb_refl by auto. exact A.
  - intros H. apply andb_prop in H as [H A]. apply andb_prop in H as [H0 Ec]. rewrite H0 in A. cbn [andb] in A. apply negb_true_iff, N.eqb_neq in H0. apply N.eqb_eq in Ec.
    destruct (vpc_facts _ V H0) as (P & C' & E). rewrite Ec in *. exists (kindN (ptOf (pieceAt p s))). split.
    + rewrite pieceN_some by auto. now rewrite Ec.
    + now apply attacks_abs.
Qed.
Lemma attacked_by_abs p c t : okBoard (board p) -> c < 2 -> t < 81 ->
  (attacked_by (abs p) (colorN c) (squareN t) <-> existsb (fun s => isCol (board p) c s && att (board p) s t) squares = true).
Proof.
  intros Ok Hc Ht. unfold attacked_by. rewrite existsb_exists. split.
  - intros (s & Hs & A). exists (nsquare s). split; [apply in_squares; now apply nsquare_lt|]. apply piece_attacks_abs; auto using nsquare_lt. now rewrite square_inv'.
  - intros (s & Hs & A). apply in_squares in Hs. exists (squareN s). split; [now apply on_board_N|]. now apply piece_attacks_abs.
Qed.
