(* Proofs about the feature planes. *)
From Verif Require Export FeaturesProofs.
Local Open Scope N_scope.
Local Opaque N.mul N.add N.sub N.div N.modulo.

(* ---- buffers ---- *)
Definition fits (m : Mem) (l : list N) : Prop := forall i, In i l -> i < memLen m.
Lemma setOnes_ok : forall l m, fits m l -> exists m', setOnes (Some m) l = Some m' /\ length m' = length m /\
  forall i, (In i l /\ nthN 0%Z m' i = 1%Z) \/ (~ In i l /\ nthN 0%Z m' i = nthN 0%Z m i).
Proof.
  induction l as [|a l IH]; intros m F; [exists m; split; [reflexivity|]; split; auto|].
  unfold setOnes. cbn [fold_left]. fold (setOnes (setOne (Some m) a) l). unfold setOne at 1.
  assert (La : a < memLen m) by (apply F; now left). destruct (N.ltb_spec a (memLen m)); [|lia].
  assert (LU : length (updN m a 1%Z) = length m) by apply length_upd_nat.
  destruct (IH (updN m a 1%Z)) as (m' & E & L & H').
  { intros i I. unfold memLen. rewrite LU. apply F. now right. }
  exists m'. split; [exact E|]. split; [congruence|]. intros i. cbn [In]. destruct (H' i) as [[I X]|[I X]]; [left; auto|].
  rewrite nthN_updN in X by exact La. destruct (N.eqb_spec a i) as [->|Ne]; [left; auto|]. right. split; [|exact X]. intros [?|?]; auto.
Qed.
Lemma clear_ok m n : n <= memLen m -> exists m', fillZero (Some m) n = Some m' /\ length m' = length m /\
  forall i, nthN 0%Z m' i = if i <? n then 0%Z else nthN 0%Z m i.
Proof.
  intros H. unfold fillZero. destruct (N.leb_spec n (memLen m)); [|lia]. eexists. split; [reflexivity|]. unfold memLen in H.
  split; [rewrite app_length, repeat_length, skipn_length; lia|]. intros i. unfold nthN. destruct (N.ltb_spec i n).
  - rewrite app_nth1 by (rewrite repeat_length; lia). apply nth_repeat.
  - rewrite app_nth2 by (rewrite repeat_length; lia). rewrite repeat_length. rewrite <- (firstn_skipn (N.to_nat n) m) at 2. rewrite app_nth2 by (rewrite firstn_length; lia). f_equal. rewrite firstn_length. lia.
Qed.
Lemma entry_nth m i : entry m (Z.of_N i) = nthN 0%Z m i.
Proof. unfold entry, nthN. f_equal. lia. Qed.
Lemma marked_ones m m' l (ones : Z -> Prop) : length m' = length m -> (forall i, (In i l /\ nthN 0%Z m' i = 1%Z) \/ (~ In i l /\ nthN 0%Z m' i = nthN 0%Z m i)) ->
  (forall i, In i l <-> ones (Z.of_N i)) -> marked m m' ones.
Proof.
  intros L H O. split; [exact L|]. intros i Hi. rewrite <- (Z2N.id i) by lia. rewrite !entry_nth, <- O. apply H.
Qed.

(* ---- views ---- *)
Definition viewN (v : color) (sq : N) : N := match v with Sente => sq | Gote => 80 - sq end.
Lemma cell_N s : on_board s -> cell s = Z.of_N (nsquare s).
Proof. intros [A B]. unfold cell, nsquare. lia. Qed.
Lemma seen_board v s : on_board s -> on_board (seen v s).
Proof. intros [A B]. destruct v; cbn [seen]; split; cbn [fst snd]; lia. Qed.
Lemma seen_cell v s : on_board s -> cell (seen v s) = Z.of_N (viewN v (nsquare s)).
Proof.
  intros Hs. pose proof (nsquare_lt s Hs). pose proof (cell_N s Hs) as E. destruct v; cbn [seen viewN]; [exact E|].
  unfold cell in *. cbn [fst snd]. destruct Hs. lia.
Qed.
Lemma kind_no_N k : kind_no k = (Z.of_N (nkind k) - 1)%Z.
Proof. destruct k; reflexivity. Qed.
Lemma kind_no_range k : (0 <= kind_no k < 14)%Z.
Proof. destruct k; cbn; lia. Qed.
Lemma kind_no_inj k k' : kind_no k = kind_no k' -> k = k'.
Proof. rewrite !kind_no_N. intros E. assert (X : nkind k = nkind k') by lia. apply (f_equal kindN) in X. now rewrite !kind_inv in X. Qed.
Lemma whose_range v c : (0 <= whose v c < 2)%Z.
Proof. destruct v, c; cbn; lia. Qed.
Lemma whose_inj v c c' : whose v c = whose v c' -> c = c'.
Proof. destruct v, c, c'; cbn; congruence || lia. Qed.
Lemma cell_range s : on_board s -> (0 <= cell s < 81)%Z.
Proof. intros [A B]. unfold cell. lia. Qed.
Lemma seen_inj v s t : on_board s -> on_board t -> cell (seen v s) = cell (seen v t) -> s = t.
Proof. intros [A B] [C D]. destruct s as [a b], t as [c d]. cbn [fst snd] in *. destruct v; unfold cell, seen; cbn [fst snd]; intros E; f_equal; lia. Qed.

(* ---- piece planes ---- *)
Definition colors (v : color) : list N := match v with Sente => [Black; White] | Gote => [White; Black] end.
Lemma colors_at v c : nthN 0 (colors v) (Z.to_N (whose v c)) = ncolor c.
Proof. destruct v, c; reflexivity. Qed.
Lemma types_at : forall n, n < 28 -> nthN 0 (pieceTypes ++ pieceTypes) n = n mod 14 + 1.
Proof. intros n H. assert (E : forallb (fun n => nthN 0 (pieceTypes ++ pieceTypes) n =? n mod 14 + 1) (seqN 0 28) = true) by (vm_compute; reflexivity).
  rewrite forallb_forall in E. apply N.eqb_eq, E. apply in_seqN. cbn; lia. Qed.
Definition plane_index (v c : color) (k : kind) (s : square) : Z := ((14 * whose v c + kind_no k) * 81 + cell (seen v s))%Z.
Lemma planes_iff p v i : views p -> agree p -> (In i (planeOnes p (viewN v) (colors v)) <->
  exists c k s, on_board s /\ at_square (abs p) s = Some (c, k) /\ Z.of_N i = plane_index v c k s).
Proof.
  intros V A. unfold planeOnes. rewrite in_flat_map. split.
  - intros (n & In1 & In2). apply in_seqN in In1. cbv zeta in In2. rewrite in_map_iff in In2. destruct In2 as (sq & E & In2).
    assert (Hn : n < 28) by (cbn in In1; lia). rewrite types_at in In2 by exact Hn.
    assert (exists c, nthN 0 (colors v) (n / 14) = ncolor c /\ Z.of_N (n / 14) = whose v c) as (c & Ec & Wc).
    { assert (n / 14 = 0 \/ n / 14 = 1) as [->| ->] by (assert (n / 14 < 2) by (apply N.div_lt_upper_bound; lia); lia); [exists v|exists (other v)]; destruct v; split; reflexivity. }
    assert (Hm : n mod 14 < 14) by (apply N.mod_lt; lia).
    assert (nkind (kindN (n mod 14 + 1)) = n mod 14 + 1) as Ek by (apply kind_inv'; lia).
    rewrite Ec, <- Ek in In2. set (k := kindN (n mod 14 + 1)) in *. clearbody k.
    apply in_bbList in In2 as [Ls S]; [|apply wf_and_r, wf_bbC; auto using ncolor_lt].
    exists c, k, (squareN sq). pose proof (on_board_N sq Ls) as B. split; [exact B|]. split.
    + apply (ag_piece p A _ _ _ B). now rewrite square_inv.
    + unfold plane_index. rewrite seen_cell, square_inv by auto. rewrite kind_no_N, Ek, <- Wc. pose proof (N.div_mod n 14 ltac:(lia)). subst i. destruct v; cbn [viewN]; lia.
  - intros (c & k & s & B & E & Ei). pose proof (whose_range v c). pose proof (kind_no_range k). set (n := Z.to_N (14 * whose v c + kind_no k)).
    exists n. split; [apply in_seqN; cbn; lia|]. cbv zeta. rewrite types_at by lia.
    assert (D : n / 14 = Z.to_N (whose v c)) by (symmetry; apply (N.div_unique n 14 _ (Z.to_N (kind_no k))); lia).
    assert (M : n mod 14 + 1 = nkind k) by (rewrite <- (N.mod_unique n 14 (Z.to_N (whose v c)) (Z.to_N (kind_no k))) by lia; rewrite kind_no_N; pose proof (nkind_lt k); lia).
    rewrite D, M, colors_at. apply in_map_iff. exists (nsquare s). split.
    + unfold plane_index in Ei. rewrite seen_cell in Ei by auto. lia.
    + apply in_bbList; [apply wf_and_r, wf_bbC; auto using ncolor_lt|]. split; [now apply nsquare_lt|]. now apply (ag_piece p A s c k B).
Qed.
Lemma plane_index_range v c k s : on_board s -> (0 <= plane_index v c k s < 2268)%Z.
Proof. intros B. unfold plane_index. pose proof (whose_range v c). pose proof (kind_no_range k). pose proof (cell_range _ (seen_board v s B)). lia. Qed.
Definition pieces_marked (P : position) (v : color) (m m' : list Z) : Prop :=
  marked m m' (fun i => exists c k s, on_board s /\ at_square P s = Some (c, k) /\ i = ((14 * whose v c + kind_no k) * 81 + cell (seen v s))%Z).
Lemma planes_ok p v m : views p -> agree p -> (2268 <= Z.of_nat (length m))%Z ->
  exists m', setOnes (Some m) (planeOnes p (viewN v) (colors v)) = Some m' /\ pieces_marked (abs p) v m m'.
Proof.
  intros V A L. destruct (setOnes_ok (planeOnes p (viewN v) (colors v)) m) as (m' & E & Lm & H).
  - intros i I. apply (planes_iff p v i V A) in I as (c & k & s & B & _ & X). pose proof (plane_index_range v c k s B). unfold memLen. lia.
  - exists m'. split; [exact E|]. eapply marked_ones; [exact Lm|exact H|]. intros i. rewrite (planes_iff p v i V A). unfold plane_index. reflexivity.
Qed.
Lemma piece_planes_exact z b m : okZob z -> reachable z b -> (2268 <= Z.of_nat (length m))%Z ->
  exists m', piecePlanes (bpos b) m = Some m' /\ pieces_marked (abs (bpos b)) Sente m m'.
Proof.
  intros Z R L. destruct (reachable_ok z b Z R) as [G C]. exact (planes_ok (bpos b) Sente m (g_views _ G) (good_agree z _ G C) L).
Qed.
Lemma piece_planes_rotate_exact z b m : okZob z -> reachable z b -> (2268 <= Z.of_nat (length m))%Z ->
  exists m', piecePlanesRotate (bpos b) m = Some m' /\ pieces_marked (abs (bpos b)) (side (abs (bpos b))) m m'.
Proof.
  intros Z R L. destruct (reachable_ok z b Z R) as [G C]. pose proof (planes_ok (bpos b) (side (abs (bpos b))) m (g_views _ G) (good_agree z _ G C) L) as H.
  unfold piecePlanesRotate. pose proof (good_turn _ G) as T. set (p := bpos b) in *. change (side (abs p)) with (colorN (turn p)) in *.
  assert (turn p = 0 \/ turn p = 1) as [E|E] by lia; rewrite E in *; exact H.
Qed.
