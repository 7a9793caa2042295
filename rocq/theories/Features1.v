(* Proofs about the first feature buffer. *)
From Verif Require Export PlaneProofs.
Local Open Scope N_scope.
Local Opaque N.mul N.add N.sub N.div N.modulo.

Lemma attacks_occ p c k s t : views p -> on_board s -> on_board t ->
  (isSet (attacksFrom (nkind k) (ncolor c) (nsquare s) (occBB p)) (nsquare t) = true <-> attacks (occupied (abs p)) c k s t).
Proof.
  intros V Hs Ht. pose proof (nsquare_lt s Hs). pose proof (nsquare_lt t Ht). pose proof (nkind_lt k). pose proof (ncolor_lt c).
  rewrite attacksFrom_spec by auto. rewrite (attacks_N (isSet (occBB p)) (occupied (abs p))).
  - rewrite kind_inv, !square_inv' by auto. destruct c; reflexivity.
  - auto.
  - auto.
  - auto.
  - auto.
  - intros x Hx. rewrite isSet_occ_fun by auto. now apply abs_occ.
Qed.
Lemma attacks_occ' p c k s t : views p -> on_board s -> on_board t ->
  (attacks (fun q => isSet (occBB p) (nsquare q) = true) c k s t <-> attacks (occupied (abs p)) c k s t).
Proof. intros V Hs Ht. rewrite <- attacks_from by auto. now apply attacks_occ. Qed.
Lemma isSet_fold_cond (P : N -> bool) (B : N -> BB) t : forall l acc,
  isSet (fold_left (fun bb x => if P x then bbOr bb (B x) else bb) l acc) t = isSet acc t || existsb (fun x => P x && isSet (B x) t) l.
Proof.
  induction l as [|x l IH]; intros acc; cbn [fold_left existsb]; [now rewrite orb_false_r|]. rewrite IH. destruct (P x); cbn [andb orb]; [|reflexivity].
  rewrite isSet_or. now rewrite <- orb_assoc.
Qed.
Lemma NoDup_front {A} (l r : list A) : NoDup (l ++ r) -> NoDup l.
Proof. induction l as [|a l IH]; intros N; [constructor|]. inversion N as [|? ? X Y]; subst. constructor; [intros I; apply X; apply in_or_app; now left|now apply IH]. Qed.
Section one.
Variable p : Position.
Hypothesis V : views p.
Hypothesis A : agree p.
Let P := abs p.
Let v := side P.
Lemma turn_v : turn p = ncolor v.
Proof. unfold v, P. cbn [abs side]. rewrite color_inv; auto. apply V. Qed.
Lemma viewColor_N c : Z.of_N (viewColor p (ncolor c)) = whose v c.
Proof. unfold viewColor. rewrite turn_v. destruct v, c; reflexivity. Qed.
Lemma viewSquare_N s : on_board s -> Z.of_N (viewSquare p (nsquare s)) = cell (seen v s).
Proof. intros B. rewrite seen_cell by exact B. unfold viewSquare. rewrite turn_v. destruct v; reflexivity. Qed.
Lemma kindAttacks_iff c k s : on_board s -> (isSet (kindAttacks p (ncolor c) (nkind k)) (nsquare s) = true <-> kind_attacks P c k s).
Proof.
  intros B. unfold kindAttacks. rewrite isSet_fold_cond, isSet_zero. cbn [orb]. rewrite existsb_exists. unfold kind_attacks. split.
  - intros (t & I & E). apply in_squares in I. apply andb_true_iff in E as [E1 E2]. pose proof (on_board_N t I) as Bt. exists (squareN t). split; [exact Bt|].
    assert (Et : at_square P (squareN t) = Some (c, k)).
    { unfold P. rewrite abs_at by auto. rewrite !andb_true_iff, negb_true_iff, N.eqb_neq, !N.eqb_eq in E1. destruct E1 as [[N1 N2] N3].
      rewrite (pieceN_some _ (okB_at p t (v_board p V) I) N1). rewrite N2, N3, kind_inv. destruct c; reflexivity. }
    split; [exact Et|]. rewrite <- (square_inv t I) in E2. now apply attacks_occ in E2.
  - intros (t & Bt & Et & At). exists (nsquare t). pose proof (nsquare_lt t Bt) as Lt. split; [now apply in_squares|]. apply andb_true_iff. split; [|now apply attacks_occ].
    unfold P in Et. rewrite <- (square_inv' t Bt) in Et. rewrite abs_at in Et by auto. pose proof (nkind_lt k). pose proof (ncolor_lt c).
    destruct (vpc_cases _ (okB_at p _ (v_board p V) Lt)) as [E|(c' & pt & Hc' & Hp & E)]; rewrite E in Et; [discriminate Et|].
    rewrite pieceN_mk in Et by auto. injection Et as Ec Ek. rewrite E. rewrite mk_nz, col_mk, pt_mk by auto. rewrite <- Ec, <- Ek, color_inv, kind_inv', !N.eqb_refl by auto. reflexivity.
Qed.
Hypothesis AE : forall c s t, on_board s -> on_board t ->
  (isSet (attackersTo p (ncolor c) (nsquare t) (occBB p)) (nsquare s) = true <->
   exists k, at_square P s = Some (c, k) /\ attacks (fun q => isSet (occBB p) (nsquare q) = true) c k s t).
Lemma attackers_iff c s t : on_board s -> on_board t -> (isSet (attackersTo p (ncolor c) (nsquare t) (occBB p)) (nsquare s) = true <-> piece_attacks P c s t).
Proof.
  intros Hs Ht. rewrite AE by auto. unfold piece_attacks. split; intros (k & E & H); exists k; (split; [exact E|]); [apply attacks_occ' in H|apply attacks_occ']; auto.
Qed.
Lemma attackers_wf c s : wfBB (attackersTo p (ncolor c) (nsquare s) (occBB p)).
Proof. unfold attackersTo. apply wf_and_r, wf_bbC; auto using ncolor_lt. Qed.
Lemma attacked_iff c s n : on_board s -> (attacked_times P c s n <-> (0 <= n <= Z.of_N (popCount (attackersTo p (ncolor c) (nsquare s) (occBB p))))%Z).
Proof.
  intros B. rewrite popCount_all by apply attackers_wf. rewrite nat_N_Z. set (l := filter _ _).
  assert (IL : forall t, In t l <-> on_board t /\ piece_attacks P c t s).
  { intros t. unfold l. rewrite filter_In, all_squares_iff. split; intros [X Y]; (split; [exact X|]); now apply (attackers_iff c t s X B). }
  assert (NL : NoDup l) by (apply NoDup_filter, all_squares_NoDup). clearbody l. unfold attacked_times. split.
  - intros (k & N & E & F). split; [lia|]. rewrite <- E. apply inj_le. apply NoDup_incl_length; [exact N|]. intros t I. apply IL. now apply F.
  - intros H. exists (firstn (Z.to_nat n) l). split; [|split].
    + rewrite <- (firstn_skipn (Z.to_nat n) l) in NL. now apply NoDup_front in NL.
    + rewrite firstn_length. lia.
    + intros t I. apply IL. rewrite <- (firstn_skipn (Z.to_nat n) l). apply in_or_app. now left.
Qed.
Definition index_of (c : color) (plane : Z) (s : square) : Z := ((31 * whose v c + plane) * 81 + cell (seen v s))%Z.
Lemma index1_N c plane s : on_board s -> Z.of_N (index1 (viewColor p (ncolor c)) plane (viewSquare p (nsquare s))) = index_of c (Z.of_N plane) s.
Proof. intros B. unfold index1, index_of. rewrite <- (viewColor_N c), <- (viewSquare_N s B). lia. Qed.
(* what is written for one colour and one square *)
Definition marks (c : color) (s : square) (i : Z) : Prop :=
  (exists k, at_square P s = Some (c, k) /\ i = index_of c (kind_no k) s) \/
  (exists k, kind_attacks P c k s /\ i = index_of c (14 + kind_no k) s) \/
  (exists j, (0 <= j < 3)%Z /\ attacked_times P c s (j + 1) /\ i = index_of c (28 + j) s).
Lemma square_ones c s i : on_board s -> (In i (squareOnes p (ncolor c) (nsquare s)) <-> marks c s (Z.of_N i)).
Proof.
  intros B. unfold squareOnes. cbv zeta. rewrite in_app_iff, in_flat_map, in_map_iff. unfold marks. split.
  - intros [(pt & I & H)|(j & E & I)].
    + apply in_seqN in I. change (1 + N.of_nat 14) with 15 in I. assert (Ek : nkind (kindN pt) = pt) by (apply kind_inv'; lia). rewrite <- Ek in H. set (k := kindN pt) in *. clearbody k. clear pt Ek I.
      pose proof (nkind_lt k). pose proof (kind_no_N k) as Kn. apply in_app_iff in H as [H|H].
      * left. destruct (isSet _ _) eqn:S; [|destruct H]. destruct H as [<-|[]]. exists k. split; [now apply (ag_piece p A s c k B)|]. rewrite index1_N by exact B. f_equal. lia.
      * right. left. destruct (isSet _ _) eqn:S in H; [|destruct H]. destruct H as [<-|[]]. exists k. split; [now apply kindAttacks_iff|]. rewrite index1_N by exact B. f_equal. lia.
    + right. right. apply in_seqN in I. exists (Z.of_N j). split; [lia|]. split; [apply attacked_iff; [exact B|]; lia|]. rewrite <- E, index1_N by exact B. f_equal. lia.
  - intros [(k & E & Ei)|[(k & E & Ei)|(j & Hj & E & Ei)]].
    + left. exists (nkind k). pose proof (nkind_lt k). split; [apply in_seqN; change (1 + N.of_nat 14) with 15; lia|]. apply in_app_iff. left. apply (ag_piece p A s c k B) in E. rewrite E. left.
      apply N2Z.inj. rewrite Ei, index1_N by exact B. f_equal. rewrite kind_no_N. lia.
    + left. exists (nkind k). pose proof (nkind_lt k). split; [apply in_seqN; change (1 + N.of_nat 14) with 15; lia|]. apply in_app_iff. right. apply kindAttacks_iff in E; [|exact B]. rewrite E. left.
      apply N2Z.inj. rewrite Ei, index1_N by exact B. f_equal. rewrite kind_no_N. lia.
    + right. apply attacked_iff in E; [|exact B]. exists (Z.to_N j). split; [apply N2Z.inj; rewrite Ei, index1_N by exact B; f_equal; lia|]. apply in_seqN. lia.
Qed.
Lemma features1_iff i : In i (features1Ones p) <-> exists c s, on_board s /\ marks c s (Z.of_N i).
Proof.
  unfold features1Ones. rewrite in_flat_map. split.
  - intros (c & Ic & H). apply in_flat_map in H as (sq & Is & H). apply in_squares in Is.
    assert (exists c', c = ncolor c') as (c' & ->) by (destruct Ic as [<-|[<-|[]]]; [exists Sente|exists Gote]; reflexivity).
    exists c', (squareN sq). pose proof (on_board_N sq Is) as B. split; [exact B|]. apply square_ones; [exact B|]. now rewrite square_inv.
  - intros (c & s & B & M). exists (ncolor c). split; [destruct c; cbn; auto|]. apply in_flat_map. exists (nsquare s). split; [apply in_squares; now apply nsquare_lt|]. now apply square_ones.
Qed.
Lemma index_range c plane s : on_board s -> (0 <= plane < 31)%Z -> (0 <= index_of c plane s < 5022)%Z.
Proof. intros B Hp. unfold index_of. pose proof (whose_range v c). pose proof (cell_range _ (seen_board v s B)). lia. Qed.
Lemma index_inj c plane s c' plane' s' : on_board s -> on_board s' -> (0 <= plane < 31)%Z -> (0 <= plane' < 31)%Z ->
  index_of c plane s = index_of c' plane' s' -> c = c' /\ plane = plane' /\ s = s'.
Proof.
  intros B B' Hp Hp' E. unfold index_of in E. pose proof (whose_range v c). pose proof (whose_range v c'). pose proof (cell_range _ (seen_board v s B)). pose proof (cell_range _ (seen_board v s' B')).
  assert (X : (31 * whose v c + plane = 31 * whose v c' + plane')%Z /\ cell (seen v s) = cell (seen v s')) by lia. destruct X as [X Y].
  assert (W : whose v c = whose v c') by lia. split; [now apply whose_inj in W|]. split; [lia|]. now apply seen_inj in Y.
Qed.
Lemma features1_ok m : (5022 <= Z.of_nat (length m))%Z -> exists m', makeFeatures1 p m = Some m' /\ buffer1 P m m'.
Proof.
  intros L. unfold makeFeatures1. destruct (clear_ok m 5022) as (m0 & E0 & L0 & H0); [unfold memLen; lia|]. change (2 * 31 * 81) with 5022. rewrite E0.
  assert (RG : forall i, In i (features1Ones p) -> i < 5022).
  { intros i I. apply features1_iff in I as (c & s & B & [(k & _ & E)|[(k & _ & E)|(j & Hj & _ & E)]]); try pose proof (kind_no_range k);
      match type of E with _ = index_of ?c ?q ?s => pose proof (index_range c q s B ltac:(lia)) end; lia. }
  destruct (setOnes_ok (features1Ones p) m0) as (m' & E & L' & H); [intros i I; apply RG in I; unfold memLen; rewrite L0; lia|].
  exists m'. split; [exact E|]. split; [congruence|]. split.
  { intros i Hi. rewrite <- (Z2N.id i) by lia. rewrite !entry_nth. destruct (H (Z.to_N i)) as [[I _]|[_ ->]]; [apply RG in I; lia|]. rewrite H0. destruct (N.ltb_spec (Z.to_N i) 5022); [lia|reflexivity]. }
  assert (FL : forall c s plane, on_board s -> (0 <= plane < 31)%Z -> forall Q : Prop,
    (marks c s (index_of c plane s) <-> Q) -> flag (entry m' (index_of c plane s)) Q).
  { intros c s plane B Hp Q HQ. pose proof (index_range c plane s B Hp) as R. set (i := index_of c plane s) in *. unfold flag. rewrite <- HQ. rewrite <- (Z2N.id i) by lia. rewrite entry_nth.
    assert (X : In (Z.to_N i) (features1Ones p) <-> marks c s (Z.of_N (Z.to_N i))).
    { rewrite features1_iff. split; [|intros M; exists c, s; auto]. intros (c' & s' & B' & M). rewrite Z2N.id in * by lia.
      assert (c' = c /\ s' = s) as [-> ->]; [|exact M].
      destruct M as [(k & _ & Y)|[(k & _ & Y)|(j & Hj & _ & Y)]]; try pose proof (kind_no_range k); unfold i in Y; apply index_inj in Y; auto; try lia; destruct Y as (-> & _ & ->); auto. }
    rewrite <- X. destruct (H (Z.to_N i)) as [Y|[I Y]]; [now left|]. right. split; [exact I|]. rewrite Y, H0. destruct (N.ltb_spec (Z.to_N i) 5022); [reflexivity|lia]. }
  intros c s B. cbv zeta. repeat split.
  - intros k. pose proof (kind_no_range k) as K. apply (FL c s (kind_no k) B); [lia|]. split; [|intros X; left; eauto].
    intros [(k' & X & Y)|[(k' & X & Y)|(j & Hj & X & Y)]]; try pose proof (kind_no_range k'); apply index_inj in Y; auto; try lia; destruct Y as (_ & Y & _). apply kind_no_inj in Y. now subst.
  - intros k. pose proof (kind_no_range k) as K. apply (FL c s (14 + kind_no k)%Z B); [lia|]. split; [|intros X; right; left; eauto].
    intros [(k' & X & Y)|[(k' & X & Y)|(j & Hj & X & Y)]]; try pose proof (kind_no_range k'); apply index_inj in Y; auto; try lia; destruct Y as (_ & Y & _). assert (Z : kind_no k = kind_no k') by lia. apply kind_no_inj in Z. now subst.
  - intros j Hj. apply (FL c s (28 + j)%Z B); [lia|]. split; [|intros X; right; right; eauto].
    intros [(k' & X & Y)|[(k' & X & Y)|(j' & Hj' & X & Y)]]; try pose proof (kind_no_range k'); apply index_inj in Y; auto; try lia; destruct Y as (_ & Y & _). assert (j = j') by lia. now subst.
Qed.
End one.
Lemma features1_exact z b m : okZob z -> reachable z b -> (5022 <= Z.of_nat (length m))%Z -> exists m', makeFeatures1 (bpos b) m = Some m' /\ buffer1 (abs (bpos b)) m m'.
Proof.
  intros Z R L. destruct (reachable_ok z b Z R) as [G C]. apply features1_ok; [apply G|eapply good_agree; eauto| |exact L].
  intros c s t Hs Ht. exact (attackers_exact z b c s t _ Z R Hs Ht).
Qed.
