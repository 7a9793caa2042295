(* Attack sets stated in the vocabulary of the rules. *)
From Verif Require Export ClaimProofs.
Local Open Scope N_scope.
Local Opaque N.mul N.add N.sub N.div N.modulo.

Lemma attacks_from c k s t occ : on_board s -> on_board t ->
  (isSet (attacksFrom (nkind k) (ncolor c) (nsquare s) occ) (nsquare t) = true <-> attacks (fun q => isSet occ (nsquare q) = true) c k s t).
Proof.
  intros Hs Ht. pose proof (nsquare_lt s Hs). pose proof (nsquare_lt t Ht). pose proof (nkind_lt k). pose proof (ncolor_lt c).
  rewrite attacksFrom_spec by auto. rewrite (attacks_N (isSet occ) (fun q => isSet occ (nsquare q) = true)) by (auto; intros x Hx; now rewrite square_inv).
  rewrite kind_inv, !square_inv' by auto. destruct c; reflexivity.
Qed.
(* no bit outside the 63 + 18 that stand for squares *)
Definition only_squares (b : BB) : Prop := p0 b < 2 ^ 63 /\ p1 b < 2 ^ 18.
Lemma attacks_from_only c k s occ : on_board s -> only_squares (attacksFrom (nkind k) (ncolor c) (nsquare s) occ).
Proof. intros Hs. pose proof (nsquare_lt s Hs). pose proof (nkind_lt k). pose proof (ncolor_lt c). now apply wf_attacksFrom. Qed.
Lemma attackers_exact z b c s t occ : okZob z -> reachable z b -> on_board s -> on_board t ->
  (isSet (attackersTo (bpos b) (ncolor c) (nsquare t) occ) (nsquare s) = true <->
   exists k, at_square (abs (bpos b)) s = Some (c, k) /\ attacks (fun q => isSet occ (nsquare q) = true) c k s t).
Proof.
  intros Z R Hs Ht. destruct (reachable_ok z b Z R) as [G _]. set (p := bpos b) in *. pose proof (g_views p G) as V. pose proof (v_board p V) as Ok.
  pose proof (nsquare_lt s Hs) as Ls. pose proof (nsquare_lt t Ht) as Lt. pose proof (ncolor_lt c) as Hc.
  rewrite isSet_attackersTo by auto. unfold attOcc. change (at_ (board p) (nsquare s)) with (pieceAt p (nsquare s)). assert (AT : at_square (abs p) s = pieceN (pieceAt p (nsquare s))) by (rewrite <- (square_inv' s Hs) at 1; now apply abs_at). rewrite AT. clear AT.
  destruct (vpc_cases _ (okB_at p _ Ok Ls)) as [E|(c' & pt & Hc' & Hp & E)]; rewrite E.
  - split; [|intros (k & X & _); discriminate X]. rewrite andb_true_iff. intros [_ H]. discriminate H.
  - rewrite mk_nz, pt_mk, col_mk, pieceN_mk by auto. rewrite andb_true_iff, N.eqb_eq. cbn [negb andb].
    rewrite (attacks_N (isSet occ) (fun q => isSet occ (nsquare q) = true)) by (auto; intros x Hx; now rewrite square_inv). rewrite !square_inv' by auto. split.
    + intros [-> A]. exists (kindN pt). replace (colorN (ncolor c)) with c in * by (now destruct c). auto.
    + intros (k & X & A). injection X as X <-. assert (c' = ncolor c) by (rewrite <- X, color_inv; auto). subst c'. replace (colorN (ncolor c)) with c in * by (now destruct c). auto.
Qed.
Lemma attackers_both z b s t occ : okZob z -> reachable z b -> on_board s -> on_board t ->
  (isSet (attackersToAll (bpos b) (nsquare t) occ) (nsquare s) = true <->
   exists c k, at_square (abs (bpos b)) s = Some (c, k) /\ attacks (fun q => isSet occ (nsquare q) = true) c k s t).
Proof.
  intros Z R Hs Ht. destruct (reachable_ok z b Z R) as [G _]. set (p := bpos b) in *. pose proof (g_views p G) as V. pose proof (v_board p V) as Ok.
  pose proof (nsquare_lt s Hs) as Ls. pose proof (nsquare_lt t Ht) as Lt.
  rewrite isSet_attackersToAll by auto. unfold attOcc. change (at_ (board p) (nsquare s)) with (pieceAt p (nsquare s)). assert (AT : at_square (abs p) s = pieceN (pieceAt p (nsquare s))) by (rewrite <- (square_inv' s Hs) at 1; now apply abs_at). rewrite AT. clear AT.
  destruct (vpc_cases _ (okB_at p _ Ok Ls)) as [E|(c' & pt & Hc' & Hp & E)]; rewrite E.
  - split; [|intros (c & k & X & _); discriminate X]. intros H. discriminate H.
  - rewrite mk_nz, pt_mk, col_mk, pieceN_mk by auto. cbn [negb andb].
    rewrite (attacks_N (isSet occ) (fun q => isSet occ (nsquare q) = true)) by (auto; intros x Hx; now rewrite square_inv). rewrite !square_inv' by auto. split.
    + intros A. exists (colorN c'), (kindN pt). auto.
    + intros (c & k & X & A). injection X as <- <-. auto.
Qed.
Lemma step_attacks c k s t occ : In k [FU; KE; GI; KI; OU; TO; NY; NK; NG] -> on_board s -> on_board t ->
  (isSet (attacksFrom (nkind k) (ncolor c) (nsquare s) occ) (nsquare t) = true <-> exists d, In d (steps k) /\ t = displaced c s d 1).
Proof.
  intros Hk Hs Ht. rewrite attacks_from by auto. assert (E : slides k = []) by (cbn in Hk; intuition subst; reflexivity). unfold attacks. rewrite E. split.
  - intros [H|(d & n & [] & _)]. exact H.
  - intros H. now left.
Qed.
