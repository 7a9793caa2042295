(* The generator of legal moves enumerates, without repetition, the moves that leave the own king safe,
   apart from the pawn drops it takes for mate. *)
From Verif Require Export GenDrop.
From Coq Require Import Permutation.
Local Open Scope N_scope.

(* ---- the removal loop ---- *)
Lemma last_split (r : list N) : r <> [] -> Permutation (last r 0 :: removelast r) r /\ length (last r 0 :: removelast r) = length r.
Proof.
  intros H. pose proof (app_removelast_last 0 H) as E. split.
  - rewrite E at 3. apply Permutation_cons_append.
  - rewrite E at 3. rewrite app_length. cbn [length]. lia.
Qed.
Lemma filter_perm (f : N -> bool) l l' : Permutation l l' -> Permutation (filter f l) (filter f l').
Proof.
  induction 1 as [|x l l' H IH|x y l|l l' l'' H1 IH1 H2 IH2]; cbn [filter]; auto.
  - destruct (f x); auto.
  - destruct (f x), (f y); auto. apply perm_swap.
  - eapply perm_trans; eauto.
Qed.
Lemma removeLoop_perm keep : forall fuel l, (length l <= fuel)%nat -> Permutation (removeLoop keep fuel l) (filter keep l).
Proof.
  induction fuel as [|n IH]; intros [|m r] H; cbn [length] in H; try lia; cbn [removeLoop filter]; auto.
  destruct (keep m); [apply perm_skip, IH; lia|]. destruct r as [|x r]; [constructor|].
  destruct (last_split (x :: r)) as [P L]; [discriminate|]. eapply perm_trans; [apply IH; rewrite L; cbn [length] in *; lia|]. now apply filter_perm.
Qed.
Lemma Enum_filter p (P : mset) keep l : Enum p P l -> Enum p (fun f t pr => P f t pr /\ keep (enc p f t pr) = true) (filter keep l).
Proof.
  intros [N I]. split; [now apply NoDup_filter|]. intros m. rewrite filter_In, I. split.
  - intros ((f & t & pr & A & B & C & ->) & K). exists f, t, pr. repeat split; auto.
  - intros (f & t & pr & A & B & (C & K) & ->). split; auto. exists f, t, pr. auto.
Qed.
Lemma Enum_perm p P l l' : Permutation l l' -> Enum p P l -> Enum p P l'.
Proof.
  intros E [N I]. split; [eapply Permutation_NoDup; eauto|]. intros m. rewrite <- I. split; intros H; [eapply Permutation_in; [symmetry|]; eauto|eapply Permutation_in; eauto].
Qed.
Lemma Enum_remove p P l : Enum p P l -> Enum p (fun f t pr => P f t pr /\ pseudoLegalMoveIsLegal false p (enc p f t pr) (pinnedBB p) = true) (removeIllegal p l).
Proof.
  intros H. unfold removeIllegal. cbv zeta. eapply Enum_perm; [symmetry; apply removeLoop_perm; lia|]. apply (Enum_filter p P (fun m => pseudoLegalMoveIsLegal false p m (pinnedBB p))). exact H.
Qed.

(* ---- promotion rules ---- *)
Ltac closedN :=
  repeat match goal with
  | |- context [?a =? ?b] => let v := eval vm_compute in (a =? b) in lazymatch v with true => change (a =? b) with true | false => change (a =? b) with false end
  | |- context [?a <=? ?b] => let v := eval vm_compute in (a <=? b) in lazymatch v with true => change (a <=? b) with true | false => change (a <=? b) with false end
  end; cbn [orb andb negb]; cbv iota.
Lemma forward_rank pt c s t : c < 2 -> s < 81 -> t < 81 -> 1 <= pt <= 3 -> reach pt c s t = true -> rankFor c t < rankFor c s.
Proof.
  intros Hc Hs Ht Hp R.
  assert (V : forallb (fun pt => forallb (fun c => forallb (fun s => forallb (fun t => implb (reach pt c s t) (rankFor c t <? rankFor c s)) squares) squares) [0; 1]) [1; 2; 3] = true) by (vm_compute; reflexivity).
  rewrite forallb_forall in V. assert (I1 : In pt [1; 2; 3]) by (cbn [In]; lia). specialize (V pt I1). rewrite forallb_forall in V. assert (I2 : In c [0; 1]) by (cbn [In]; lia). specialize (V c I2).
  rewrite forallb_forall in V. specialize (V s (proj2 (in_squares s) Hs)). rewrite forallb_forall in V. specialize (V t (proj2 (in_squares t) Ht)). cbv beta in V. rewrite R in V. now apply N.ltb_lt.
Qed.
Lemma rule_promo p s t (pr : bool) : okBoard (board p) -> turn p < 2 -> s < 81 -> t < 81 -> isCol (board p) (turn p) s = true -> att (board p) s t = true ->
  (if pr then ruleA (ptOf (pieceAt p s)) (turn p) s t else ruleB true (ptOf (pieceAt p s)) (turn p) s t) = promoB p s t pr.
Proof.
  intros Ok Hc Hs Ht C A. unfold isCol in C. apply andb_prop in C as [C0 C1]. apply N.eqb_eq in C1. unfold att, attOcc in A. apply andb_prop in A as [_ A]. apply andb_prop in A as [R _]. rewrite C1 in R. clear C1.
  apply negb_true_iff, N.eqb_neq in C0. destruct (vpc_facts _ (proj2 Ok s Hs) C0) as (Hp & _ & _).
  unfold promoB. cbv zeta. change (pieceAt p s) with (at_ (board p) s). set (pt := ptOf (at_ (board p) s)) in *. clearbody pt. clear C0. set (us := turn p) in *. clearbody us.
  pose proof (rank_bounds us s Hc) as Bs. pose proof (rank_bounds us t Hc) as Bt.
  destruct (N.leb_spec pt 3) as [L|L].
  - pose proof (forward_rank pt us s t Hc Hs Ht ltac:(lia) R) as F. unfold ruleA, ruleB, deadB, zoneB. assert (pt = 1 \/ pt = 2 \/ pt = 3) as [->|[->| ->]] by lia; destruct pr; closedN; lia.
  - unfold ruleA, ruleB, deadB, zoneB. destruct (pt_cases pt Hp) as [->|[->|[->|[->|[->|[->|[->|[->|[->|[->|[->|[->|[->| ->]]]]]]]]]]]]]; try lia; destruct pr; closedN; lia.
Qed.

(* ---- two checkers cannot both be met by one move ---- *)
Lemma two_lines x y k t : x < 81 -> y < 81 -> k < 81 -> t < 81 -> x <> y -> isBetween x t k -> isBetween y t k -> isBetween x y k \/ isBetween y x k.
Proof.
  intros Hx Hy Hk Ht N A B. apply isBetween_sym in A, B. destruct A as (d & a & b & Hd & Ha & Hb & A1 & A2). destruct B as (e & a' & b' & He & Ha' & Hb' & B1 & B2).
  destruct (off_uniq k t d e a a' Hd He Ha Ha' A1 B1) as [<- <-]. pose proof (off_add _ _ _ _ _ _ A1 A2) as X. pose proof (off_add _ _ _ _ _ _ B1 B2) as Y.
  destruct (Z.lt_trichotomy b b') as [L|[E|L]].
  - right. apply isBetween_sym. exists d, (a + b)%Z, (b' - b)%Z. do 3 (split; [auto; lia|]). split; auto. replace (b' - b)%Z with ((a + b') - (a + b))%Z by lia. eapply off_sub; eauto.
  - exfalso. apply N. subst b'. eapply off_fun; eauto.
  - left. apply isBetween_sym. exists d, (a + b')%Z, (b - b')%Z. do 3 (split; [auto; lia|]). split; auto. replace (b - b')%Z with ((a + b) - (a + b'))%Z by lia. eapply off_sub; eauto.
Qed.

(* ---- the numbers of a pseudo-legal move ---- *)
Definition plSet (p : Position) : mset := fun f t pr =>
  if f <? 81 then plGoB p f t pr = true else pr = false /\ 81 <= f <= 87 /\ plDropB p (f - 80) t = true.
Definition mvOf (f t : N) (pr : bool) : move := if f <? 81 then Go (squareN f) (squareN t) pr else Drop (kindN (f - 80)) (squareN t).
Lemma mvOf_pl p f t pr : good p -> t < 81 -> plSet p f t pr -> pseudo_legal (abs p) (mvOf f t pr) /\ code p (mvOf f t pr) = enc p f t pr.
Proof.
  intros G Ht H. unfold plSet, mvOf, enc in *. destruct (N.ltb_spec f 81) as [L|L].
  - split; [now apply plGo_iff|]. rewrite code_go, !square_inv by auto. reflexivity.
  - destruct H as (-> & F & H). split; [apply plDrop_iff; auto; lia|]. rewrite code_drop, square_inv, kind_inv' by (auto; lia). replace (80 + (f - 80)) with f by lia. reflexivity.
Qed.
Lemma pl_mvOf p mv : good p -> pseudo_legal (abs p) mv -> exists f t pr, f < 128 /\ t < 81 /\ plSet p f t pr /\ mv = mvOf f t pr.
Proof.
  intros G H. destruct mv as [k t|s t pr].
  - pose proof H as (Bt & _). pose proof (nkind_lt k) as Hk. pose proof (nsquare_lt t Bt) as Ht.
    rewrite <- (kind_inv k), <- (square_inv' t Bt) in H. apply plDrop_iff in H; auto. exists (80 + nkind k), (nsquare t), false. unfold plSet, mvOf.
    assert (L : nkind k <= 7) by (unfold plDropB in H; rewrite !andb_true_iff in H; destruct H as ((((H & _) & _) & _) & _); now apply N.leb_le).
    destruct (N.ltb_spec (80 + nkind k) 81); [lia|]. replace (80 + nkind k - 80) with (nkind k) by lia. rewrite kind_inv, square_inv' by auto. repeat split; auto; lia.
  - pose proof H as (Bs & Bt & _). pose proof (nsquare_lt t Bt) as Ht. pose proof (nsquare_lt s Bs) as Hs.
    rewrite <- (square_inv' s Bs), <- (square_inv' t Bt) in H. apply plGo_iff in H; auto. exists (nsquare s), (nsquare t), pr. unfold plSet, mvOf. rewrite (proj2 (N.ltb_lt _ _) Hs).
    rewrite !square_inv' by auto. repeat split; auto; lia.
Qed.
