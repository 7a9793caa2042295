(* KIF move lines: a written line is read back. *)
From Verif Require Export KifSpec.
From Verif Require Import KifText Ki2Text Ki2Proofs Rules Bridge GenClaims CommandFinal ClaimProofs MoveCodes EnumN PgnProofs.
Local Open Scope N_scope.

(* ---- the destination ---- *)
Definition noEndWord (a : N) : bool := forallb (fun w => match w with x :: _ => negb (x =? a) | [] => false end) endWords.
Lemma no_end a t : noEndWord a = true -> oneOf endWords (a :: t) = None.
Proof.
  unfold noEndWord. generalize endWords. induction l as [|w l IH]; [reflexivity|]. cbn [forallb oneOf]. destruct w as [|x w]; [discriminate|]. rewrite andb_true_iff, negb_true_iff. intros [E F].
  cbn [stripWord]. rewrite E. exact (IH F).
Qed.
Lemma dest_check : forallb (fun i => match squareName i with
   | [x; y] => calm x && calm y && negb (isSpaceU x) && noEndWord x && negb (x =? uSame) && match indexOf x numberSymbols, indexOf y kanjiSymbols with Some a, Some c => c + a * 9 =? i | _, _ => false end
   | _ => false end) sqs = true.
Proof. vm_compute. reflexivity. Qed.
Lemma dest_read b m : mvTo m < 81 -> exists a c dest, kifTo m (peek b) = [a; c] /\ calm a = true /\ calm c = true /\ isSpaceU a = false /\ noEndWord a = true /\
  (forall t, kifDest (a :: c :: t) = Some (dest, t)) /\ kifToSquare b dest = Done (mvTo m).
Proof.
  intros H. unfold kifTo. destruct (negb (peek b =? 0) && (mvTo (peek b) =? mvTo m)) eqn:E.
  - apply andb_true_iff in E as [_ E]. apply N.eqb_eq in E. exists uSame, uSpace, None. split; [reflexivity|]. split; [reflexivity|]. split; [reflexivity|]. split; [reflexivity|]. split; [reflexivity|].
    split; [reflexivity|]. cbn [kifToSquare]. now rewrite E.
  - clear E. pose proof (proj1 (forallb_forall _ _) dest_check (mvTo m) (in_sqs _ H)) as E. cbv beta in E. destruct (squareName (mvTo m)) as [|x [|y [|? ?]]]; try discriminate.
    rewrite !andb_true_iff, !negb_true_iff in E. destruct E as [[[[[E1 E2] E3] E4] E5] E6]. destruct (indexOf x numberSymbols) as [u0|] eqn:Ex; [|discriminate]. destruct (indexOf y kanjiSymbols) as [v0|] eqn:Ey; [|discriminate].
    apply N.eqb_eq in E6. exists x, y, (Some (x, y)). split; [reflexivity|]. split; [exact E1|]. split; [exact E2|]. split; [exact E3|]. split; [exact E4|]. split.
    + intros t. unfold kifDest. rewrite E5, Ex, Ey, orb_true_r. reflexivity.
    + cbn [kifToSquare]. now rewrite Ex, Ey, E6.
Qed.
(* ---- the piece and where it comes from ---- *)
Lemma piece_read k : let c := nthN 0 pieceSymbols (nkind k - 1) in calm c = true /\ indexOf c pieceSymbols = Some (nkind k - 1).
Proof. destruct k; vm_compute; split; reflexivity. Qed.
Lemma hand_read k m : nkind k < 8 -> k <> OU -> mvFrom m = 80 + nkind k -> let c := nthN 0 handSymbols (moveDropHandPiece m) in calm c = true /\ indexOf c pieceSymbols = Some (nkind k - 1).
Proof. intros K O E. unfold moveDropHandPiece. rewrite E. destruct k; cbn in K; try lia; try contradiction; vm_compute; split; reflexivity. Qed.
Lemma origin_check : forallb (fun i => match fromName i with
   | [x; y] => calm x && calm y && isDig x && isDig y && negb (x =? 48) && negb ((x - 48) * 9 + (y - 48) <? 10) && ((x - 48) * 9 + (y - 48) - 10 =? i) | _ => false end) sqs = true.
Proof. vm_compute. reflexivity. Qed.
Lemma origin_read i : i < 81 -> exists x y, fromName i = [x; y] /\ calm x = true /\ calm y = true /\ (forall (pr : bool) t, kifOrigin ((if pr then [uPro] else []) ++ open_ :: [x; y] ++ close_ :: t) = Some (Some (pr, x, y), t)) /\
  (x =? 48) = false /\ ((x - 48) * 9 + (y - 48) <? 10) = false /\ (x - 48) * 9 + (y - 48) - 10 = i.
Proof.
  intros H. pose proof (proj1 (forallb_forall _ _) origin_check i (in_sqs _ H)) as E. cbv beta in E. destruct (fromName i) as [|x [|y [|? ?]]]; try discriminate. exists x, y.
  rewrite !andb_true_iff, !negb_true_iff in E. destruct E as [[[[[[E1 E2] E3] E4] E5] E6] E7]. apply N.eqb_eq in E7. split; [reflexivity|]. split; [exact E1|]. split; [exact E2|]. split; [|auto].
  intros pr t. destruct pr; cbn [app kifOrigin]; [change (uPro =? uDrop) with false; change (uPro =? uPro) with true|change (open_ =? uDrop) with false; change (open_ =? uPro) with false]; cbv iota; rewrite !N.eqb_refl, E3, E4; reflexivity.
Qed.
(* ---- codes ---- *)
Lemma drop_made p k t : on_board t -> nkind k < 8 -> boardDropMove (nsquare t) (nkind k) = code p (Drop k t).
Proof.
  intros T K. pose proof (nsquare_lt t T). assert (1 <= nkind k) by (destruct k; cbn; lia). unfold boardDropMove. rewrite (drop_code p (nkind k) (nsquare t)) by lia. unfold enc, codeOf. cbn [code].
  destruct (N.ltb_spec (80 + nkind k) 81); lia.
Qed.
Lemma go_made p s t pr : on_board s -> on_board t -> boardMove p (nsquare s) (nsquare t) pr = code p (Go s t pr).
Proof.
  intros S T. pose proof (nsquare_lt s S). pose proof (nsquare_lt t T). unfold boardMove. destruct pr; rewrite ?promote_code, ?nonpromote_code by auto; unfold enc; rewrite (proj2 (N.ltb_lt _ _)) by auto; rewrite !ptOf_arith; unfold codeOf; cbn [code]; lia.
Qed.
