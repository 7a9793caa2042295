(* KI2 move texts: what the pattern finds in a text that was written. *)
From Verif Require Import Ki2Spec Rules.
Local Open Scope N_scope.

Definition plain (c : N) : bool := negb (c =? ch "王") && negb (c =? ch "竜") && negb (c =? ch "成").
Lemma replace2_cons a1 a2 b c t : c <> a1 -> replace2 a1 a2 b (c :: t) = c :: replace2 a1 a2 b t.
Proof. intros H. destruct t; [reflexivity|]. cbn [replace2]. now rewrite (proj2 (N.eqb_neq c a1) H). Qed.
Lemma normalize_cons c t : plain c = true -> normalize (c :: t) = c :: normalize t.
Proof.
  unfold plain. rewrite !andb_true_iff, !negb_true_iff. intros [[A B] C]. unfold normalize, replace1 at 1 2. cbn [map]. rewrite A, B.
  apply N.eqb_neq in C. rewrite !replace2_cons by exact C. reflexivity.
Qed.
Definition tailOf (pt : N) (r : relWord) (w : motionWord) (e : Text) : Text := nthN [] pieceSymbols2 pt ++ relText r ++ motionText w ++ e.
Definition tailMatch (t : Text) : option (N * relWord * motionWord * Text * Text) :=
  match t with
  | pc :: t =>
      match indexOf pc pieceSymbols with
      | Some _ => let '(rel, t) := matchRel t in let '(mo, t) := matchMotion t in let '(en, t) := matchEnd t in Some (pc, rel, mo, en, dropSpaces t)
      | None => None
      end
  | [] => None
  end.
Definition ends : list Text := [[]; [uPro]; [uNot; uPro]; [uDrop]].
Definition rels := [NoRel; RelLeft; RelRight; RelStraight].
Definition motions := [NoMotion; MotionUp; MotionDown; MotionSide].
Definition pts : list N := [1; 2; 3; 4; 5; 6; 7; 8; 9; 10; 11; 12; 13; 14].
Lemma tail_check : map (fun pt => map (fun r => map (fun w => map (fun e => tailMatch (normalize (tailOf pt r w e))) ends) motions) rels) pts
  = map (fun pt => map (fun r => map (fun w => map (fun e => Some (nthN 0 pieceSymbols (pt - 1), r, w, e, [])) ends) motions) rels) pts.
Proof. vm_compute. reflexivity. Qed.
Lemma map_eq_in {A B} (f g : A -> B) l : map f l = map g l -> forall x, In x l -> f x = g x.
Proof. induction l as [|a l IH]; cbn; [tauto|]. intros E x [->|I]; [now injection E|]. apply IH; auto. now injection E. Qed.
Lemma in_rels r : In r rels. Proof. destruct r; cbn; tauto. Qed.
Lemma in_motions w : In w motions. Proof. destruct w; cbn; tauto. Qed.
Lemma tail_read pt r w e : In pt pts -> In e ends -> tailMatch (normalize (tailOf pt r w e)) = Some (nthN 0 pieceSymbols (pt - 1), r, w, e, []).
Proof.
  intros P E. pose proof (map_eq_in _ _ _ tail_check pt P) as A. cbv beta in A. pose proof (map_eq_in _ _ _ A r (in_rels r)) as B. cbv beta in B.
  pose proof (map_eq_in _ _ _ B w (in_motions w)) as C. cbv beta in C. exact (map_eq_in _ _ _ C e E).
Qed.
Definition asFound (to : option (N * N)) (x : N * relWord * motionWord * Text * Text) : found :=
  let '(pc, rel, mo, en, r) := x in mkFound to pc rel mo en r.
Lemma match_tail a t to t' : (a =? uBlack) || (a =? uWhite) = true -> matchTo t = Some (to, t') -> matchMove (a :: t) = option_map (asFound to) (tailMatch t').
Proof.
  intros A T. unfold matchMove. rewrite A, T. destruct t' as [|pc t']; [reflexivity|]. unfold tailMatch. destruct (indexOf pc pieceSymbols); [|reflexivity].
  destruct (matchRel t') as [r1 t1]. destruct (matchMotion t1) as [r2 t2]. destruct (matchEnd t2) as [r3 t3]. reflexivity.
Qed.
Definition sqs : list N := map N.of_nat (seq 0 81).
Lemma in_sqs i : i < 81 -> In i sqs.
Proof. intros H. apply in_map_iff. exists (N.to_nat i). rewrite in_seq. lia. Qed.
Lemma square_check : forallb (fun i => match squareName i with
   | [x; y] => plain x && plain y && negb (x =? uSame) && match indexOf x numberSymbols, indexOf y kanjiSymbols with Some u, Some v => v + u * 9 =? i | _, _ => false end
   | _ => false end) sqs = true.
Proof. vm_compute. reflexivity. Qed.
Lemma square_read i t : i < 81 -> exists x y, squareName i = [x; y] /\ plain x = true /\ plain y = true /\ x <> uSame /\ matchTo (x :: y :: t) = Some (Some (x, y), t) /\
  (forall b pc r w e rest, foundTo b (mkFound (Some (x, y)) pc r w e rest) = Done i).
Proof.
  intros H. pose proof (proj1 (forallb_forall _ _) square_check i (in_sqs i H)) as E. cbv beta in E. destruct (squareName i) as [|x [|y [|? ?]]]; try discriminate.
  exists x, y. rewrite !andb_true_iff, negb_true_iff in E. destruct E as [[[Px Py] Ns] E]. split; [reflexivity|]. split; [exact Px|]. split; [exact Py|]. split; [now apply N.eqb_neq|].
  destruct (indexOf x numberSymbols) as [u0|] eqn:Ex; [|discriminate]. destruct (indexOf y kanjiSymbols) as [v0|] eqn:Ey; [|discriminate]. apply N.eqb_eq in E. split.
  - unfold matchTo. rewrite Ns, Ex, Ey, orb_true_r. reflexivity.
  - intros. unfold foundTo. cbn [fTo]. rewrite Ex, Ey. now rewrite E.
Qed.
Lemma tail_first pt r w e : In pt pts -> exists c t, tailOf pt r w e = c :: t /\ (t = [] \/ t <> []) /\ c <> uSame.
Proof.
  intros P. unfold tailOf. assert (E : exists c t0, nthN [] pieceSymbols2 pt = c :: t0 /\ c <> uSame).
  { cbn [pts In] in P. repeat (destruct P as [<-|P]; [vm_compute; eexists _, _; split; [reflexivity|discriminate]|]). destruct P. }
  destruct E as (c & t0 & -> & N). exists c, (t0 ++ relText r ++ motionText w ++ e). split; [reflexivity|]. split; auto. destruct (t0 ++ relText r ++ motionText w ++ e); [now left|right; discriminate].
Qed.
Lemma tail_plain_head pt r w e c t : In pt pts -> normalize (tailOf pt r w e) = c :: t -> In e ends -> c <> uSpace.
Proof.
  intros P E I. pose proof (tail_read pt r w e P I) as X. rewrite E in X. cbn [tailMatch] in X. destruct (indexOf c pieceSymbols) eqn:Ei; [|discriminate]. intros ->. vm_compute in Ei. discriminate.
Qed.
(* what the pattern finds in a written text *)
Lemma written_found us b to pt r w e : to < 81 -> In pt pts -> In e ends ->
  exists f, matchMove (normalize (ki2Space (((if us =? Black then uBlack else uWhite) :: ki2To b to) ++ tailOf pt r w e))) = Some f /\
    foundTo b f = Done to /\ fPiece f = nthN 0 pieceSymbols (pt - 1) /\ fRel f = r /\ fMotion f = w /\ fEnd f = e /\ fRest f = [].
Proof.
  intros Ht P I. set (a := if us =? Black then uBlack else uWhite). assert (A : (a =? uBlack) || (a =? uWhite) = true) by (unfold a; now destruct (us =? Black)).
  assert (Pa : plain a = true) by (unfold a; now destruct (us =? Black)). pose proof (tail_read pt r w e P I) as T. unfold ki2To.
  destruct (negb (peek b =? 0) && (mvTo (peek b) =? to)) eqn:Es.
  - apply andb_true_iff in Es as [_ Es]. apply N.eqb_eq in Es. exists (asFound None (nthN 0 pieceSymbols (pt - 1), r, w, e, [])).
    split; [|cbn [asFound fPiece fRel fMotion fEnd fRest]; unfold foundTo; cbn [fTo]; now rewrite Es].
    assert (M : exists u0, matchTo u0 = Some (None, normalize (tailOf pt r w e)) /\ normalize (ki2Space ((a :: [uSame]) ++ tailOf pt r w e)) = a :: u0).
    { destruct (tail_first pt r w e P) as (c & t & Et & D & Nc). destruct (normalize (tailOf pt r w e)) as [|c' t'] eqn:En; [discriminate T|].
      pose proof (tail_plain_head pt r w e c' t' P En I) as Ns. rewrite Et in *. destruct t as [|c2 t].
      - exists (uSame :: uSpace :: c' :: t'). split; [reflexivity|]. cbn [app ki2Space]. rewrite N.eqb_refl, !normalize_cons by (exact Pa || reflexivity). now rewrite En.
      - exists (uSame :: c' :: t'). split; [unfold matchTo; rewrite N.eqb_refl, (proj2 (N.eqb_neq c' uSpace) Ns); reflexivity|].
        assert (K : ki2Space ((a :: [uSame]) ++ c :: c2 :: t) = a :: uSame :: c :: c2 :: t) by (destruct t; reflexivity).
        rewrite K, !normalize_cons by (exact Pa || reflexivity). now rewrite En. }
    destruct M as (u0 & M & ->). rewrite (match_tail a u0 None _ A M), T. reflexivity.
  - destruct (square_read to (normalize (tailOf pt r w e)) Ht) as (x & y & -> & Px & Py & Nx & M & F).
    exists (asFound (Some (x, y)) (nthN 0 pieceSymbols (pt - 1), r, w, e, [])). split; [|cbn [asFound fPiece fRel fMotion fEnd fRest]; auto 10].
    assert (K : ki2Space ((a :: [x; y]) ++ tailOf pt r w e) = a :: x :: y :: tailOf pt r w e).
    { destruct (tail_first pt r w e P) as (c & t & -> & _). destruct t; reflexivity. }
    rewrite K, !normalize_cons by assumption. rewrite (match_tail a _ _ _ A M), T. reflexivity.
Qed.
