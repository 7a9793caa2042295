(* Lists of move codes that enumerate a set of moves without repetition. *)
From Verif Require Export SafeKing HandFinal.
Local Open Scope N_scope.

(* the code of the move (f, t, pr); f >= 81 is a drop *)
Definition enc (p : Position) (f t : N) (pr : bool) : N :=
  codeOf t f pr (if f <? 81 then ptOf (pieceAt p f) else 0) (if f <? 81 then ptOf (pieceAt p t) else 0).
Lemma enc_fields p f t pr : f < 128 -> t < 81 -> mvTo (enc p f t pr) = t /\ mvFrom (enc p f t pr) = f /\ mvPromo (enc p f t pr) = pr.
Proof.
  intros Hf Ht. unfold enc. assert (L : forall x, ptOf x < 16) by apply ptOf_lt.
  destruct (code_fields t f pr (if f <? 81 then ptOf (pieceAt p f) else 0) (if f <? 81 then ptOf (pieceAt p t) else 0)) as (A & B & C & _); [lia|lia|destruct (f <? 81); auto; lia|destruct (f <? 81); auto; lia|auto].
Qed.
Lemma enc_inj p f t pr f' t' pr' : f < 128 -> t < 81 -> f' < 128 -> t' < 81 -> enc p f t pr = enc p f' t' pr' -> f = f' /\ t = t' /\ pr = pr'.
Proof.
  intros A B C D E. destruct (enc_fields p f t pr A B) as (X1 & X2 & X3). destruct (enc_fields p f' t' pr' C D) as (Y1 & Y2 & Y3). rewrite E in X1, X2, X3. repeat split; congruence.
Qed.

Definition mset := N -> N -> bool -> Prop.
Definition Enum (p : Position) (P : mset) (l : list N) : Prop :=
  NoDup l /\ forall m, In m l <-> exists f t pr, f < 128 /\ t < 81 /\ P f t pr /\ m = enc p f t pr.
Lemma Enum_ext p (P Q : mset) l : Enum p P l -> (forall f t pr, f < 128 -> t < 81 -> (P f t pr <-> Q f t pr)) -> Enum p Q l.
Proof.
  intros [N I] H. split; auto. intros m. rewrite I. split; intros (f & t & pr & A & B & C & D); exists f, t, pr; repeat split; auto; apply H; auto.
Qed.
Lemma Enum_nil p : Enum p (fun _ _ _ => False) [].
Proof. split; [constructor|]. intros m. split; [intros []|]. intros (f & t & pr & _ & _ & [] & _). Qed.
Lemma Enum_one p f t pr : f < 128 -> t < 81 -> Enum p (fun f' t' pr' => f' = f /\ t' = t /\ pr' = pr) [enc p f t pr].
Proof.
  intros A B. split; [constructor; [intros []|constructor]|]. intros m. split.
  - intros [<-|[]]. exists f, t, pr. repeat split; auto.
  - intros (f' & t' & pr' & _ & _ & (-> & -> & ->) & ->). now left.
Qed.
Lemma NoDup_app_intro {A} (l l' : list A) : NoDup l -> NoDup l' -> (forall x, In x l -> In x l' -> False) -> NoDup (l ++ l').
Proof.
  induction l as [|a l IH]; intros H H' D; cbn [app]; [auto|]. inversion H as [|? ? Ha Hl]; subst. constructor.
  - intros I. apply in_app_iff in I as [I|I]; [contradiction|]. apply (D a); [now left|exact I].
  - apply IH; auto. intros x I I'. apply (D x); [now right|exact I'].
Qed.
Lemma Enum_app p (P Q : mset) l l' : Enum p P l -> Enum p Q l' -> (forall f t pr, f < 128 -> t < 81 -> P f t pr -> Q f t pr -> False) ->
  Enum p (fun f t pr => P f t pr \/ Q f t pr) (l ++ l').
Proof.
  intros [N I] [N' I'] D. split.
  - apply NoDup_app_intro; auto. intros m H H'. apply I in H as (f & t & pr & A & B & C & E). apply I' in H' as (f' & t' & pr' & A' & B' & C' & E').
    subst m. apply enc_inj in E' as (-> & -> & ->); auto. eauto.
  - intros m. rewrite in_app_iff, I, I'. split.
    + intros [(f & t & pr & A & B & C & E)|(f & t & pr & A & B & C & E)]; exists f, t, pr; auto.
    + intros (f & t & pr & A & B & [C|C] & E); [left|right]; exists f, t, pr; auto.
Qed.
Lemma Enum_if p (P : mset) (b : bool) l : (b = true -> Enum p P l) -> Enum p (fun f t pr => b = true /\ P f t pr) (if b then l else []).
Proof.
  destruct b; intros H.
  - apply (Enum_ext p P); auto. intros; split; tauto.
  - apply (Enum_ext p (fun _ _ _ => False)); [apply Enum_nil|]. intros; split; [tauto|]. intros [X _]; discriminate X.
Qed.
Lemma Enum_flat p {A} (P : A -> mset) (g : A -> list N) : forall l, NoDup l -> (forall x, In x l -> Enum p (P x) (g x)) ->
  (forall x y f t pr, In x l -> In y l -> f < 128 -> t < 81 -> P x f t pr -> P y f t pr -> x = y) ->
  Enum p (fun f t pr => exists x, In x l /\ P x f t pr) (flat_map g l).
Proof.
  induction l as [|a l IH]; intros N H D; cbn [flat_map].
  - apply (Enum_ext p (fun _ _ _ => False)); [apply Enum_nil|]. intros; split; [tauto|]. intros (x & [] & _).
  - inversion N as [|? ? Ha Hl]; subst. apply (Enum_ext p (fun f t pr => P a f t pr \/ exists x, In x l /\ P x f t pr)).
    + apply Enum_app.
      * apply H. now left.
      * apply IH; auto; [intros; apply H; now right|]. intros x y f t pr Ix Iy. apply D; now right.
      * intros f t pr Hf Ht Pa (x & Ix & Px). apply Ha. rewrite (D a x f t pr); auto; [now left|now right].
    + intros f t pr Hf Ht. split.
      * intros [X|(x & Ix & X)]; [exists a; split; [now left|exact X]|exists x; split; [now right|exact X]].
      * intros (x & [<-|Ix] & X); [now left|right; eauto].
Qed.
Lemma map_flat {A B} (g : A -> B) l : map g l = flat_map (fun x => [g x]) l.
Proof. induction l as [|a l IH]; cbn; [reflexivity|now rewrite IH]. Qed.

(* ---- the codes written by the generator ---- *)
Lemma lor_shift a b n : a < 2 ^ n -> N.lor (N.shiftl b n) a = a + 2 ^ n * b.
Proof.
  intros H. rewrite N.lor_comm, lor_add.
  - rewrite N.shiftl_mul_pow2, (N.mul_comm b). reflexivity.
  - apply N.bits_inj. intros i. rewrite N.land_spec, N.bits_0. destruct (N.ltb_spec i n) as [L|L].
    + rewrite N.shiftl_spec_low by auto. apply andb_false_r.
    + rewrite (lt_bits n a i) by auto. reflexivity.
Qed.
Lemma capture_code p pt s t : pt < 16 -> s < 81 -> t < 81 -> makeCaptureMove p pt s t = codeOf t s false pt (ptOf (pieceAt p t)).
Proof.
  intros Hp Hs Ht. pose proof (ptOf_lt (pieceAt p t)). unfold makeCaptureMove, makeMove, captured2Move, pieceType2Move, from2Move, to2Move, codeOf.
  rewrite <- N.lor_assoc. rewrite (lor_shift t s 7) by (change (2^7) with 128; lia).
  rewrite (lor_shift (t + 2^7 * s) pt 16) by (change (2^7) with 128; change (2^16) with 65536; lia).
  rewrite (lor_shift _ _ 20) by (change (2^7) with 128; change (2^16) with 65536; change (2^20) with 1048576; lia).
  change (2^7) with 128; change (2^16) with 65536; change (2^20) with 1048576. lia.
Qed.
Lemma nonpromote_code p pt s t : ptOf (pieceAt p s) = pt -> s < 81 -> t < 81 -> makeNonPromoteMove p pt s t = enc p s t false.
Proof. intros <- Hs Ht. unfold makeNonPromoteMove, enc. rewrite capture_code by (auto; apply ptOf_lt). now rewrite (proj2 (N.ltb_lt _ _) Hs). Qed.
Lemma promote_code p pt s t : ptOf (pieceAt p s) = pt -> s < 81 -> t < 81 -> makePromoteMove p pt s t = enc p s t true.
Proof.
  intros <- Hs Ht. unfold makePromoteMove, enc. rewrite capture_code by (auto; apply ptOf_lt). rewrite (proj2 (N.ltb_lt _ _) Hs). pose proof (ptOf_lt (pieceAt p s)). pose proof (ptOf_lt (pieceAt p t)).
  rewrite lor_add.
  - unfold codeOf, PromoteFlag. lia.
  - apply N.eqb_eq. destruct (code_fields t s false (ptOf (pieceAt p s)) (ptOf (pieceAt p t))) as (_ & _ & X & _); auto; try lia. unfold mvPromo in X. now apply negb_false_iff in X.
Qed.
Lemma drop_code p pt t : 1 <= pt < 15 -> t < 81 -> makeDropMove pt t = enc p (80 + pt) t false.
Proof.
  intros Hp Ht. unfold makeDropMove, drop2From, from2Move, to2Move, enc. rewrite (lor_shift t (80 + pt) 7) by (change (2^7) with 128; lia).
  destruct (N.ltb_spec (80 + pt) 81); [lia|]. unfold codeOf. change (2^7) with 128. lia.
Qed.

(* ---- ranks ---- *)
Lemma canPromote_zone c t : c < 2 -> t < 81 -> canPromote c t = zoneB c t.
Proof.
  intros Hc Ht. assert (C : c = 0 \/ c = 1) by lia. apply eqb_prop.
  assert (X : forallb (fun t => eqb (canPromote 0 t) (zoneB 0 t) && eqb (canPromote 1 t) (zoneB 1 t)) squares = true) by (vm_compute; reflexivity).
  apply (proj1 (forallb_forall _ _)) with (x := t) in X; [|now apply in_squares]. apply andb_prop in X. destruct C as [-> | ->]; tauto.
Qed.
Lemma rank_bounds c t : c < 2 -> 1 <= rankFor c t <= 9.
Proof. intros Hc. unfold rankFor. pose proof (N.mod_lt t 9). destruct (c =? 0); lia. Qed.
Lemma behind1 c t : c < 2 -> isBehind c 0 8 (makeRank t) = (1 <? rankFor c t).
Proof. intros Hc. unfold isBehind, rankFor, makeRank, Black. pose proof (N.mod_lt t 9). destruct (c =? 0); lia. Qed.
Lemma behind2 c t : c < 2 -> isBehind c 1 7 (makeRank t) = (2 <? rankFor c t).
Proof. intros Hc. unfold isBehind, rankFor, makeRank, Black. pose proof (N.mod_lt t 9). destruct (c =? 0); lia. Qed.
Lemma isSet_rank r t : r < 9 -> t < 81 -> isSet (rankMask r) t = (t mod 9 =? r).
Proof.
  intros Hr Ht. apply eqb_prop. assert (X : forallb (fun r => forallb (fun t => eqb (isSet (rankMask r) t) (t mod 9 =? r)) squares) (seqN 0 9) = true) by (vm_compute; reflexivity).
  apply (proj1 (forallb_forall _ _)) with (x := r) in X; [|apply in_seqN; lia]. apply (proj1 (forallb_forall _ _)) with (x := t) in X; [|now apply in_squares]. exact X.
Qed.
Lemma isSet_file s t : s < 81 -> t < 81 -> isSet (squareFileMask s) t = (s / 9 =? t / 9).
Proof.
  intros Hs Ht. unfold squareFileMask, makeFile. assert (Hf : s / 9 < 9) by lia. revert Hf. generalize (s / 9). intros f Hf. apply eqb_prop.
  assert (X : forallb (fun f => forallb (fun t => eqb (isSet (fileMask f) t) (f =? t / 9)) squares) (seqN 0 9) = true) by (vm_compute; reflexivity).
  apply (proj1 (forallb_forall _ _)) with (x := f) in X; [|apply in_seqN; lia]. apply (proj1 (forallb_forall _ _)) with (x := t) in X; [|now apply in_squares]. exact X.
Qed.
Lemma isSet_front123 c t : c < 2 -> t < 81 -> isSet (inFrontMask c (if c =? Black then 3 else 5)) t = zoneB c t.
Proof.
  intros Hc Ht. apply eqb_prop. assert (C : c = 0 \/ c = 1) by lia.
  assert (X : forallb (fun t => eqb (isSet (inFrontMask 0 3) t) (zoneB 0 t) && eqb (isSet (inFrontMask 1 5) t) (zoneB 1 t)) squares = true) by (vm_compute; reflexivity).
  apply (proj1 (forallb_forall _ _)) with (x := t) in X; [|now apply in_squares]. apply andb_prop in X. destruct C as [-> | ->]; cbv [Black N.eqb]; tauto.
Qed.
