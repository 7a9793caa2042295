(* What the writer writes: the bits, and how many. *)
From Verif Require Import Packed ClaimProofs SetProofs HandProofs DoMoveProofs.
From Verif Require Export PackedProofs.
Local Open Scope N_scope.

Definition cb (c : Code) : list bool := codeBits (fst c) (N.to_nat (snd c)).
Lemma putCode_list s c : putCode s c = putList s (cb c).
Proof. apply putBits_list. Qed.
Definition times (n : nat) (l : list bool) : list bool := concat (repeat l n).
Lemma putTimes_list n : forall s c, putTimes n s c = putList s (times n (cb c)).
Proof. induction n as [|n IH]; intros s c; [reflexivity|]. cbn [putTimes]. rewrite IH, putCode_list. unfold times. cbn [repeat concat]. now rewrite putList_app. Qed.

Definition sqBits (T : Tables) (p : Position) (sq : N) : list bool :=
  if ptOf (pieceAt p sq) =? King then [] else cb (boardCode T (pieceAt p sq)).
Definition handBits (T : Tables) (p : Position) (c hp : N) : list bool := times (N.to_nat (numOf (handOf p c) hp)) (cb (handCode T hp c)).
Definition boxCount (p : Position) (hp : N) : nat := N.to_nat (fullSet hp - material p hp).
Definition boxBits (T : Tables) (p : Position) (hp : N) : list bool := times (boxCount p hp) (cb (boxCode T hp)).
Definition packedBits (T : Tables) (p : Position) : list bool :=
  codeBits (turn p) 1 ++ codeBits (kingSquare p 0) 7 ++ codeBits (kingSquare p 1) 7 ++ flat_map (sqBits T p) squares ++
  (flat_map (handBits T p 0) (seqN 0 7) ++ flat_map (handBits T p 1) (seqN 0 7)) ++ flat_map (boxBits T p) (seqN 0 7).

Lemma subCount_spec cn hp n hp' : length cn = 8%nat -> hp < 8 -> length (subCount cn hp n) = 8%nat /\
  nthN 0%Z (subCount cn hp n) hp' = (nthN 0%Z cn hp' - (if (hp =? hp')%N then n else 0))%Z.
Proof.
  intros L H. unfold subCount. split; [now rewrite length_updN|]. rewrite nthN_updN by (rewrite L; cbn; lia). destruct (N.eqb_spec hp hp') as [->|]; lia.
Qed.
Lemma ptToHand_lt pt : ptToHand pt < 8.
Proof.
  destruct (N.lt_ge_cases pt 15) as [H|H].
  - assert (F : forallb (fun x => ptToHand x <? 8) (seqN 0 15) = true) by reflexivity. rewrite forallb_forall in F. specialize (F pt). rewrite in_seqN in F.
    change (0 + N.of_nat 15) with 15 in F. apply N.ltb_lt. apply F. lia.
  - unfold ptToHand, nthN. rewrite nth_overflow; [lia|]. cbn [length]. lia.
Qed.
Lemma putSquares_list T p l : forall s cn, length cn = 8%nat ->
  exists cn', fold_left (putSquare T p) l (s, cn) = (putList s (flat_map (sqBits T p) l), cn') /\ length cn' = 8%nat /\
  forall hp, hp < 7 -> nthN 0%Z cn' hp = (nthN 0%Z cn hp - Z.of_nat (length (filter (fun sq => ptToHand (ptOf (pieceAt p sq)) =? hp)%N l)))%Z.
Proof.
  induction l as [|a l IH]; intros s cn L; cbn [fold_left flat_map filter].
  - exists cn. repeat split; auto. intros. cbn. lia.
  - unfold putSquare at 2, sqBits at 1. destruct (N.eqb_spec (ptOf (pieceAt p a)) King) as [E|E].
    + destruct (IH s cn L) as (cn' & A & B & C). exists cn'. rewrite A. repeat split; auto. intros hp H. rewrite C, E by auto. change (ptToHand King) with 7. now replace (7 =? hp) with false by lia.
    + cbn [fst snd]. set (h := ptToHand (ptOf (pieceAt p a))). destruct (subCount_spec cn h 1 0 L (ptToHand_lt _)) as [L' _].
      destruct (IH (putCode s (boardCode T (pieceAt p a))) _ L') as (cn' & A & B & C). exists cn'. rewrite A, putList_app, putCode_list. repeat split; auto.
      intros hp H. rewrite C by auto. destruct (subCount_spec cn h 1 hp L (ptToHand_lt _)) as [_ ->]. fold h. destruct (h =? hp); cbn [length]; lia.
Qed.
Lemma putHands_list T p c l : forall s cn, length cn = 8%nat -> NoDup l -> (forall hp, In hp l -> hp < 8) ->
  exists cn', fold_left (putHand T p c) l (s, cn) = (putList s (flat_map (handBits T p c) l), cn') /\ length cn' = 8%nat /\
  forall hp, hp < 7 -> nthN 0%Z cn' hp = (nthN 0%Z cn hp - if existsb (N.eqb hp) l then Z.of_N (numOf (handOf p c) hp) else 0)%Z.
Proof.
  induction l as [|a l IH]; intros s cn L ND Hl; cbn [fold_left flat_map existsb].
  - exists cn. repeat split; auto. intros. lia.
  - inversion ND as [|? ? Na ND']; subst. unfold putHand at 2. cbn [fst snd]. set (n := numOf (handOf p c) a).
    destruct (subCount_spec cn a (Z.of_N n) 0 L (Hl a (or_introl eq_refl))) as [L' _].
    destruct (IH (putTimes (N.to_nat n) s (handCode T a c)) _ L' ND') as (cn' & A & B & C); [intros; apply Hl; now right|]. exists cn'. rewrite A, putList_app, putTimes_list. repeat split; auto.
    intros hp H. rewrite C by auto. destruct (subCount_spec cn a (Z.of_N n) hp L (Hl a (or_introl eq_refl))) as [_ ->]. rewrite (N.eqb_sym hp a).
    destruct (N.eqb_spec a hp) as [->|]; cbn [orb]; [|lia]. assert (X : existsb (N.eqb hp) l = false).
    { apply not_true_is_false. intros X. apply existsb_exists in X as (y & Hy & Q). apply N.eqb_eq in Q. subst. contradiction. }
    rewrite X. fold n. lia.
Qed.
Lemma putBoxes_list T cn l : forall s, fold_left (putBox T cn) l s = putList s (flat_map (fun hp => times (Z.to_nat (nthN 0%Z cn hp)) (cb (boxCode T hp))) l).
Proof. induction l as [|a l IH]; intros s; [reflexivity|]. cbn [fold_left flat_map]. rewrite IH, putList_app. unfold putBox. now rewrite putTimes_list. Qed.
Lemma flat_map_in {A B} (f g : A -> list B) l : (forall x, In x l -> f x = g x) -> flat_map f l = flat_map g l.
Proof. induction l as [|a l IH]; intros H; [reflexivity|]. cbn [flat_map]. rewrite (H a) by now left. rewrite IH; auto. intros; apply H; now right. Qed.
Theorem toPacked_list T p : toPacked T p = putList (Some (mkStream (repeat 0 32) 0 0)) (packedBits T p).
Proof.
  unfold toPacked. rewrite !putBits_list. rewrite <- !putList_app. set (s := putList _ _). change Black with 0 in *. change White with 1 in *.
  destruct (putSquares_list T p squares s boxStart eq_refl) as (c1 & -> & L1 & C1). cbn [fold_left].
  assert (L7 : forall hp, In hp (seqN 0 7) -> hp < 8) by (intros hp H; apply in_seqN in H; change (0 + N.of_nat 7) with 7 in H; lia).
  destruct (putHands_list T p 0 (seqN 0 7) (putList s (flat_map (sqBits T p) squares)) c1 L1 (NoDup_seqN _ _) L7) as (c2 & -> & L2 & C2).
  destruct (putHands_list T p 1 (seqN 0 7) (putList (putList s (flat_map (sqBits T p) squares)) (flat_map (handBits T p 0) (seqN 0 7))) c2 L2 (NoDup_seqN _ _) L7) as (c3 & -> & L3 & C3).
  cbn [fst snd]. rewrite putBoxes_list. unfold packedBits, s. rewrite <- !putList_app. f_equal. rewrite <- !app_assoc. do 6 f_equal.
  apply flat_map_in. intros hp H. apply in_seqN in H. change (0 + N.of_nat 7) with 7 in H. unfold boxBits. f_equal.
  rewrite C3, C2, C1 by lia. rewrite !existsb_seq7 by lia. unfold boxCount, material, boardCount, cnt.
  assert (E : nthN 0%Z boxStart hp = Z.of_N (fullSet hp)).
  { assert (F : forallb (fun x => Z.eqb (nthN 0%Z boxStart x) (Z.of_N (fullSet x))) (seqN 0 7) = true) by reflexivity. rewrite forallb_forall in F. apply Z.eqb_eq, F, in_seqN. cbn. lia. }
  rewrite E. unfold pieceAt, at_. lia.
Qed.

(* ---- what is needed of the tables ---- *)
Definition slotLen : N -> N := nthN 0 [3; 5; 5; 5; 5; 7; 7].
(* reading the bits of a code from a list *)
Fixpoint simCode (h : list (Code * N)) (l : list bool) (c : Code) : option N :=
  match l with
  | [] => None
  | b :: l => let c := (N.lor (fst c) (N.shiftl (N.b2n b) (snd c)) mod 256, snd c + 1) in
              match hashValue h c, l with
              | Some pc, [] => Some pc
              | Some _, _ => None
              | None, _ => simCode h l c
              end
  end.
Definition optIs (o : option N) (x : N) : bool := match o with Some y => y =? x | None => false end.
Definition tablesOK (T : Tables) : bool :=
  forallb (fun pc => negb (vpc pc) || (ptOf pc =? King) ||
     ((snd (boardCode T pc) =? 1 + fold_right (fun hp n => slotLen hp * N.b2n (ptToHand (ptOf pc) =? hp) + n) 0 (seqN 0 7)) &&
      optIs (simCode (boardHash T) (cb (boardCode T pc)) (0, 0)) pc && (snd (boardCode T pc) <=? 9))) (seqN 0 31) &&
  forallb (fun hp => (snd (boxCode T hp) =? slotLen hp) && optIs (simCode (handHash T) (cb (boxCode T hp)) (0, 0)) 0 &&
     forallb (fun c => (snd (handCode T hp c) =? slotLen hp) && optIs (simCode (handHash T) (cb (handCode T hp c)) (0, 0)) (mkPiece c (handToPt hp))) [0; 1]) (seqN 0 7).
Lemma hcp_ok : tablesOK hcpTables = true. Proof. vm_compute. reflexivity. Qed.
Lemma psfen_ok : tablesOK psfenTables = true. Proof. vm_compute. reflexivity. Qed.
Lemma cb_len c : N.of_nat (length (cb c)) = snd c.
Proof. unfold cb. rewrite length_codeBits. apply N2Nat.id. Qed.
Lemma optIs_eq o x : optIs o x = true -> o = Some x.
Proof. destruct o as [y|]; [|discriminate]. cbn. intros H. apply N.eqb_eq in H. now subst. Qed.
Definition slotSum (f : N -> N) : N := fold_right (fun hp n => slotLen hp * f hp + n) 0 (seqN 0 7).
Lemma slotSum_ext f g : (forall hp, hp < 7 -> f hp = g hp) -> slotSum f = slotSum g.
Proof. intros H. unfold slotSum. cbn [seqN fold_right]. rewrite !H by lia. reflexivity. Qed.
Lemma slotSum_add f g : slotSum (fun hp => f hp + g hp) = slotSum f + slotSum g.
Proof. unfold slotSum. cbn [seqN fold_right]. lia. Qed.
Lemma times_len n l : length (times n l) = (n * length l)%nat.
Proof. unfold times. induction n as [|n IH]; [reflexivity|]. cbn [repeat concat]. rewrite app_length, IH. lia. Qed.
Section tables.
Variable T : Tables.
Hypothesis OK : tablesOK T = true.
Lemma board_ok pc : vpc pc = true -> ptOf pc <> King -> N.of_nat (length (cb (boardCode T pc))) =
   1 + fold_right (fun hp n => slotLen hp * N.b2n (ptToHand (ptOf pc) =? hp) + n) 0 (seqN 0 7) /\ simCode (boardHash T) (cb (boardCode T pc)) (0, 0) = Some pc /\ (length (cb (boardCode T pc)) <= 9)%nat.
Proof.
  intros V K. unfold tablesOK in OK. apply andb_prop in OK as [A _]. rewrite forallb_forall in A. specialize (A pc). rewrite in_seqN in A.
  assert (L : pc < 31) by (unfold vpc in V; lia). change (0 + N.of_nat 31) with 31 in A. specialize (A ltac:(lia)). rewrite V in A. cbn [negb orb] in A.
  destruct (N.eqb_spec (ptOf pc) King); [contradiction|]. cbn [orb] in A. apply andb_prop in A as [A C]. apply andb_prop in A as [A B].
  rewrite cb_len. apply N.eqb_eq in A. apply N.leb_le in C. split; [exact A|]. split; [now apply optIs_eq|]. pose proof (cb_len (boardCode T pc)). lia.
Qed.
Lemma hand_ok hp c : hp < 7 -> c < 2 -> N.of_nat (length (cb (handCode T hp c))) = slotLen hp /\ simCode (handHash T) (cb (handCode T hp c)) (0, 0) = Some (mkPiece c (handToPt hp)) /\
  N.of_nat (length (cb (boxCode T hp))) = slotLen hp /\ simCode (handHash T) (cb (boxCode T hp)) (0, 0) = Some 0.
Proof.
  intros H Hc. unfold tablesOK in OK. apply andb_prop in OK as [_ A]. rewrite forallb_forall in A. specialize (A hp). rewrite in_seqN in A.
  change (0 + N.of_nat 7) with 7 in A. specialize (A ltac:(lia)). apply andb_prop in A as [A B]. apply andb_prop in A as [A C]. rewrite forallb_forall in B. specialize (B c).
  assert (I : In c [0; 1]) by (cbn; lia). specialize (B I). apply andb_prop in B as [B D]. rewrite !cb_len. apply N.eqb_eq in A, B.
  split; [exact B|]. split; [now apply optIs_eq|]. split; [exact A|now apply optIs_eq].
Qed.
Lemma squares_len p l : (forall s, In s l -> vpc (pieceAt p s) = true) -> N.of_nat (length (flat_map (sqBits T p) l)) =
  N.of_nat (length (filter (fun s => negb (ptOf (pieceAt p s) =? King)) l)) + slotSum (fun hp => N.of_nat (length (filter (fun s => ptToHand (ptOf (pieceAt p s)) =? hp) l))).
Proof.
  induction l as [|a l IH]; intros V; [reflexivity|]. cbn [flat_map filter]. rewrite app_length, Nat2N.inj_add, IH by (intros; apply V; now right). clear IH. unfold sqBits.
  destruct (N.eqb_spec (ptOf (pieceAt p a)) King) as [E|E]; cbn [negb].
  - cbn [length]. rewrite N.add_0_l. rewrite E. change (ptToHand King) with 7. reflexivity.
  - destruct (board_ok _ (V a (or_introl eq_refl)) E) as [A _]. rewrite A. fold (slotSum (fun hp => N.b2n (ptToHand (ptOf (pieceAt p a)) =? hp))).
    rewrite (slotSum_ext (fun hp => N.of_nat (length (if ptToHand (ptOf (pieceAt p a)) =? hp then _ else _)))
      (fun hp => N.b2n (ptToHand (ptOf (pieceAt p a)) =? hp) + N.of_nat (length (filter (fun s => ptToHand (ptOf (pieceAt p s)) =? hp) l)))).
    + rewrite slotSum_add. cbn [length]. lia.
    + intros hp H. destruct (ptToHand _ =? hp); cbn [length N.b2n]; lia.
Qed.
Lemma hands_len p c : c < 2 -> N.of_nat (length (flat_map (handBits T p c) (seqN 0 7))) = slotSum (fun hp => numOf (handOf p c) hp).
Proof.
  intros Hc. unfold slotSum. cbn [seqN flat_map fold_right]. rewrite !app_length. unfold handBits. rewrite !times_len.
  pose proof (proj1 (hand_ok 0 c ltac:(lia) Hc)). pose proof (proj1 (hand_ok (0+1) c ltac:(lia) Hc)). pose proof (proj1 (hand_ok (0+1+1) c ltac:(lia) Hc)). pose proof (proj1 (hand_ok (0+1+1+1) c ltac:(lia) Hc)).
  pose proof (proj1 (hand_ok (0+1+1+1+1) c ltac:(lia) Hc)). pose proof (proj1 (hand_ok (0+1+1+1+1+1) c ltac:(lia) Hc)). pose proof (proj1 (hand_ok (0+1+1+1+1+1+1) c ltac:(lia) Hc)). clear OK. cbn [length]. lia.
Qed.
Lemma boxes_len p : N.of_nat (length (flat_map (boxBits T p) (seqN 0 7))) = slotSum (fun hp => N.of_nat (boxCount p hp)).
Proof.
  unfold slotSum. cbn [seqN flat_map fold_right]. rewrite !app_length. unfold boxBits. rewrite !times_len.
  pose proof (proj1 (proj2 (proj2 (hand_ok 0 0 ltac:(lia) ltac:(lia))))). pose proof (proj1 (proj2 (proj2 (hand_ok (0+1) 0 ltac:(lia) ltac:(lia))))).
  pose proof (proj1 (proj2 (proj2 (hand_ok (0+1+1) 0 ltac:(lia) ltac:(lia))))). pose proof (proj1 (proj2 (proj2 (hand_ok (0+1+1+1) 0 ltac:(lia) ltac:(lia))))).
  pose proof (proj1 (proj2 (proj2 (hand_ok (0+1+1+1+1) 0 ltac:(lia) ltac:(lia))))). pose proof (proj1 (proj2 (proj2 (hand_ok (0+1+1+1+1+1) 0 ltac:(lia) ltac:(lia))))).
  pose proof (proj1 (proj2 (proj2 (hand_ok (0+1+1+1+1+1+1) 0 ltac:(lia) ltac:(lia))))). clear OK. cbn [length]. lia.
Qed.
End tables.
