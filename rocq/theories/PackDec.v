(* Reading back what was written. *)
From Verif Require Import Packed HandProofs DoMoveProofs.
From Verif Require Export PackEnc Fresh.
Local Open Scope N_scope.

(* ---- the number of bits ---- *)
Lemma one_king_len bd c : oneKing bd -> c < 2 -> length (filter (isKing bd c) squares) = if kingOf bd c <? 81 then 1%nat else 0%nat.
Proof.
  intros O Hc. unfold kingOf. pose proof (NoDup_filter (isKing bd c) NoDup_squares) as ND. assert (H : forall s, In s (filter (isKing bd c) squares) -> s < 81 /\ isKing bd c s = true).
  { intros s Hs. apply filter_In in Hs as [A B]. apply in_squares in A. auto. }
  destruct (filter (isKing bd c) squares) as [|a [|b l]]; cbn [hd length].
  - reflexivity.
  - destruct (H a (or_introl eq_refl)) as [La _]. now destruct (N.ltb_spec a 81); [|lia].
  - exfalso. destruct (H a (or_introl eq_refl)) as [La Ka]. destruct (H b (or_intror (or_introl eq_refl))) as [Lb Kb]. pose proof (O c a b Hc La Lb Ka Kb) as E. inversion ND as [|? ? Na _]; subst. apply Na. now left.
Qed.
Lemma filter_neg_len {A} (f : A -> bool) l : (length (filter (fun x => negb (f x)) l) + length (filter f l) = length l)%nat.
Proof. induction l as [|a l IH]; [reflexivity|]. cbn [filter]. destruct (f a); cbn [negb length]; lia. Qed.
Lemma filter_or_len {A} (f g h : A -> bool) l : (forall x, In x l -> h x = f x || g x) -> (forall x, In x l -> f x = true -> g x = false) ->
  (length (filter h l) = length (filter f l) + length (filter g l))%nat.
Proof.
  induction l as [|a l IH]; intros H D; [reflexivity|]. cbn [filter]. rewrite (H a (or_introl eq_refl)). pose proof (D a (or_introl eq_refl)) as Da.
  assert (I : length (filter h l) = (length (filter f l) + length (filter g l))%nat) by (apply IH; intros; [apply H|apply D]; auto; now right).
  destruct (f a); [rewrite (Da eq_refl)|]; cbn [orb]; [|destruct (g a)]; cbn [length]; lia.
Qed.
Lemma king_piece x c : vpc x = true -> c < 2 -> (x =? mkPiece c King) = (ptOf x =? King) && (colorOf x =? c).
Proof.
  intros V Hc. destruct (vpc_cases x V) as [->|(c' & pt & Hc' & Hp & ->)].
  - assert (c = 0 \/ c = 1) as [->| ->] by lia; reflexivity.
  - rewrite pt_mk, col_mk by auto. unfold King. destruct (N.eqb_spec pt 8) as [->|D]; cbn [andb].
    + destruct (N.eqb_spec c' c) as [->|D]; [apply N.eqb_refl|]. apply N.eqb_neq. intros E. apply (f_equal colorOf) in E. rewrite !col_mk in E by (auto; lia). contradiction.
    + apply N.eqb_neq. intros E. apply (f_equal ptOf) in E. rewrite !pt_mk in E by (auto; lia). contradiction.
Qed.
Lemma nonking_len p : good p -> (length (filter (fun s => negb (ptOf (pieceAt p s) =? King)%N) squares) +
  (if (kingSquare p 0 <? 81)%N then 1 else 0) + (if (kingSquare p 1 <? 81)%N then 1 else 0) = 81)%nat.
Proof.
  intros G. pose proof (g_views p G) as V. pose proof (v_board p V) as Ok.
  assert (EK : forall c, c < 2 -> kingSquare p c = kingOf (board p) c) by (intros c Hc; unfold kingSquare; rewrite (v_king p V); assert (c = 0 \/ c = 1) as [->| ->] by lia; reflexivity).
  rewrite !EK by lia. rewrite <- !(one_king_len (board p)) by (try apply G; lia).
  pose proof (filter_neg_len (fun s => ptOf (pieceAt p s) =? King) squares) as A. cbv beta in A. change (length squares) with 81%nat in A.
  rewrite (filter_or_len (isKing (board p) 0) (isKing (board p) 1) (fun s => ptOf (pieceAt p s) =? King) squares) in A; [lia|..].
  - intros x Hx. apply in_squares in Hx. unfold isKing. fold (pieceAt p x). change (at_ (board p) x) with (pieceAt p x). pose proof (okB_at p x Ok Hx) as VX. rewrite !king_piece by (auto; lia).
    destruct (vpc_cases _ VX) as [E|(c & pt & Hc & Hp & E)]; rewrite E; [reflexivity|]. rewrite pt_mk, col_mk by auto. destruct (pt =? King); [|reflexivity]. assert (c = 0 \/ c = 1) as [->| ->] by lia; reflexivity.
  - intros x Hx E. unfold isKing in *. apply N.eqb_eq in E. rewrite E. reflexivity.
Qed.
Lemma bc p hp : N.of_nat (length (filter (fun s => ptToHand (ptOf (pieceAt p s)) =? hp) squares)) = boardCount (board p) hp.
Proof. unfold boardCount, cnt, pieceAt, at_; reflexivity. Qed.
Lemma slots_add4 f1 f2 f3 f4 : (forall hp, hp < 7 -> f1 hp + f2 hp + f3 hp + f4 hp = fullSet hp) -> slotSum f1 + slotSum f2 + slotSum f3 + slotSum f4 = 162.
Proof.
  intros H. rewrite <- !slotSum_add. transitivity (slotSum fullSet); [|reflexivity]. apply slotSum_ext. exact H.
Qed.
Lemma box_eq p hp : N.of_nat (boxCount p hp) = fullSet hp - material p hp.
Proof. unfold boxCount. apply N2Nat.id. Qed.
Lemma mat_eq p hp : material p hp = boardCount (board p) hp + numOf (handOf p 0) hp + numOf (handOf p 1) hp.
Proof. reflexivity. Qed.
Lemma arith a b c f m : m = a + b + c -> m <= f -> a + b + c + (f - m) = f.
Proof. lia. Qed.
Lemma slots_full p : okMaterial p -> slotSum (fun hp => N.of_nat (length (filter (fun s => ptToHand (ptOf (pieceAt p s)) =? hp) squares))) +
     slotSum (fun hp => numOf (handOf p 0) hp) + slotSum (fun hp => numOf (handOf p 1) hp) + slotSum (fun hp => N.of_nat (boxCount p hp)) = 162.
Proof.
  intros M. apply slots_add4. intros hp H. rewrite bc, box_eq. exact (arith _ _ _ _ _ (mat_eq p hp) (M hp H)).
Qed.
Lemma packedBits_sum (n1 n2 n3 n4 nk : nat) (a b c d : N) (k0 k1 : bool) : N.of_nat n1 = N.of_nat nk + a -> N.of_nat n2 = b -> N.of_nat n3 = c -> N.of_nat n4 = d -> a + b + c + d = 162 ->
  (nk + (if k0 then 1 else 0) + (if k1 then 1 else 0) = 81)%nat -> (1 + (7 + (7 + (n1 + ((n2 + n3) + n4)))) = 256 + (if k0 then 0 else 1) + (if k1 then 0 else 1))%nat.
Proof. intros. destruct k0, k1; lia. Qed.
Lemma packedBits_len T p : tablesOK T = true -> good p -> length (packedBits T p) = (256 + (if (kingSquare p 0 <? 81)%N then 0 else 1) + (if (kingSquare p 1 <? 81)%N then 0 else 1))%nat.
Proof.
  intros OK G. unfold packedBits. rewrite !app_length, !length_codeBits.
  assert (V : forall s, In s squares -> vpc (pieceAt p s) = true) by (intros s Hs; apply okB_at; [apply G|now apply in_squares]).
  exact (packedBits_sum _ _ _ _ _ _ _ _ _ _ _ (squares_len T OK p squares V) (hands_len T OK p 0 eq_refl) (hands_len T OK p 1 eq_refl) (boxes_len T OK p) (slots_full p (g_mat p G)) (nonking_len p G)).
Qed.

(* ---- reading codes ---- *)
Lemma readCode_sim h l : forall fuel s c r pc, okStream s -> remaining s = l ++ r -> simCode h l c = Some pc -> (length l <= fuel)%nat ->
  exists s', readCode fuel h s c = Done (pc, s') /\ remaining s' = r /\ okStream s' /\ sdata s' = sdata s.
Proof.
  induction l as [|b l IH]; intros fuel s c r pc O R S L; [discriminate|]. cbn [length app simCode] in *. destruct fuel as [|fuel]; [lia|]. cbn [readCode].
  destruct (getBit_more s b _ O R) as (s' & G & R' & O' & D & _). rewrite G. destruct (hashValue h _) as [x|] eqn:E.
  - destruct l; [|discriminate]. injection S as ->. exists s'. auto.
  - destruct (IH fuel s' _ r pc O' R' S ltac:(lia)) as (s'' & A & B & C & F). exists s''. rewrite A. split; [reflexivity|]. split; auto. split; auto. congruence.
Qed.
Section read.
Variable T : Tables.
Hypothesis OK : tablesOK T = true.
Lemma readSquares_spec p l : (forall s, s < 81 -> vpc (pieceAt p s) = true) -> forall bd q s r, pre bd q -> NoDup l ->
  (forall t, In t l -> t < 81 /\ at_ bd t = if ptOf (pieceAt p t) =? King then pieceAt p t else 0) -> okStream s -> remaining s = flat_map (sqBits T p) l ++ r ->
  exists bd' q' s', readSquares (boardHash T) l q s = Done (q', s') /\ remaining s' = r /\ okStream s' /\ sdata s' = sdata s /\ pre bd' q' /\
    hands q' = hands q /\ turn q' = turn q /\ st q' = st q /\ prev q' = prev q /\ forall t, t < 81 -> at_ bd' t = if existsb (N.eqb t) l then pieceAt p t else at_ bd t.
Proof.
  intros V. induction l as [|a l IH]; intros bd q s r P ND Hl O R; cbn [readSquares flat_map existsb] in *.
  - exists bd, q, s. do 9 (split; [assumption || reflexivity|]). reflexivity.
  - inversion ND as [|? ? Na ND']; subst. destruct (Hl a (or_introl eq_refl)) as [La Ea]. unfold sqBits at 1 in R.
    assert (PA : pieceAt q a = at_ bd a) by (unfold pieceAt; rewrite (pre_bd _ _ P); reflexivity). rewrite PA, Ea.
    destruct (N.eqb_spec (ptOf (pieceAt p a)) King) as [K|K].
    + rewrite K, N.eqb_refl. destruct (IH bd q s r P ND' ltac:(intros; apply Hl; now right) O R) as (bd' & q' & s' & X). exists bd', q', s'.
      decompose [and] X. repeat (split; [assumption|]). intros t Ht. rewrite H9 by auto. destruct (N.eqb_spec t a) as [->|]; cbn [orb]; [|reflexivity]. rewrite Ea. now destruct (existsb _ l).
    + change (ptOf 0 =? King) with false. cbv iota. rewrite <- app_assoc in R. destruct (board_ok T OK _ (V a La) K) as (_ & S & L9).
      destruct (readCode_sim _ _ 9 s (0, 0) _ _ O R S L9) as (s1 & -> & R1 & O1 & D1). cbn [obind fst snd]. unfold Empty.
      assert (P1 : pre (updN bd a (pieceAt p a)) (if pieceAt p a =? 0 then q else setPiece q (pieceAt p a) a)).
      { destruct (N.eqb_spec (pieceAt p a) 0) as [Z|NZ].
        - rewrite Z. assert (U : updN bd a 0 = bd).
          { apply (nthN_ext 0); [apply length_updN|]. intros i Hi. rewrite length_updN in Hi. rewrite nthN_updN by (rewrite (proj1 (pre_ok _ _ P)); lia). destruct (N.eqb_spec a i) as [<-|]; [symmetry; exact Ea|reflexivity]. }
          now rewrite U.
        - destruct (vpc_facts _ (V a La) NZ) as (B1 & B2 & B3). rewrite B3. apply pre_setPiece; auto. }
      assert (Hl1 : forall t, In t l -> t < 81 /\ at_ (updN bd a (pieceAt p a)) t = if ptOf (pieceAt p t) =? King then pieceAt p t else 0).
      { intros t Ht. destruct (Hl t (or_intror Ht)) as [Lt Et]. split; auto. rewrite at_updN by (rewrite (proj1 (pre_ok _ _ P)); lia). destruct (N.eqb_spec a t) as [->|]; [contradiction|exact Et]. }
      destruct (IH _ _ s1 r P1 ND' Hl1 O1 R1) as (bd' & q' & s' & A & B & C & D & F & H1 & H2 & H3 & H4 & At). exists bd', q', s'.
      assert (Same : hands (if pieceAt p a =? 0 then q else setPiece q (pieceAt p a) a) = hands q /\ turn (if pieceAt p a =? 0 then q else setPiece q (pieceAt p a) a) = turn q /\
        st (if pieceAt p a =? 0 then q else setPiece q (pieceAt p a) a) = st q /\ prev (if pieceAt p a =? 0 then q else setPiece q (pieceAt p a) a) = prev q) by (destruct (pieceAt p a =? 0); repeat split).
      destruct Same as (S1 & S2 & S3 & S4). rewrite A. do 9 (split; [assumption || reflexivity || congruence|]). intros t Ht. rewrite At by auto. rewrite at_updN by (rewrite (proj1 (pre_ok _ _ P)); lia). rewrite (N.eqb_sym a t).
      destruct (N.eqb_spec t a) as [->|]; cbn [orb]; [|reflexivity]. now destruct (existsb _ l).
Qed.
(* hand symbols *)
Definition addSym (q : Position) (pc : N) : Position := if pc =? Empty then q else handPlusOne q (colorOf pc) (ptToHand (ptOf pc)).
Lemma readHands_syms (l : list (list bool * N)) : (forall x, In x l -> simCode (handHash T) (fst x) (0, 0) = Some (snd x) /\ (length (fst x) <= 9)%nat) -> forall fuel q s, okStream s ->
  remaining s = flat_map fst l -> (length l <= fuel)%nat -> readHands fuel (handHash T) q s = Done (fold_left addSym (map snd l) q).
Proof.
  induction l as [|x l IH]; intros H fuel q s O R L; cbn [flat_map map fold_left length] in *.
  - destruct (getBit_end s O R) as [_ E]. destruct fuel; cbn [readHands]; rewrite E, N.eqb_refl; reflexivity.
  - destruct (H x (or_introl eq_refl)) as [S L9]. destruct fuel as [|fuel]; [lia|]. cbn [readHands].
    assert (Ne : spos s <> sLen s).
    { destruct (fst x) as [|b t] eqn:Ex; [discriminate|]. cbn [app] in R. destruct (getBit_more s b _ O R) as (_ & _ & _ & _ & _ & E). exact E. }
    destruct (N.eqb_spec (spos s) (sLen s)); [contradiction|]. destruct (readCode_sim _ _ 9 s (0, 0) _ _ O R S L9) as (s1 & -> & R1 & O1 & D1). cbn [obind fst snd].
    apply IH; auto; [|lia]. intros y Hy. apply H. now right.
Qed.
Lemma plus_repeat c hp n : c < 2 -> hp < 7 -> forall bd q, pre bd q -> okHands q -> numOf (handOf q c) hp + N.of_nat n < 2 ^ handW hp ->
  let q' := fold_left addSym (repeat (mkPiece c (handToPt hp)) n) q in pre bd q' /\ okHands q' /\ turn q' = turn q /\ st q' = st q /\ prev q' = prev q /\
  forall c' hp', c' < 2 -> hp' < 7 -> numOf (handOf q' c') hp' = numOf (handOf q c') hp' + if (c =? c') && (hp =? hp') then N.of_nat n else 0.
Proof. clear OK.
  intros Hc Hh. assert (HP : (1 <= handToPt hp /\ handToPt hp < 15) /\ ptToHand (handToPt hp) = hp) by (clear - Hh; hpcases Hh; vm_compute; repeat split; discriminate). destruct HP as [HP1 HP2].
  induction n as [|n IH]; intros bd q P H L.
  - cbv zeta. cbn [repeat fold_left]. do 5 (split; [assumption || reflexivity|]). intros. destruct (_ && _); cbn; lia.
  - cbn [repeat fold_left]. unfold addSym at 2 4 6 8 10 12. unfold Empty. rewrite mk_nz, col_mk, pt_mk, HP2 by auto. destruct H as [L2 Ho].
    destruct (plusOne_spec (handOf q c) hp (Ho c Hc) Hh ltac:(lia)) as [A B].
    assert (E : forall c', c' < 2 -> handOf (handPlusOne q c hp) c' = if c =? c' then plusOne (handOf q c) hp else handOf q c').
    { intros c' Hc'. unfold handOf at 1. cbn [handPlusOne hands]. rewrite nthN_updN by lia. reflexivity. }
    assert (H1 : okHands (handPlusOne q c hp)).
    { split; [cbn [handPlusOne hands]; now rewrite length_updN|]. intros c' Hc'. rewrite E by auto. destruct (c =? c'); auto. }
    assert (P1 : pre bd (handPlusOne q c hp)) by (destruct P; constructor; auto).
    destruct (IH bd (handPlusOne q c hp) P1 H1) as (P' & H' & T1 & S1 & V1 & N1); [rewrite E, N.eqb_refl, B, N.eqb_refl by auto; lia|].
    cbv zeta in *. do 5 (split; [assumption || reflexivity || congruence|]). intros c' hp' Hc' Hp'. rewrite N1, E by auto. destruct (N.eqb_spec c c') as [<-|]; cbn [andb]; [|lia]. rewrite B by auto. destruct (hp =? hp'); lia.
Qed.
Lemma addSym_boxes n q : fold_left addSym (repeat 0 n) q = q.
Proof. induction n as [|n IH]; [reflexivity|]. cbn [repeat fold_left]. exact IH. Qed.
Definition handPcs (p : Position) (c hp : N) : list N := repeat (mkPiece c (handToPt hp)) (N.to_nat (numOf (handOf p c) hp)).
Lemma plus_hand p c l : c < 2 -> (forall hp, hp < 7 -> numOf (handOf p c) hp < 2 ^ handW hp) -> forall bd q, pre bd q -> okHands q -> NoDup l -> (forall hp, In hp l -> hp < 7 /\ numOf (handOf q c) hp = 0) ->
  let q' := fold_left addSym (flat_map (handPcs p c) l) q in pre bd q' /\ okHands q' /\ turn q' = turn q /\ st q' = st q /\ prev q' = prev q /\
  forall c' hp', c' < 2 -> hp' < 7 -> numOf (handOf q' c') hp' = if (c =? c') && existsb (N.eqb hp') l then numOf (handOf p c) hp' else numOf (handOf q c') hp'.
Proof. clear OK.
  intros Hc W. induction l as [|a l IH]; intros bd q P H ND Hl; cbn [flat_map fold_left existsb].
  - cbv zeta. do 5 (split; [assumption || reflexivity|]). intros. now rewrite andb_false_r.
  - inversion ND as [|? ? Na ND']; subst. destruct (Hl a (or_introl eq_refl)) as [La Ea]. rewrite fold_left_app. unfold handPcs at 2 4 6 8 10 12.
    destruct (plus_repeat c a (N.to_nat (numOf (handOf p c) a)) Hc La bd q P H) as (P1 & H1 & T1 & S1 & V1 & N1); [rewrite Ea, N2Nat.id, N.add_0_l; auto|]. cbv zeta in *.
    rewrite N2Nat.id in N1. revert P1 H1 T1 S1 V1 N1. generalize (fold_left addSym (repeat (mkPiece c (handToPt a)) (N.to_nat (numOf (handOf p c) a))) q). intros q1 P1 H1 T1 S1 V1 N1.
    destruct (IH bd q1 P1 H1 ND') as (P2 & H2 & T2 & S2 & V2 & N2).
    { intros hp Hh. destruct (Hl hp (or_intror Hh)) as [Lh Eh]. split; auto. rewrite N1, Eh by auto. destruct (N.eqb_spec a hp) as [->|]; [contradiction|]. now rewrite andb_false_r. }
    do 5 (split; [assumption || reflexivity || congruence|]). intros c' hp' Hc' Hp'. rewrite N2, N1 by auto. rewrite (N.eqb_sym hp' a). destruct (N.eqb_spec c c') as [<-|]; cbn [andb]; [|lia].
    destruct (N.eqb_spec a hp') as [->|]; cbn [orb]; [|now rewrite N.add_0_r]. destruct (Hl hp' (or_introl eq_refl)) as [_ ->]. destruct (existsb _ l); [reflexivity|apply N.add_0_l].
Qed.
(* the symbols of a position *)
Definition handSyms (p : Position) (c hp : N) : list (list bool * N) := repeat (cb (handCode T hp c), mkPiece c (handToPt hp)) (N.to_nat (numOf (handOf p c) hp)).
Definition boxSyms (p : Position) (hp : N) : list (list bool * N) := repeat (cb (boxCode T hp), 0) (boxCount p hp).
Definition syms (p : Position) : list (list bool * N) := (flat_map (handSyms p 0) (seqN 0 7) ++ flat_map (handSyms p 1) (seqN 0 7)) ++ flat_map (boxSyms p) (seqN 0 7).
Lemma flat_map_flat_map {A B C} (f : A -> list B) (g : B -> list C) l : flat_map g (flat_map f l) = flat_map (fun x => flat_map g (f x)) l.
Proof. induction l as [|a l IH]; [reflexivity|]. cbn [flat_map]. now rewrite flat_map_app, IH. Qed.
Lemma map_flat_map {A B C} (f : A -> list B) (g : B -> C) l : map g (flat_map f l) = flat_map (fun x => map g (f x)) l.
Proof. induction l as [|a l IH]; [reflexivity|]. cbn [flat_map]. now rewrite map_app, IH. Qed.
Lemma map_repeat' {A B} (g : A -> B) x n : map g (repeat x n) = repeat (g x) n.
Proof. induction n as [|n IH]; [reflexivity|]. cbn [repeat map]. now rewrite IH. Qed.
Lemma flat_map_repeat (x : list bool * N) n : flat_map fst (repeat x n) = times n (fst x).
Proof. unfold times. induction n as [|n IH]; [reflexivity|]. cbn [repeat flat_map concat]. now rewrite IH. Qed.
Lemma syms_bits p : flat_map fst (syms p) = (flat_map (handBits T p 0) (seqN 0 7) ++ flat_map (handBits T p 1) (seqN 0 7)) ++ flat_map (boxBits T p) (seqN 0 7).
Proof.
  unfold syms. rewrite !flat_map_app, !flat_map_flat_map. f_equal; [f_equal|]; apply flat_map_in; intros hp _; unfold handSyms, boxSyms; apply flat_map_repeat.
Qed.
Lemma syms_pcs p : map snd (syms p) = (flat_map (handPcs p 0) (seqN 0 7) ++ flat_map (handPcs p 1) (seqN 0 7)) ++ flat_map (fun hp => repeat 0 (boxCount p hp)) (seqN 0 7).
Proof.
  unfold syms. rewrite !map_app, !map_flat_map. f_equal; [f_equal|]; apply flat_map_in; intros hp _; unfold handSyms, boxSyms, handPcs; now rewrite map_repeat'.
Qed.
Lemma slotLen_le hp : hp < 7 -> 1 <= slotLen hp <= 7.
Proof. clear OK. intros H. hpcases H; vm_compute; split; discriminate. Qed.
Lemma syms_ok p x : In x (syms p) -> simCode (handHash T) (fst x) (0, 0) = Some (snd x) /\ (1 <= length (fst x) <= 9)%nat.
Proof.
  assert (L7 : forall hp, In hp (seqN 0 7) -> hp < 7) by (intros hp H; apply in_seqN in H; change (0 + N.of_nat 7) with 7 in H; lia).
  unfold syms. rewrite !in_app_iff, !in_flat_map. intros [[(hp & Hi & Hx)|(hp & Hi & Hx)]|(hp & Hi & Hx)]; apply L7 in Hi; apply repeat_spec in Hx; subst x; cbn [fst snd]; pose proof (slotLen_le hp Hi).
  - destruct (hand_ok T OK hp 0 Hi ltac:(lia)) as (A & B & _). split; [exact B|lia].
  - destruct (hand_ok T OK hp 1 Hi ltac:(lia)) as (A & B & _). split; [exact B|lia].
  - destruct (hand_ok T OK hp 0 Hi ltac:(lia)) as (_ & _ & A & B). split; [exact B|lia].
Qed.
Lemma syms_len_le (l : list (list bool * N)) : (forall x, In x l -> (1 <= length (fst x))%nat) -> (length l <= length (flat_map fst l))%nat.
Proof. clear OK. induction l as [|a l IH]; intros H; [cbn; lia|]. cbn [length flat_map]. rewrite app_length. pose proof (H a (or_introl eq_refl)). specialize (IH (fun x Hx => H x (or_intror Hx))). lia. Qed.
Lemma boxes_none p l : forall q, fold_left addSym (flat_map (fun hp => repeat 0 (boxCount p hp)) l) q = q.
Proof. induction l as [|a l IH]; intros q; [reflexivity|]. cbn [flat_map]. rewrite fold_left_app, addSym_boxes. apply IH. Qed.
Lemma clear_turn t : pre (repeat 0 81) (setTurnField clearPos t).
Proof. destruct pre_clear. constructor; auto. Qed.
Lemma kingSquare_of p c : good p -> c < 2 -> kingSquare p c = kingOf (board p) c.
Proof. clear OK. intros G Hc. unfold kingSquare. rewrite (v_king p (g_views p G)). assert (c = 0 \/ c = 1) as [->| ->] by lia; reflexivity. Qed.
Lemma bit1 t : t < 2 -> codeBits t 1 = [N.testbit t 0] /\ N.b2n (N.testbit t 0) = t.
Proof. clear OK. intros H. assert (t = 0 \/ t = 1) as [->| ->] by lia; split; reflexivity. Qed.

Lemma packedBits_eq p : packedBits T p = codeBits (turn p) 1 ++ codeBits (kingSquare p 0) 7 ++ codeBits (kingSquare p 1) 7 ++ flat_map (sqBits T p) squares ++ flat_map fst (syms p).
Proof. rewrite syms_bits. reflexivity. Qed.
Lemma syms_fuel p : good p -> kingSquare p 0 < 81 -> kingSquare p 1 < 81 -> (length (syms p) <= 257)%nat.
Proof.
  intros G K0 K1. pose proof (syms_len_le (syms p) (fun x Hx => proj1 (proj2 (syms_ok p x Hx)))) as A. pose proof (packedBits_len T p OK G) as PL. rewrite packedBits_eq in PL. rewrite !app_length in PL.
  apply N.ltb_lt in K0, K1. rewrite K0, K1 in PL. revert A PL.
  generalize (length (flat_map fst (syms p))), (length (syms p)), (length (codeBits (turn p) 1)), (length (codeBits (kingSquare p 0) 7)), (length (codeBits (kingSquare p 1) 7)), (length (flat_map (sqBits T p) squares)).
  clear. intros. lia.
Qed.
Lemma start_stream d : okStream (mkStream d 0 0) /\ remaining (mkStream d 0 0) = allBits d.
Proof. clear OK. split; [split; cbn; lia|reflexivity]. Qed.
Lemma setPacked_steps z d t s1 k0 s2 k1 s3 q s4 q5 : getBit (mkStream d 0 0) = Some (t, s1) -> getBits s1 7 = Some (k0, s2) -> getBits s2 7 = Some (k1, s3) -> k0 < 81 -> k1 < 81 ->
  readSquares (boardHash T) squares (setPiece (setPiece (setTurnField clearPos t) (mkPiece 0 King) k0) (mkPiece 1 King) k1) s3 = Done (q, s4) ->
  readHands 257 (handHash T) q s4 = Done q5 -> setPacked T z d = Done (refreshState z (setGamePly (setKingsGolds q5) 1)).
Proof.
  intros E1 E2 E3 K0 K1 E4 E5. unfold setPacked. rewrite E1, E2, E3. unfold setPieceAt. apply N.ltb_lt in K0, K1. rewrite K0, K1. cbn [obind]. unfold Black, White. rewrite E4. cbn [obind fst snd]. rewrite E5. reflexivity.
Qed.
Lemma kings_placed t k0 k1 : let q2 := setPiece (setPiece (setTurnField clearPos t) (mkPiece 0 King) k0) (mkPiece 1 King) k1 in hands q2 = hands clearPos /\ turn q2 = t /\ st q2 = clearSt /\ prev q2 = [].
Proof. repeat split. Qed.
Lemma hand_small p : good p -> forall c, c < 2 -> forall hp, hp < 7 -> numOf (handOf p c) hp < 2 ^ handW hp.
Proof. clear OK.
  intros G c Hc hp Hh. pose proof (g_mat p G hp Hh) as M. pose proof (fullSet_lt hp Hh) as F. rewrite mat_eq in M. revert M F. generalize (boardCount (board p) hp), (fullSet hp), (2 ^ handW hp). clear - Hc. intros.
  assert (c = 0 \/ c = 1) as [->| ->] by lia; lia.
Qed.
Lemma packed_hands z p bd' q' : good p -> pre bd' q' -> (forall t, t < 81 -> at_ bd' t = pieceAt p t) -> hands q' = hands clearPos -> turn q' = turn p -> st q' = clearSt -> prev q' = [] ->
  let q := refreshState z (setGamePly (setKingsGolds (fold_left addSym (map snd (syms p)) q')) 1) in fresh z q /\ same_position (abs q) (abs p) /\ gamePly q = 1%Z.
Proof.
  intros G P3 At Hq Tq Sq Vq. pose proof (good_turn p G) as Ht. rewrite syms_pcs, !fold_left_app, boxes_none.

  destruct clearPos_hands as [C1 C2].
  pose proof (hand_small p G) as W.
  assert (L7 : forall hp, In hp (seqN 0 7) -> hp < 7) by (intros hp H7; apply in_seqN in H7; change (0 + N.of_nat 7) with 7 in H7; lia).
  destruct (plus_hand p 0 (seqN 0 7) ltac:(lia) (W 0 ltac:(lia)) bd' q' P3 (okHands_ext clearPos q' Hq C1) (NoDup_seqN _ _)) as (P4 & H4 & T4 & S4 & V4 & N4).
  { intros hp Hi. apply L7 in Hi. split; auto. unfold handOf. rewrite Hq. apply C2; lia. }
  cbv zeta in *. set (q4 := fold_left addSym (flat_map (handPcs p 0) (seqN 0 7)) q') in *. clearbody q4.
  destruct (plus_hand p 1 (seqN 0 7) ltac:(lia) (W 1 ltac:(lia)) bd' q4 P4 H4 (NoDup_seqN _ _)) as (P5 & H5 & T5 & S5 & V5 & N5).
  { intros hp Hi. apply L7 in Hi. split; auto. rewrite N4 by lia. change (0 =? 1) with false. cbn [andb]. unfold handOf. rewrite Hq. apply C2; lia. }
  cbv zeta in *. set (q5 := fold_left addSym (flat_map (handPcs p 1) (seqN 0 7)) q4) in *. clearbody q5.
  assert (Sm : same_position (abs q5) (abs p)).
  { apply same_intro.
    - intros s Hs. unfold pieceAt. rewrite (pre_bd _ _ P5). fold (at_ bd' s). now apply At.
    - intros c hp Hc Hh. rewrite N5, N4 by auto. rewrite !existsb_seq7, !andb_true_r by auto. assert (c = 0 \/ c = 1) as [->| ->] by lia; reflexivity.
    - rewrite T5, T4, Tq. reflexivity. }
  assert (T5' : turn q5 < 2) by (rewrite T5, T4, Tq; exact Ht).
  destruct (setup_good z bd' q5 1 P5 T5' H5 (proper_same _ _ (same_sym _ _ Sm) (good_proper p G))) as (Gq & Cq & Ea & R1' & R2' & R3' & R4' & R5'). cbv zeta in *.
  split; [|split; [rewrite Ea; exact Sm|exact R1']]. constructor; auto.
  - rewrite R2', V5, V4, Vq. reflexivity.
  - rewrite R4', S5, S4, Sq. reflexivity.
  - rewrite R5', S5, S4, Sq. reflexivity.
Qed.
Theorem packed_decodes z p d : good p -> kingSquare p 0 < 81 -> kingSquare p 1 < 81 -> allBits d = packedBits T p ->
  exists q, setPacked T z d = Done q /\ fresh z q /\ same_position (abs q) (abs p) /\ gamePly q = 1%Z.
Proof.
  intros G K0 K1 AB. pose proof (g_views p G) as V. pose proof (v_board p V) as Ok. pose proof (good_turn p G) as Ht.
  destruct (start_stream d) as [O0 R0]. rewrite AB in R0. set (s0 := mkStream d 0 0) in *.
  rewrite packedBits_eq in R0. destruct (bit1 (turn p) Ht) as [B1 B2]. rewrite B1 in R0. cbn [app] in R0. destruct (getBit_more s0 _ _ O0 R0) as (s1 & E1 & R1 & O1 & _). rewrite B2 in E1.
  destruct (getBits_code s1 (kingSquare p 0) 7 _ O1 ltac:(change (2 ^ N.of_nat 7) with 128; lia) R1) as (s2 & E2 & R2 & O2 & _).
  destruct (getBits_code s2 (kingSquare p 1) 7 _ O2 ltac:(change (2 ^ N.of_nat 7) with 128; lia) R2) as (s3 & E3 & R3 & O3 & _).
  pose proof (clear_turn (turn p)) as P0.
  assert (KA : forall c, c < 2 -> kingSquare p c < 81 -> pieceAt p (kingSquare p c) = mkPiece c King /\ forall s, s < 81 -> pieceAt p s = mkPiece c King -> s = kingSquare p c).
  { intros c Hc HK. rewrite kingSquare_of in * by auto. destruct (kingOf_cases (board p) c) as [[A B]|[A _]]; [|lia]. split; [now apply N.eqb_eq in B|].
    intros s Hs E. apply (g_one p G c); auto. unfold isKing. now apply N.eqb_eq. }
  destruct (KA 0 ltac:(lia) K0) as [A0 U0]. destruct (KA 1 ltac:(lia) K1) as [A1 U1].
  assert (P1 : pre (updN (repeat 0 81) (kingSquare p 0) (mkPiece 0 King)) (setPiece (setTurnField clearPos (turn p)) (mkPiece 0 King) (kingSquare p 0))).
  { apply pre_setPiece; auto; try lia; [unfold King; lia|apply at_repeat0]. }
  assert (D01 : kingSquare p 0 <> kingSquare p 1) by (intros E; rewrite E, A1 in A0; discriminate).
  assert (P2 : pre (updN (updN (repeat 0 81) (kingSquare p 0) (mkPiece 0 King)) (kingSquare p 1) (mkPiece 1 King))
    (setPiece (setPiece (setTurnField clearPos (turn p)) (mkPiece 0 King) (kingSquare p 0)) (mkPiece 1 King) (kingSquare p 1))).
  { apply pre_setPiece; auto; try lia; [unfold King; lia|]. rewrite at_updN by (rewrite repeat_length; lia). destruct (N.eqb_spec (kingSquare p 0) (kingSquare p 1)); [contradiction|apply at_repeat0]. }
  pose proof (fun q s4 q5 => setPacked_steps z d _ _ _ _ _ _ q s4 q5 E1 E2 E3 K0 K1) as Steps.
  destruct (kings_placed (turn p) (kingSquare p 0) (kingSquare p 1)) as (X1 & X2 & X3 & X4).
  set (q2 := setPiece (setPiece (setTurnField clearPos (turn p)) (mkPiece 0 King) (kingSquare p 0)) (mkPiece 1 King) (kingSquare p 1)) in *. clearbody q2.
  assert (Hs2 : forall t, In t squares -> t < 81 /\ at_ (updN (updN (repeat 0 81) (kingSquare p 0) (mkPiece 0 King)) (kingSquare p 1) (mkPiece 1 King)) t = if ptOf (pieceAt p t) =? King then pieceAt p t else 0).
  { intros t Hi. apply in_squares in Hi. split; [exact Hi|]. rewrite at_updN by (rewrite length_updN, repeat_length; lia). rewrite at_updN by (rewrite repeat_length; lia). rewrite at_repeat0.
    pose proof (okB_at p t Ok Hi) as Vt. destruct (N.eqb_spec (kingSquare p 1) t) as [<-|N1]; [rewrite A1; reflexivity|]. destruct (N.eqb_spec (kingSquare p 0) t) as [<-|N0]; [rewrite A0; reflexivity|].
    destruct (N.eqb_spec (ptOf (pieceAt p t)) King) as [E|]; [|reflexivity]. exfalso. destruct (vpc_cases _ Vt) as [Z|(c & pt & Hc & Hp & Z)]; [rewrite Z in E; discriminate|].
    rewrite Z, pt_mk in E by auto. subst pt. assert (c = 0 \/ c = 1) as [->| ->] by lia; [apply N0; symmetry; now apply U0|apply N1; symmetry; now apply U1]. }
  destruct (readSquares_spec p squares (fun s Hs => okB_at p s Ok Hs) _ q2 s3 _ P2 NoDup_squares Hs2 O3 R3) as (bd' & q' & s' & Er & R4 & O4 & _ & P3 & Y1 & Y2 & Y3 & Y4 & At).
  specialize (Steps _ _ _ Er (readHands_syms (syms p) (fun x Hx => conj (proj1 (syms_ok p x Hx)) (proj2 (proj2 (syms_ok p x Hx)))) 257 q' s' O4 R4 (syms_fuel p G K0 K1))).
  eexists. split; [exact Steps|]. apply (packed_hands z p bd'); auto; try congruence. intros t Ht'. rewrite At by auto. now rewrite existsb_squares.
Qed.
Theorem packed_write p : good p -> kingSquare p 0 < 81 -> kingSquare p 1 < 81 ->
  exists s, toPacked T p = Some s /\ length (sdata s) = 32%nat /\ Forall (fun x => x < 256) (sdata s) /\ spos s = 32 /\ scurr s = 0 /\ allBits (sdata s) = packedBits T p.
Proof.
  intros G K0 K1. pose proof (packedBits_len T p OK G) as PL. destruct (N.ltb_spec (kingSquare p 0) 81); [|lia]. destruct (N.ltb_spec (kingSquare p 1) 81); [|lia].
  rewrite toPacked_list. pose proof (putList_spec (packedBits T p) 32 [] _ (written_start 32)) as W. rewrite PL in W. cbn [length Nat.add Nat.mul] in W.
  destruct (Nat.leb_spec 256 256) as [_|]; [|lia]. destruct W as (s & E & W). exists s. destruct W as [A B [C1 C2] D F]. cbn [app] in *.
  rewrite PL in *. split; [exact E|]. split; [exact A|]. split; [exact D|]. unfold at_bit in B. split; [lia|]. split; [lia|].
  replace (8 * 32 - (256 + 0 + 0))%nat with 0%nat in F by lia. cbn [repeat] in F. now rewrite app_nil_r in F.
Qed.
(* without a king, the writer runs out of the buffer *)
Theorem packed_overflow p : good p -> kingSquare p 0 = 81 \/ kingSquare p 1 = 81 -> toPacked T p = None.
Proof.
  intros G K. pose proof (packedBits_len T p OK G) as PL. rewrite toPacked_list. pose proof (putList_spec (packedBits T p) 32 [] _ (written_start 32)) as W.
  destruct (Nat.leb_spec (length (@nil bool) + length (packedBits T p)) (8 * 32)) as [X|X]; [|exact W]. exfalso. cbn [length Nat.add] in X. rewrite PL in X. destruct K as [K|K]; rewrite K in X; change (81 <? 81) with false in X; cbn [Nat.add] in X; lia.
Qed.
End read.
