(* The bytes are those of the published formats. *)
From Verif Require Export PackFinal PackSpec.
Local Open Scope N_scope.

Lemma find_hd {A} (f : A -> bool) (d : A) l : hd d (filter f l) = match find f l with Some x => x | None => d end.
Proof. induction l as [|a l IH]; [reflexivity|]. cbn [filter find]. destruct (f a); [reflexivity|exact IH]. Qed.
Lemma find_map {A B} (f : B -> bool) (g : A -> B) l : find f (map g l) = option_map g (find (fun x => f (g x)) l).
Proof. induction l as [|a l IH]; [reflexivity|]. cbn [map find]. destruct (f (g a)); [reflexivity|exact IH]. Qed.
Lemma find_ext {A} (f g : A -> bool) l : (forall x, In x l -> f x = g x) -> find f l = find g l.
Proof. induction l as [|a l IH]; intros H; [reflexivity|]. cbn [find]. rewrite (H a) by now left. destruct (g a); [reflexivity|]. apply IH. intros; apply H; now right. Qed.
Lemma flat_map_map' {A B C} (f : B -> list C) (g : A -> B) l : flat_map f (map g l) = flat_map (fun x => f (g x)) l.
Proof. induction l as [|a l IH]; [reflexivity|]. cbn [map flat_map]. now rewrite IH. Qed.
Lemma number_N s : s < 81 -> number (squareN s) = Z.of_N s.
Proof.
  intros H. assert (F : forallb (fun s => Z.eqb (number (squareN s)) (Z.of_N s)) squares = true) by (vm_compute; reflexivity).
  rewrite forallb_forall in F. apply Z.eqb_eq, F. now apply in_squares.
Qed.
Lemma is_king_iff p c s : okBoard (board p) -> s < 81 -> is_king (at_square (abs p) (squareN s)) c = isKing (board p) (ncolor c) s.
Proof.
  intros Ok Hs. apply eq_true_iff_eq. rewrite <- king_iff by (auto using ncolor_lt). rewrite color_inv'. unfold is_king. destruct (at_square (abs p) (squareN s)) as [[c' k]|]; [|split; discriminate].
  destruct k; try (split; [discriminate|intros E; inversion E]). rewrite color_eqb_eq. split; [intros ->; reflexivity|intros E; now inversion E].
Qed.
Lemma king_number_N p c : okBoard (board p) -> king_number (abs p) c = Z.of_N (kingOf (board p) (ncolor c)).
Proof.
  intros Ok. unfold king_number, kingOf. rewrite all_squares_N, find_map, find_hd.
  rewrite (find_ext _ (isKing (board p) (ncolor c)) squares) by (intros s Hs; apply in_squares in Hs; now apply is_king_iff).
  destruct (find (isKing (board p) (ncolor c)) squares) as [s|] eqn:E; [|reflexivity]. cbn [option_map]. apply find_some in E as [E _]. apply in_squares in E. now apply number_N.
Qed.
Lemma seven_N n : seven (Z.of_N n) = codeBits n 7.
Proof. unfold seven, codeBits. cbn [map seqN]. rewrite !Z.testbit_of_N' by lia. reflexivity. Qed.
Lemma gote_N n : n < 2 -> gote (colorN n) = codeBits n 1.
Proof. intros H. assert (n = 0 \/ n = 1) as [->| ->] by lia; reflexivity. Qed.
Lemma copies_N n l : copies (Z.of_N n) l = times (N.to_nat n) l.
Proof. unfold copies, times. do 2 f_equal. lia. Qed.
Definition sameBits (a b : list bool) : bool := if list_eq_dec Bool.bool_dec a b then true else false.
Lemma sameBits_eq a b : sameBits a b = true -> a = b.
Proof. unfold sameBits. destruct (list_eq_dec _ a b); auto; discriminate. Qed.
(* the tables say what the words say *)
Definition wordsOK (T : Tables) (sq : option (color * kind) -> list bool) (hand : color -> kind -> list bool) (box : kind -> list bool) : bool :=
  forallb (fun pc => negb (vpc pc) || sameBits (sq (pieceN pc)) (if ptOf pc =? King then [] else cb (boardCode T pc))) (seqN 0 31) &&
  forallb (fun hp => sameBits (box (slotKind hp)) (cb (boxCode T hp)) && sameBits (hand Sente (slotKind hp)) (cb (handCode T hp 0)) && sameBits (hand Gote (slotKind hp)) (cb (handCode T hp 1))) (seqN 0 7).
Lemma hcp_words : wordsOK hcpTables hcp_square hcp_hand hcp_box = true. Proof. vm_compute. reflexivity. Qed.
Lemma psfen_words : wordsOK psfenTables psfen_square psfen_hand psfen_box = true. Proof. vm_compute. reflexivity. Qed.
Lemma hand_kinds_N : hand_kinds = map slotKind (seqN 0 7). Proof. reflexivity. Qed.
Lemma layout_N T sq hand box p : wordsOK T sq hand box = true -> good p -> packedBits T p = layout sq hand box (abs p).
Proof.
  intros W G. pose proof (g_views p G) as V. pose proof (v_board p V) as Ok. apply andb_prop in W as [W1 W2]. rewrite forallb_forall in W1, W2.
  assert (W7 : forall hp, hp < 7 -> box (slotKind hp) = cb (boxCode T hp) /\ hand Sente (slotKind hp) = cb (handCode T hp 0) /\ hand Gote (slotKind hp) = cb (handCode T hp 1)).
  { intros hp H. assert (I : In hp (seqN 0 7)) by (apply in_seqN; change (N.of_nat 7) with 7; lia). specialize (W2 hp I). apply andb_prop in W2 as [W2 C]. apply andb_prop in W2 as [A B]. repeat split; now apply sameBits_eq. }
  unfold layout, packedBits. rewrite !king_number_N by auto. rewrite !kingSquare_view by (auto; lia). rewrite !seven_N. change (ncolor Sente) with 0. change (ncolor Gote) with 1.
  rewrite <- gote_N by apply V. change (side (abs p)) with (colorN (turn p)). do 3 f_equal.
  assert (E7 : forall hp, In hp (seqN 0 7) -> hp < 7) by (intros hp H; apply in_seqN in H; cbn in H; lia).
  f_equal; [|f_equal].
  - rewrite all_squares_N, flat_map_map'. apply flat_map_in. intros s Hs. apply in_squares in Hs. rewrite abs_at by auto. unfold sqBits. change (pieceAt p s) with (at_ (board p) s).
    pose proof (proj2 Ok s Hs) as Vp. specialize (W1 (at_ (board p) s)). rewrite in_seqN in W1. rewrite Vp in W1. cbn [negb orb] in W1. symmetry. apply sameBits_eq, W1. unfold vpc in Vp. change (N.of_nat 31) with 31. lia.
  - cbn [flat_map]. rewrite app_nil_r. f_equal; rewrite hand_kinds_N, flat_map_map'; apply flat_map_in; intros hp H; apply E7 in H; destruct (W7 hp H) as (_ & A & B); cbn [abs in_hand];
      rewrite (kindN_slot hp H), copies_N; [now rewrite A|now rewrite B].
  - rewrite hand_kinds_N, flat_map_map'. apply flat_map_in. intros hp H. apply E7 in H. destruct (W7 hp H) as (-> & _ & _). unfold boxBits, boxCount. destruct (slotKind_ok hp H) as (E & _ & F).
    rewrite (total_abs p _ hp Ok E), F. pose proof (g_mat p G hp H) as M. replace (Z.of_N (fullSet hp) - Z.of_N (material p hp))%Z with (Z.of_N (fullSet hp - material p hp)) by lia. now rewrite copies_N.
Qed.
Lemma bits_allBits d : bits_of_bytes d = allBits d. Proof. reflexivity. Qed.
Lemma fmt_bytes T sq hand box z b : tablesOK T = true -> wordsOK T sq hand box = true -> okZob z -> reachable z b -> both_kings (abs (bpos b)) ->
  exists s, toPacked T (bpos b) = Some s /\ buffer32 (sdata s) /\ bits_of_bytes (sdata s) = layout sq hand box (abs (bpos b)).
Proof.
  intros OK W Z R B. destruct (reachable_ok z b Z R) as [G C]. apply kings_here in B as [K0 K1]; auto. destruct (packed_write T OK (bpos b) G K0 K1) as (s & E & L & F & P & X & A).
  exists s. split; [exact E|]. split; [split; auto|]. rewrite bits_allBits, A. now apply layout_N.
Qed.
Lemma fmt_read T sq hand box z b d : tablesOK T = true -> wordsOK T sq hand box = true -> okZob z -> reachable z b -> both_kings (abs (bpos b)) ->
  bits_of_bytes d = layout sq hand box (abs (bpos b)) ->
  exists p, setPacked T z d = Done p /\ same_position (abs p) (abs (bpos b)) /\ gamePly p = 1%Z /\ set_up z (mkBoard p []).
Proof.
  intros OK W Z R B D. destruct (reachable_ok z b Z R) as [G C]. apply kings_here in B as [K0 K1]; auto.
  destruct (packed_decodes T OK z (bpos b) d G K0 K1) as (q & E & F & S & N); [now rewrite <- bits_allBits, D, (layout_N T sq hand box)|].
  exists q. split; [exact E|]. split; [exact S|]. split; [exact N|]. now apply fresh_set_up.
Qed.
Lemma hcp_bytes z b : okZob z -> reachable z b -> both_kings (abs (bpos b)) -> exists s, toHcp b = Some s /\ buffer32 (sdata s) /\ bits_of_bytes (sdata s) = hcp_bits (abs (bpos b)).
Proof. exact (fmt_bytes hcpTables _ _ _ z b hcp_ok hcp_words). Qed.
Lemma psfen_bytes z b : okZob z -> reachable z b -> both_kings (abs (bpos b)) -> exists s, toPsfen b = Some s /\ buffer32 (sdata s) /\ bits_of_bytes (sdata s) = psfen_bits (abs (bpos b)).
Proof. exact (fmt_bytes psfenTables _ _ _ z b psfen_ok psfen_words). Qed.
Lemma hcp_read z b d : okZob z -> reachable z b -> both_kings (abs (bpos b)) -> bits_of_bytes d = hcp_bits (abs (bpos b)) ->
  exists p, setHcp z d = Done (mkBoard p []) /\ same_position (abs p) (abs (bpos b)) /\ gamePly p = 1%Z /\ set_up z (mkBoard p []).
Proof. intros Z R B D. destruct (fmt_read hcpTables _ _ _ z b d hcp_ok hcp_words Z R B D) as (p & E & X). exists p. split; [unfold setHcp; now rewrite E|exact X]. Qed.
Lemma psfen_read z b d : okZob z -> reachable z b -> both_kings (abs (bpos b)) -> bits_of_bytes d = psfen_bits (abs (bpos b)) ->
  exists p, setPsfen z d = Done (mkBoard p []) /\ same_position (abs p) (abs (bpos b)) /\ gamePly p = 1%Z /\ set_up z (mkBoard p []).
Proof. intros Z R B D. destruct (fmt_read psfenTables _ _ _ z b d psfen_ok psfen_words Z R B D) as (p & E & X). exists p. split; [unfold setPsfen; now rewrite E|exact X]. Qed.
