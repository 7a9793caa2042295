(* Concrete SFEN texts. *)
From Verif Require Export SfenInput PackExamples.
Local Open Scope N_scope.

Lemma start_text : toSfen (startBoard z0) = "lnsgkgsnl/1r5b1/ppppppppp/9/9/9/PPPPPPPPP/1B5R1/LNSGKGSNL b - 0"%string. Proof. vm_compute. reflexivity. Qed.
Lemma start_ply : (0 <= gamePly (bpos (startBoard z0)) <= intMax)%Z. Proof. split; vm_compute; discriminate. Qed.
Lemma start_denotes : sfen_denotes "lnsgkgsnl/1r5b1/ppppppppp/9/9/9/PPPPPPPPP/1B5R1/LNSGKGSNL b - 0" (abs (bpos (startBoard z0))) 0.
Proof. rewrite <- start_text. exact (sfen_written z0 (startBoard z0) okZob0 (proj1 start_playable) (proj1 start_ply)). Qed.
Lemma start_proper : proper (abs (bpos (startBoard z0))). Proof. apply good_proper. exact (proj1 (reachable_ok z0 _ okZob0 (proj1 start_playable))). Qed.
Lemma open_text : toSfen openBoard = "8k/9/8G/9/9/9/9/9/K8 b P 0"%string. Proof. vm_compute. reflexivity. Qed.
(* a board can start at a negative move number *)
Definition negativeBoard : Board := boardSetPieces z0 (mkBoard (setGamePly (setTurnField clearPos 0) (-7)) []) openSet onePawn.
Lemma negative_case : reachable z0 negativeBoard /\ (- intMax - 1 <= gamePly (bpos negativeBoard) <= intMax)%Z /\ toSfen negativeBoard = "8k/9/8G/9/9/9/9/9/K8 b P -7"%string.
Proof.
  split; [|split; [split; vm_compute; discriminate|vm_compute; reflexivity]]. destruct (properB_ok _ _ _ (proj2 (andb_prop _ _ mate_proper))) as (A & B & D & E).
  apply set_up_reachable. exact (su_pieces z0 (mkBoard (setGamePly (setTurnField clearPos 0) (-7)) []) openSet onePawn D A B E).
Qed.
Lemma open_ply : (0 <= gamePly (bpos openBoard) <= intMax)%Z. Proof. split; vm_compute; discriminate. Qed.
(* an accepted text *)
Lemma start_accepted : exists s b, setSfen z0 s = Done b /\ (count_occ ascii_dec (list_ascii_of_string s) "/"%char <= 8)%nat /\ (forall x, on_board x -> piece_code (pieceAt (bpos b) (nsquare x))) /\
  proper (abs (bpos b)) /\ hands_fit (bpos b).
Proof.
  exists "lnsgkgsnl/1r5b1/ppppppppp/9/9/9/PPPPPPPPP/1B5R1/LNSGKGSNL b - 0"%string. destruct (sfen_denoted z0 _ _ _ okZob0 start_denotes start_proper ltac:(vm_compute; discriminate)) as (b & E & S & _ & U & A). exists b.
  destruct (set_up_ok z0 _ U) as [G _]. split; [exact E|]. split; [apply le_n|]. split; [exact (ag_code _ A)|]. split; [now apply good_proper|now apply good_hands_fit].
Qed.
(* texts outside the notation *)
Lemma plus_gold : setSfen z0 "+G8/9/9/9/9/9/9/9/9 b - 1" = Undefined. Proof. vm_compute. reflexivity. Qed.
Lemma plus_king : setSfen z0 "+k8/9/9/9/9/9/9/9/9 b - 1" = Undefined. Proof. vm_compute. reflexivity. Qed.
Lemma king_in_hand : setSfen z0 "4k4/9/9/9/9/9/9/9/4K4 b K 1" = Undefined. Proof. vm_compute. reflexivity. Qed.
Lemma long_count : setSfen z0 "4k4/9/9/9/9/9/9/9/4K4 b 2147483648P 1" = Undefined. Proof. vm_compute. reflexivity. Qed.
Definition twiceText : string := "8K999999999/////////k b - 1".
Lemma twice_view : view (setSfen z0 twiceText) = Some (0, 24, 0). Proof. vm_compute. reflexivity. Qed.
Lemma twice_disagrees : exists s b, setSfen z0 s = Done b /\ ~ agree (bpos b).
Proof.
  destruct (view_inv _ _ twice_view) as (b & E & V). exists twiceText, b. split; [exact E|]. intros A. injection V as V1 V2 _.
  pose proof (proj1 (ag_king _ A (1, 1)%Z Sente (ltac:(repeat split; discriminate))) V1) as K. cbn [abs at_square] in K. change (on_boardb (1, 1)%Z) with true in K. cbv iota in K. change (nsquare (1, 1)%Z) with 0 in K. rewrite V2 in K. discriminate.
Qed.
Definition pawnsText : string := "8K/9/9/9/9/9/9/9/4k4 b 19P 1".
Lemma pawns_view : view (setSfen z0 pawnsText) = Some (0, 8, 19). Proof. vm_compute. reflexivity. Qed.
Lemma pawns_improper : exists s b, setSfen z0 s = Done b /\ ~ proper (abs (bpos b)).
Proof.
  destruct (view_inv _ _ pawns_view) as (b & E & V). exists pawnsText, b. split; [exact E|]. intros P. injection V as _ _ V.
  pose proof (proper_hand _ Sente 0 P ltac:(lia)) as H. change (slotKind 0) with FU in H. cbn [abs in_hand] in H. change (handSlot FU) with (Some 0) in H. cbv iota in H. change (ncolor Sente) with 0 in H. rewrite V in H. change (fullSet 0) with 18 in H. lia.
Qed.
(* a text without promoted golds and kings, and with small counts *)
Lemma fields_ok : plus_ok (field 0 "+Pk7/9/9/9/9/9/9/9/4K4 b 18p2G 1") /\ hand_field_ok (field 2 "+Pk7/9/9/9/9/9/9/9/4K4 b 18p2G 1").
Proof.
  split.
  - intros f1 f2 E. assert (F : field 0 "+Pk7/9/9/9/9/9/9/9/4K4 b 18p2G 1" = "+"%char :: "P"%char :: la "k7/9/9/9/9/9/9/9/4K4") by reflexivity. rewrite F in E. clear F.
    destruct f1 as [|a f1]; [injection E as <-; do 2 eexists; split; [reflexivity|now left]|]. exfalso. cbn [app] in E. injection E as _ E.
    assert (X : forallb (fun c => negb (Ascii.eqb c "+")) (f1 ++ "+"%char :: f2) = true) by (rewrite <- E; reflexivity). rewrite forallb_app in X. apply andb_prop in X as [_ X]. discriminate.
  - split; [|split].
    + vm_compute. intuition discriminate.
    + vm_compute. intuition discriminate.
    + intros f1 ds f2 E _. apply (f_equal (@List.length ascii)) in E. rewrite !app_length in E. match type of E with ?x = _ => change x with 5%nat in E end. lia.
Qed.
Lemma int0 : (0 <= intMax)%Z. Proof. discriminate. Qed.
