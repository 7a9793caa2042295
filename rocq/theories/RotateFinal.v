(* rotate_sfen: the position it denotes, and what it does to counts of ten and more. *)
From Verif Require Import SfenInput Turn.
From Verif Require Export RotateProofs CommandExamples.
From Coq Require Import Permutation FinFun.
Local Open Scope N_scope.

Lemma filter_permutation {A} (f : A -> bool) l l' : Permutation l l' -> Permutation (filter f l) (filter f l').
Proof.
  induction 1 as [|x l l' H IH|x y l|l l1 l2 H1 IH1 H2 IH2]; [constructor| | |now apply perm_trans with (filter f l1)].
  - cbn [filter]. destruct (f x); [now constructor|exact IH].
  - cbn [filter]. destruct (f x), (f y); try apply Permutation_refl. apply perm_swap.
Qed.
Lemma turned_squares : Permutation (map turn_square all_squares) all_squares.
Proof.
  apply NoDup_Permutation.
  - apply Injective_map_NoDup; [|apply all_squares_NoDup]. intros s t E. now apply turn_inj.
  - apply all_squares_NoDup.
  - intros s. rewrite in_map_iff. split.
    + intros (t & <- & H). apply all_squares_iff, turn_on, all_squares_iff, H.
    + intros H. exists (turn_square s). split; [apply turn_turn|]. apply all_squares_iff, turn_on, all_squares_iff, H.
Qed.
Lemma filter_map' {A B} (f : A -> B) (g : B -> bool) l : filter g (map f l) = map f (filter (fun x => g (f x)) l).
Proof. induction l as [|x l IH]; [reflexivity|]. cbn [map filter]. rewrite IH. now destruct (g (f x)). Qed.
Lemma count_turned P k : on_board_count (turn_position P) k = on_board_count P k.
Proof.
  unfold on_board_count. f_equal. rewrite (Permutation_length (filter_permutation _ _ _ (Permutation_sym turned_squares))), filter_map', map_length. apply (f_equal (@List.length square)).
  apply filter_ext. intros s. rewrite turn_at, turn_turn. destruct (at_square P s) as [[c k']|]; reflexivity.
Qed.
Lemma proper_turned P : proper P -> proper (turn_position P).
Proof.
  intros [A B C D E F]. constructor.
  - intros s H. rewrite turn_at in H. rewrite <- (turn_turn s). apply turn_on, A. intros X. rewrite X in H. now apply H.
  - intros c s t. rewrite !turn_at, !turn_piece_some. intros X Y. apply turn_inj. eapply B; eauto.
  - intros c k. apply C.
  - intros c k. apply D.
  - intros k Hk. specialize (E k Hk). unfold total in *. rewrite count_turned. cbn [turn_position in_hand other]. lia.
  - cbn [turn_position side]. intros X. apply F. now apply turn_in_check'.
Qed.
Lemma denotes_same s P Q n : same_position P Q -> sfen_denotes s P n -> sfen_denotes s Q n.
Proof.
  intros (A & B & C) (b & h & m & Hb & Hh & Hm & ->). exists b, h, m.
  assert (Er : forall r, row_of P r = row_of Q r) by (intros r; unfold row_of; apply map_ext; intros f; apply A).
  split; [|split; [|split; [exact Hm|unfold side_text; now rewrite C]]].
  - unfold board_text in *. revert Hb. generalize [1; 2; 3; 4; 5; 6; 7; 8; 9]%Z. intros rs. induction 1 as [r t H|r r' rs t u H _ IH]; [apply rows_last|apply rows_more; [|exact IH]]; now rewrite <- Er.
  - destruct Hh as [[E H]|(l & N & I & D & X)]; [left; split; [exact E|]; intros c k; now rewrite <- B|]. right. exists l. split; [exact N|]. split; [exact I|]. split; [exact D|]. intros c k Hk n0. rewrite <- B. now apply X.
Qed.
Theorem rotate_twice s P n : sfen_denotes s P n -> (forall c k, (in_hand P c k <= 9)%Z) -> sfen_denotes (rotateSfen (rotateSfen s)) P n.
Proof.
  intros D M. eapply denotes_same; [apply turn_position_turn|]. apply rotate_text; [now apply rotate_text|]. intros c k. apply M.
Qed.
Theorem rotate_set z s P n : okZob z -> sfen_denotes s P n -> proper P -> (n <= intMax)%Z -> (forall c k, (in_hand P c k <= 9)%Z) ->
  exists b, setSfen z (rotateSfen s) = Done b /\ same_position (abs (bpos b)) (turn_position P) /\ gamePly (bpos b) = n /\ set_up z b.
Proof.
  intros Z D Pr Hn M. destruct (sfen_denoted z _ _ n Z (rotate_text s P n D M) (proper_turned P Pr) Hn) as (b & E & S & G & U & _). exists b. auto.
Qed.
Theorem rotate_board z b : okZob z -> reachable z b -> (0 <= gamePly (bpos b) <= intMax)%Z -> (forall c k, (in_hand (abs (bpos b)) c k <= 9)%Z) ->
  exists b1 b2, setSfen z (rotateSfen (toSfen b)) = Done b1 /\ same_position (abs (bpos b1)) (turn_position (abs (bpos b))) /\
    setSfen z (rotateSfen (rotateSfen (toSfen b))) = Done b2 /\ same_position (abs (bpos b2)) (abs (bpos b)) /\ getKey (bpos b2) = getKey (bpos b).
Proof.
  intros Z R [H H'] M. destruct (reachable_ok z b Z R) as [G C]. pose proof (sfen_written z b Z R H) as D. pose proof (good_proper _ G) as Pr.
  destruct (rotate_set z _ _ _ Z D Pr H' M) as (b1 & E1 & S1 & _). destruct (sfen_denoted z _ _ _ Z (rotate_twice _ _ _ D M) Pr H') as (b2 & E2 & S2 & _ & U2 & _).
  exists b1, b2. split; [exact E1|]. split; [exact S1|]. split; [exact E2|]. split; [exact S2|]. destruct (set_up_ok z b2 U2) as (G2 & C2 & _). apply (same_key z); auto.
Qed.
(* ten pawns in hand come out as one *)
Definition tenBoard : Board := boardOf 0 (sparse [(44, 8); (36, 24)]) [[10; 0; 0; 0; 0; 0; 0]; [0; 0; 0; 0; 0; 0; 0]].
Lemma ten_reachable : reachable z0 tenBoard. Proof. apply set_up_reachable. apply boardOf_set_up. vm_compute. reflexivity. Qed.
Lemma ten_texts : toSfen tenBoard = "4k4/9/9/9/9/9/9/9/4K4 b 10P 0"%string /\ rotateSfen (toSfen tenBoard) = "4k4/9/9/9/9/9/9/9/4K4 w p 0"%string. Proof. split; vm_compute; reflexivity. Qed.
Lemma ten_hand : in_hand (turn_position (abs (bpos tenBoard))) Gote FU = 10%Z. Proof. vm_compute. reflexivity. Qed.
Lemma one_hand : match setSfen z0 "4k4/9/9/9/9/9/9/9/4K4 w p 0" with Done b => in_hand (abs (bpos b)) Gote FU =? 1 | _ => false end%Z = true. Proof. vm_compute. reflexivity. Qed.
Theorem ten_refuted : exists b b1, reachable z0 b /\ (0 <= gamePly (bpos b) <= intMax)%Z /\ setSfen z0 (rotateSfen (toSfen b)) = Done b1 /\ ~ same_position (abs (bpos b1)) (turn_position (abs (bpos b))).
Proof.
  exists tenBoard. pose proof one_hand as H. rewrite (proj2 ten_texts). destruct (setSfen z0 "4k4/9/9/9/9/9/9/9/4K4 w p 0") as [b1| |]; try discriminate. exists b1.
  split; [exact ten_reachable|]. split; [split; vm_compute; discriminate|]. split; [reflexivity|]. intros (_ & S & _). specialize (S Gote FU). rewrite ten_hand in S. apply Z.eqb_eq in H. rewrite H in S. discriminate.
Qed.
(* the initial position, and one with pieces in hand *)
Lemma few_start : forall c k, (in_hand (abs (bpos (startBoard z0))) c k <= 9)%Z. Proof. intros c k. pose proof (proj1 (proj2 (start_same z0)) c k) as H. rewrite H. destruct c, k; vm_compute; discriminate. Qed.
Definition someHands : Board := boardOf 0 (sparse [(44, 8); (36, 24); (22, 14); (18, 9)]) [[9; 0; 1; 0; 0; 1; 0]; [0; 0; 2; 3; 0; 0; 0]].
Lemma some_reachable : reachable z0 someHands. Proof. apply set_up_reachable. apply boardOf_set_up. vm_compute. reflexivity. Qed.
Lemma some_few : forall c k, (in_hand (abs (bpos someHands)) c k <= 9)%Z. Proof. intros c k. destruct c, k; vm_compute; discriminate. Qed.
Lemma some_ply : (0 <= gamePly (bpos someHands) <= intMax)%Z. Proof. split; vm_compute; discriminate. Qed.
Lemma some_texts : toSfen someHands = "4k1+P2/9/9/9/6+R2/9/9/9/4K4 b BN9P3s2n 0"%string /\ rotateSfen (toSfen someHands) = "4k4/9/9/9/2+r6/9/9/9/2+p1K4 w 3S2Nbn9p 0"%string. Proof. split; vm_compute; reflexivity. Qed.
Lemma some_denotes : sfen_denotes "4k1+P2/9/9/9/6+R2/9/9/9/4K4 b BN9P3s2n 0" (abs (bpos someHands)) 0 /\ proper (abs (bpos someHands)).
Proof. rewrite <- (proj1 some_texts). split; [exact (sfen_written z0 someHands okZob0 some_reachable (proj1 some_ply))|]. apply good_proper. exact (proj1 (reachable_ok z0 _ okZob0 some_reachable)). Qed.
Lemma some_rotated : rotateSfen "4k1+P2/9/9/9/6+R2/9/9/9/4K4 b BN9P3s2n 0" = "4k4/9/9/9/2+r6/9/9/9/2+p1K4 w 3S2Nbn9p 0"%string. Proof. vm_compute. reflexivity. Qed.
