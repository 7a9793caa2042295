(* A decision procedure for "proper" on positions given as arrays, used by the worked examples. *)
From Verif Require Export ClaimProofs.
Local Open Scope N_scope.

Definition encL (h : list N) : N := let n := nthN 0 h in enc (n 0) (n 1) (n 2) (n 3) (n 4) (n 5) (n 6).
Definition arrayPos (pieces : list N) (inHand : list (list N)) (c : N) : Position :=
  mkPos (byTypeOf pieces) (byColorOf pieces) (goldsOf (byTypeOf pieces)) pieces (kingsOf pieces)
        [encL (nthN [] inHand 0); encL (nthN [] inHand 1)] c 0%Z clearSt [].
Definition handOkB (h : N) : bool := h =? enc (numOf h 0) (numOf h 1) (numOf h 2) (numOf h 3) (numOf h 4) (numOf h 5) (numOf h 6).
Definition properB (pieces : list N) (inHand : list (list N)) (c : N) : bool :=
  let p := arrayPos pieces inHand c in
  Nat.eqb (length pieces) 81 && forallb (fun s => vpc (at_ pieces s)) squares &&
  Nat.leb (length (filter (isKing pieces 0) squares)) 1 && Nat.leb (length (filter (isKing pieces 1) squares)) 1 &&
  forallb (fun c => handOkB (handOf p c) && forallb (fun hp => numOf (handOf p c) hp =? nthN 0 (nthN [] inHand c) hp) (seqN 0 7)) [0; 1] &&
  forallb (fun hp => material p hp <=? fullSet hp) (seqN 0 7) && negb (inCheckB pieces (opp c)) && (c <? 2).
Lemma filter_one {A} (f : A -> bool) l : (length (filter f l) <= 1)%nat -> forall x y, In x l -> In y l -> f x = true -> f y = true -> x = y.
Proof.
  intros H x y Hx Hy Fx Fy. assert (X : In x (filter f l)) by now apply filter_In. assert (Y : In y (filter f l)) by now apply filter_In.
  destruct (filter f l) as [|a [|b l']]; [destruct X| |cbn in H; lia]. destruct X as [<-|[]], Y as [<-|[]]. reflexivity.
Qed.
Lemma properB_ok pieces inHand c : properB pieces inHand c = true -> length pieces = 81%nat /\ Forall piece_code pieces /\ c < 2 /\ proper (array_position pieces inHand c).
Proof.
  unfold properB. cbv zeta. rewrite !andb_true_iff, negb_true_iff, N.ltb_lt, Nat.eqb_eq, !Nat.leb_le, !forallb_forall. intros (((((((L & V) & K0) & K1) & H) & M) & S) & C).
  assert (Ok : okBoard pieces) by (split; auto; intros s Hs; apply V; now apply in_squares).
  assert (O : oneKing pieces).
  { intros d s s1 Hd Hs Hs1 A B. apply in_squares in Hs. apply in_squares in Hs1. assert (d = 0 \/ d = 1) as [->| ->] by lia; [exact (filter_one _ _ K0 s s1 Hs Hs1 A B)|exact (filter_one _ _ K1 s s1 Hs Hs1 A B)]. }
  set (p := arrayPos pieces inHand c) in *.
  assert (HB : forall d, d < 2 -> handOkB (handOf p d) = true /\ forall hp, hp < 7 -> numOf (handOf p d) hp = nthN 0 (nthN [] inHand d) hp).
  { intros d Hd. assert (I : In d [0; 1]) by (cbn; lia). specialize (H d I). apply andb_true_iff in H as [A B]. split; auto. rewrite forallb_forall in B. intros hp Hh. apply N.eqb_eq, B, in_seqN. cbn. lia. }
  assert (G : good p).
  { apply good_intro.
    - constructor; auto.
    - exact O.
    - split; [reflexivity|]. intros d Hd. destruct (HB d Hd) as [X _]. apply N.eqb_eq in X. exact X.
    - intros hp Hh. apply N.leb_le, M, in_seqN. cbn. lia.
    - exact S. }
  split; auto. split.
  - apply Forall_forall. intros x Hx. apply piece_code_vpc. apply (In_nth _ _ 0) in Hx as (n & Hn & <-). specialize (V (N.of_nat n)). unfold at_, nthN in V. rewrite Nat2N.id in V. apply V, in_squares. lia.
  - split; auto. eapply proper_same; [|apply (good_proper p G)]. apply abs_array; [reflexivity|]. intros d hp Hd Hh. now apply HB.
Qed.
(* the initial position, and an end-game position used in examples *)
Definition startPieces : list N := 
  [18;  0; 17; 0; 0; 0; 1; 0; 2;   19; 21; 17; 0; 0; 0; 1; 6; 3;   20; 0; 17; 0; 0; 0; 1; 0; 4;
   23;  0; 17; 0; 0; 0; 1; 0; 7;   24;  0; 17; 0; 0; 0; 1; 0; 8;   23; 0; 17; 0; 0; 0; 1; 0; 7;
   20;  0; 17; 0; 0; 0; 1; 0; 4;   19; 22; 17; 0; 0; 0; 1; 5; 3;   18; 0; 17; 0; 0; 0; 1; 0; 2].
Definition noHands : list (list N) := [[0; 0; 0; 0; 0; 0; 0]; [0; 0; 0; 0; 0; 0; 0]].
Definition emptyBoard : Board := mkBoard clearPos [].
Definition startBoard (z : Zob) : Board := boardSetPieces z emptyBoard startPieces noHands.
Lemma start_ok : properB startPieces noHands 0 = true. Proof. vm_compute. reflexivity. Qed.
Lemma start_set_up z : set_up z (startBoard z).
Proof. destruct (properB_ok _ _ _ start_ok) as (A & B & C & D). exact (su_pieces z emptyBoard startPieces noHands C A B D). Qed.
Lemma set_up_reachable z b : set_up z b -> reachable z b.
Proof. intros S. exists b, [], []. split; auto. split; [constructor|reflexivity]. Qed.
