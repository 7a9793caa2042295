(* KI2 move texts: a written move, and a written game, is read back. *)
From Verif Require Export Ki2Spec.
From Verif Require Import Ki2Text Ki2Proofs Rules Bridge PseudoListProofs GenClaims CommandFinal TextProofs.
From Coq Require Import Permutation.
Local Open Scope N_scope.

(* ---- the words leave the moves of the right piece ---- *)
Lemma keep_greatest (g : N -> N) all m A B : In m all -> mvFrom m = A -> (forall x, In x all -> mvFrom x = A \/ mvFrom x = B) -> g B < g A ->
  forall x, In x (filter (fun x => g (mvFrom x) =? greatestOf (fun x => g (mvFrom x)) all) all) <-> In x all /\ mvFrom x = A.
Proof.
  intros I E F L x. assert (G : greatestOf (fun x => g (mvFrom x)) all = g A).
  { rewrite <- E. apply (greatest_is (fun x => g (mvFrom x))); [exact I|]. intros y J. rewrite E. destruct (F y J) as [-> | ->]; lia. }
  rewrite filter_In, G, N.eqb_eq. split; intros [J K]; split; auto; [|now rewrite K]. destruct (F x J) as [H|H]; [exact H|]. rewrite H in K. lia.
Qed.
Lemma keep_least (g : N -> N) all m A B : In m all -> mvFrom m = A -> (forall x, In x all -> mvFrom x = A \/ mvFrom x = B) -> g A < g B -> g A <= 9 ->
  forall x, In x (filter (fun x => g (mvFrom x) =? leastOf (fun x => g (mvFrom x)) all) all) <-> In x all /\ mvFrom x = A.
Proof.
  intros I E F L L9 x. assert (G : leastOf (fun x => g (mvFrom x)) all = g A).
  { rewrite <- E. apply (least_is (fun x => g (mvFrom x))); [exact I|now rewrite E|]. intros y J. rewrite E. destruct (F y J) as [-> | ->]; lia. }
  rewrite filter_In, G, N.eqb_eq. split; intros [J K]; split; auto; [|now rewrite K]. destruct (F x J) as [H|H]; [exact H|]. rewrite H in K. lia.
Qed.
Lemma keep_line (g : N -> N) all t A B : (forall x, In x all -> mvTo x = t) -> (forall x, In x all -> mvFrom x = A \/ mvFrom x = B) -> g A = g t -> g B <> g t ->
  forall x, In x (filter (fun x => g (mvTo x) =? g (mvFrom x)) all) <-> In x all /\ mvFrom x = A.
Proof.
  intros T F EA EB x. rewrite filter_In, N.eqb_eq. split; intros [J K]; split; auto; rewrite (T x J) in *; [|now rewrite K]. destruct (F x J) as [H|H]; [exact H|]. rewrite H in K. congruence.
Qed.
Lemma read_told us all m t A B r w : A < 81 -> B < 81 -> t < 81 -> In m all -> mvFrom m = A -> (forall x, In x all -> mvTo x = t) -> (forall x, In x all -> mvFrom x = A \/ mvFrom x = B) ->
  told (relSeen us A t) (dirSeen us A t) (relSeen us B t) (dirSeen us B t) r w ->
  forall x, In x (byMotion us w all (byRel us r all all)) <-> In x all /\ mvFrom x = A.
Proof.
  intros HA HB Ht I E T F W. pose proof (rel_of us A t HA Ht) as RA. pose proof (rel_of us B t HB Ht) as RB. pose proof (dir_of us A t HA Ht) as DA. pose proof (dir_of us B t HB Ht) as DB.
  destruct (seen_parts A HA) as (_ & _ & A9 & A9'). clear HA HB Ht.
  pose proof (keep_greatest (fun i => i / 9) all m A B I E F) as KG. pose proof (keep_greatest (fun i => i mod 9) all m A B I E F) as KG'.
  pose proof (keep_least (fun i => i / 9) all m A B I E F) as KL. pose proof (keep_least (fun i => i mod 9) all m A B I E F) as KL'.
  pose proof (keep_line (fun i => i / 9) all t A B T F) as KS. pose proof (keep_line (fun i => i mod 9) all t A B T F) as KS'. cbv beta in *.
  unfold told in W. revert RA RB DA DB W. generalize (relSeen us A t) (dirSeen us A t) (relSeen us B t) (dirSeen us B t). intros s d s2 d2 RA RB DA DB W.
  unfold byMotion, byRel, fileFrom, rankFrom. destruct W as [(-> & N & ->)|(-> & -> & N & W)].
  - destruct d; unfold dirP in *; destruct (us =? Black);
      first [apply KG'; destruct d2; try congruence; lia | apply KL'; [destruct d2; try congruence; lia|lia] | apply KS'; [exact DA|destruct d2; try congruence; lia]].
  - destruct s; [subst r|subst r|destruct W as [->|[[-> ->]|[-> ->]]]]; unfold relP in *; destruct (us =? Black);
      first [apply KG; destruct s2; try congruence; lia | apply KL; [destruct s2; try congruence; lia|lia] | apply KS; [exact RA|destruct s2; try congruence; lia] | apply KG; lia | apply KL; lia].
Qed.
Lemma sub_rel us r all cs x : In x (byRel us r all cs) -> In x cs.
Proof. unfold byRel. destruct r; auto; intros H; now apply filter_In in H. Qed.
Lemma sub_motion us w all cs x : In x (byMotion us w all cs) -> In x cs.
Proof. unfold byMotion. destruct w; auto; intros H; now apply filter_In in H. Qed.
Lemma nodup_rel us r all cs : NoDup cs -> NoDup (byRel us r all cs).
Proof. intros N. unfold byRel. destruct r; auto; now apply NoDup_filter. Qed.
Lemma nodup_motion us w all cs : NoDup cs -> NoDup (byMotion us w all cs).
Proof. intros N. unfold byMotion. destruct w; auto; now apply NoDup_filter. Qed.
Lemma nodup_end e cs : NoDup cs -> NoDup (byEnd e cs).
Proof. intros N. unfold byEnd. destruct e as [|c [|c2 [|? ?]]]; auto; [destruct (c =? uDrop); [now apply NoDup_filter|destruct (c =? uPro); auto; now apply NoDup_filter]|now apply NoDup_filter]. Qed.
(* ---- the move left ---- *)
Definition settle (cs : list N) : outcome N :=
  match cs with [] => Thrown | [m] => Done m | _ => match filter (fun m => negb (mvDrop m)) cs with [m] => Done m | _ => Thrown end end.
Lemma settle_go cs m : NoDup cs -> In m cs -> mvDrop m = false -> (forall x, In x cs -> mvDrop x = false -> x = m) -> settle cs = Done m.
Proof.
  intros N I D F. assert (E : filter (fun m => negb (mvDrop m)) cs = [m]).
  { apply only_one; [now apply NoDup_filter|apply filter_In; now rewrite D|]. intros x H. apply filter_In in H as [J H]. apply F; [exact J|now apply negb_true_iff]. }
  unfold settle. destruct cs as [|a [|c cs]]; [destruct I|destruct I as [->|[]]; reflexivity|now rewrite E].
Qed.
Lemma settle_drop cs m : NoDup cs -> In m cs -> (forall x, In x cs -> x = m) -> settle cs = Done m.
Proof. intros N I F. now rewrite (only_one m cs N I F). Qed.
Lemma piece_index pt : In pt pts -> indexOf (nthN 0 pieceSymbols (pt - 1)) pieceSymbols = Some (pt - 1) /\ pt - 1 + 1 = pt.
Proof. intros P. cbn [pts In] in P. repeat (destruct P as [<-|P]; [vm_compute; auto|]). destruct P. Qed.
Lemma choose b f to pt r w e : foundTo b f = Done to -> fPiece f = nthN 0 pieceSymbols (pt - 1) -> fRel f = r -> fMotion f = w -> fEnd f = e -> In pt pts ->
  chooseMove b f = let all := filter (ofPiece to pt) (legalMoves (bpos b)) in settle (byEnd e (byMotion (turn (bpos b)) w all (byRel (turn (bpos b)) r all all))).
Proof.
  intros A B <- <- <- P. destruct (piece_index pt P) as [X Y]. unfold chooseMove. rewrite B, X, A. cbn [obind]. rewrite Y. reflexivity.
Qed.
Lemma two_list (l : list N) A B : NoDup l -> In A l -> A <> B -> (forall x, In x l -> x = A \/ x = B) -> l = [A] \/ l = [A; B] \/ l = [B; A].
Proof.
  intros N I D F. destruct (in_dec N.eq_dec B l) as [J|J].
  - right. assert (P : Permutation [A; B] l).
    { apply NoDup_Permutation; auto; [repeat constructor; cbn; intuition|]. intros x. cbn. split; [intros [<-|[<-|[]]]; auto|intros H; destruct (F x H) as [-> | ->]; auto]. }
    apply Permutation_length_2_inv in P. destruct P as [-> | ->]; auto.
  - left. apply only_one; auto. intros x H. destruct (F x H) as [->| ->]; [reflexivity|contradiction].
Qed.

(* ---- one move ---- *)
Section One.
Variables (z : Zob) (b : Board).
Hypotheses (Z : okZob z) (R : reachable z b) (K : playable (abs (bpos b))).
Let p := bpos b.
Let ps := pseudoLegalMoves p.
Let ls := legalMoves p.
Let G : good p := proj1 (reachable_ok z b Z R).
Lemma listed_pseudo x : In x ls -> In x ps.
Proof. intros I. destruct (moves_sound z b Z R K x I) as (mv & L & ->). exact (proj2 (proj2 (proj2 (pseudo_facts z b Z R K))) mv L). Qed.
Lemma go_entry x : In x ps -> mvDrop x = false -> exists s t pr k, x = code p (Go s t pr) /\ pseudo_legal (abs p) (Go s t pr) /\ on_board s /\ on_board t /\
  at_square (abs p) s = Some (side (abs p), k) /\ attacks (occupied (abs p)) (side (abs p)) k s t /\ mvTo x = nsquare t /\ mvFrom x = nsquare s /\ mvPromo x = pr /\ mvPtFrom x = nkind k.
Proof.
  intros I D. destruct (proj1 (proj2 (pseudo_facts z b Z R K)) x I) as (mv & PL & E). fold p in PL, E. destruct mv as [k t|s t pr].
  - pose proof PL as PL'. cbn [pseudo_legal] in PL'. destruct PL' as (T & _ & H & _). destruct (ki2_drop_fields p k t T (hand_kind p _ k H)) as (_ & _ & _ & X). rewrite <- E in X. congruence.
  - pose proof PL as PL'. cbn [pseudo_legal] in PL'. destruct PL' as (S & T & k & At & A & _). destruct (ki2_go_fields p s t pr k G S T At) as (E1 & E2 & E3 & E4 & _). rewrite <- E in *. exists s, t, pr, k. auto 12.
Qed.
Lemma drop_entry x : In x ps -> mvDrop x = true -> exists k t, x = code p (Drop k t) /\ on_board t /\ nkind k < 8 /\ k <> OU /\ mvTo x = nsquare t /\ mvFrom x = 80 + nkind k /\ mvPromo x = false.
Proof.
  intros I D. destruct (proj1 (proj2 (pseudo_facts z b Z R K)) x I) as (mv & PL & E). fold p in PL, E. destruct mv as [k t|s t pr].
  - cbn [pseudo_legal] in PL. destruct PL as (T & _ & H & _). pose proof (hand_kind p _ k H) as Hk. destruct (ki2_drop_fields p k t T Hk) as (E1 & E2 & E3 & _). rewrite <- E in *. exists k, t.
    split; auto. split; auto. split; auto. split; [|auto]. intros ->. cbn in Hk. discriminate Hk.
  - cbn [pseudo_legal] in PL. destruct PL as (S & T & k & At & A & _). destruct (ki2_go_fields p s t pr k G S T At) as (_ & _ & _ & _ & X). rewrite <- E in X. congruence.
Qed.
(* a move of a piece: same origin, destination and promotion *)
Lemma go_same x y : In x ps -> In y ps -> mvDrop x = false -> mvDrop y = false -> mvTo x = mvTo y -> mvFrom x = mvFrom y -> mvPromo x = mvPromo y -> x = y.
Proof.
  intros I J D D' ET EF EP. destruct (go_entry x I D) as (s & t & pr & k & -> & _ & S & T & _ & _ & E1 & E2 & E3 & _). destruct (go_entry y J D') as (s' & t' & pr' & k' & -> & _ & S' & T' & _ & _ & E1' & E2' & E3' & _).
  rewrite E1, E1' in ET. rewrite E2, E2' in EF. rewrite E3, E3' in EP. apply square_inj in ET; auto. apply square_inj in EF; auto. now subst.
Qed.
Lemma drop_same x y : In x ps -> In y ps -> mvDrop x = true -> mvDrop y = true -> mvTo x = mvTo y -> handToPt (moveDropHandPiece x) = handToPt (moveDropHandPiece y) -> x = y.
Proof.
  intros I J D D' ET EF. destruct (drop_entry x I D) as (k & t & -> & T & Hk & No & E1 & E2 & _). destruct (drop_entry y J D') as (k' & t' & -> & T' & Hk' & No' & E1' & E2' & _).
  rewrite E1, E1' in ET. apply square_inj in ET; auto. rewrite (proj1 (drop_hand _ k Hk No E2)), (proj1 (drop_hand _ k' Hk' No' E2')) in EF. apply nkind_inj' in EF. now subst.
Qed.
Lemma nodup_all to pt : NoDup (filter (ofPiece to pt) ls).
Proof. apply NoDup_filter. exact (proj1 (moves_complete z b Z R K)). Qed.

(* a drop *)
Lemma drop_read k t : legal (abs p) (Drop k t) -> let m := code p (Drop k t) in
  exists txt f, moveToKi2 b m = Done txt /\ matchMove (normalize txt) = Some f /\ fRest f = [] /\ chooseMove b f = Done m.
Proof.
  intros L m. assert (Im : In m ls) by (exact (proj1 (proj2 (moves_complete z b Z R K)) _ L)). pose proof (listed_pseudo m Im) as Jm.
  assert (D : mvDrop m = true /\ nkind k < 8 /\ k <> OU /\ on_board t /\ mvTo m = nsquare t /\ mvFrom m = 80 + nkind k).
  { destruct L as [[PL _] _]. cbn [pseudo_legal] in PL. destruct PL as (T & _ & H & _). pose proof (hand_kind p _ k H) as Hk. destruct (ki2_drop_fields p k t T Hk) as (E1 & E2 & _ & E4). fold m in E1, E2, E4.
    split; auto. split; auto. split; [|auto]. intros ->. cbn in Hk. discriminate Hk. }
  destruct D as (D & Hk & No & T & E1 & E2). destruct (drop_hand m k Hk No E2) as [Eh Lh].
  set (others := filter (fun m2 => (mvTo m2 =? nsquare t) && negb (mvDrop m2) && (mvPtFrom m2 =? nkind k)) ls).
  set (e := if 0 <? N.of_nat (List.length others) then [uDrop] else []).
  assert (W : moveToKi2 b m = Done (ki2Space (((if turn p =? Black then uBlack else uWhite) :: ki2To b (nsquare t)) ++ tailOf (nkind k) NoRel NoMotion e))).
  { unfold moveToKi2. cbv zeta. rewrite D, E1, Eh. fold p ls others e. f_equal. f_equal. f_equal. unfold tailOf. cbn [relText motionText app].
    assert (X : [nthN 0 handSymbols (moveDropHandPiece m)] = nthN [] pieceSymbols2 (nkind k)) by (unfold moveDropHandPiece; rewrite E2; destruct k; cbn in Hk; try lia; try congruence; reflexivity).
    rewrite <- X. reflexivity. }
  assert (Ie : In e ends) by (unfold e; destruct (0 <? _); cbn; auto).
  destruct (written_found (turn p) b (nsquare t) (nkind k) NoRel NoMotion e (nsquare_lt t T) (kind_pts k) Ie) as (f & M & F1 & F2 & F3 & F4 & F5 & F6).
  eexists _, f. split; [exact W|]. split; [exact M|]. split; [exact F6|]. rewrite (choose b f _ _ _ _ _ F1 F2 F3 F4 F5 (kind_pts k)). cbv zeta. fold p ls. cbn [byRel byMotion].
  assert (Ia : In m (filter (ofPiece (nsquare t) (nkind k)) ls)) by (apply filter_In; split; [exact Im|]; unfold ofPiece; rewrite D, E1, Eh, !N.eqb_refl; reflexivity).
  assert (Fd : forall x, In x (filter (ofPiece (nsquare t) (nkind k)) ls) -> mvDrop x = true -> x = m).
  { intros x Ix Dx. apply filter_In in Ix as [Ix Ox]. unfold ofPiece in Ox. rewrite Dx in Ox. apply andb_true_iff in Ox as [O1 O2]. apply N.eqb_eq in O1, O2. apply drop_same; auto using listed_pseudo; congruence. }
  apply settle_drop; [apply nodup_end, nodup_all|..]; unfold e; destruct (0 <? N.of_nat (List.length others)) eqn:El; unfold byEnd; rewrite ?N.eqb_refl.
  - apply filter_In. auto.
  - exact Ia.
  - intros x Ix. apply filter_In in Ix as [Ix Dx]. auto.
  - intros x Ix. apply Fd; [exact Ix|]. destruct (mvDrop x) eqn:Dx; [reflexivity|]. exfalso. apply filter_In in Ix as [Ix Ox]. unfold ofPiece in Ox. rewrite Dx in Ox. apply andb_true_iff in Ox as [O1 O2].
    assert (Io : In x others) by (apply filter_In; split; [exact Ix|]; rewrite O1, Dx, O2; reflexivity). destruct others; [destruct Io|]. cbn [List.length] in El. apply N.ltb_ge in El. lia.
Qed.

(* a move of a piece *)
Lemma go_read s t pr : legal (abs p) (Go s t pr) -> clear_move (abs p) (Go s t pr) -> let m := code p (Go s t pr) in
  exists txt f, moveToKi2 b m = Done txt /\ matchMove (normalize txt) = Some f /\ fRest f = [] /\ chooseMove b f = Done m.
Proof.
  intros L CL m. assert (Im : In m ls) by (exact (proj1 (proj2 (moves_complete z b Z R K)) _ L)). pose proof (listed_pseudo m Im) as Jm.
  assert (X : exists k, on_board s /\ on_board t /\ at_square (abs p) s = Some (side (abs p), k) /\ mvTo m = nsquare t /\ mvFrom m = nsquare s /\ mvPromo m = pr /\ mvPtFrom m = nkind k /\ mvDrop m = false).
  { destruct L as [[PL _] _]. cbn [pseudo_legal] in PL. destruct PL as (S & T & k & At & _). exists k. split; auto. split; auto. split; auto. exact (ki2_go_fields p s t pr k G S T At). }
  destruct X as (k & S & T & At & E1 & E2 & E3 & E4 & D). specialize (CL k At).
  set (pt := nkind k). set (to := nsquare t). set (ms := sameMoves p to pt).
  assert (Ims : In m ms) by (apply filter_In; split; [exact Jm|]; rewrite E1, E4, D; unfold to, pt; now rewrite !N.eqb_refl).
  assert (Fms : forall x, In x ms -> In x ps /\ mvDrop x = false /\ mvTo x = to /\ mvPtFrom x = pt).
  { intros x H. apply filter_In in H as [H Y]. rewrite !andb_true_iff, negb_true_iff, !N.eqb_eq in Y. tauto. }
  set (all := filter (ofPiece to pt) ls).
  assert (Iall : In m all) by (apply filter_In; split; [exact Im|]; unfold ofPiece; rewrite D, E1, E4; unfold to, pt; now rewrite !N.eqb_refl).
  assert (Fall : forall x, In x all -> mvDrop x = false -> In x ms).
  { intros x H Dx. apply filter_In in H as [H O]. unfold ofPiece in O. rewrite Dx in O. apply filter_In. split; [now apply listed_pseudo|]. rewrite Dx. cbn [negb]. now rewrite andb_true_r. }
  (* the origins *)
  assert (Fr : forall x, In x ms -> exists s', mvFrom x = nsquare s' /\ on_board s' /\ reaches (abs p) k t s').
  { intros x H. destruct (Fms x H) as (Ix & Dx & Tx & Px). destruct (go_entry x Ix Dx) as (s' & t' & pr' & k' & _ & PL & S' & T' & At' & A & X1 & X2 & _ & X4). exists s'. split; [exact X2|]. split; [exact S'|].
    rewrite Px in X4. apply nkind_inj' in X4. subst k'. rewrite Tx in X1. apply square_inj in X1; auto. subst t'. split; [exact At'|]. exists pr'. exact PL. }
  destruct (origins_spec ms) as [NO SO]. assert (IO : In (nsquare s) (origins ms)) by (apply SO; exists m; auto).
  set (us := turn p). set (cs := origins ms).
  (* the words *)
  assert (Wd : exists r w, (if 1 <? N.of_nat (List.length cs) then words (map (fun i => mkCand (relSeen us i to) (dirSeen us i to) (i =? nsquare s)) cs) (relSeen us (nsquare s) to) (dirSeen us (nsquare s) to) ((pt =? 13) || (pt =? 14)) else (NoRel, NoMotion)) = (r, w) /\
     In m (byMotion us w all (byRel us r all all)) /\ forall x, In x (byMotion us w all (byRel us r all all)) -> mvDrop x = false -> In x ms /\ mvFrom x = nsquare s).
  { assert (One : cs = [nsquare s] -> exists r w, (if 1 <? N.of_nat (List.length cs) then words (map (fun i => mkCand (relSeen us i to) (dirSeen us i to) (i =? nsquare s)) cs) (relSeen us (nsquare s) to) (dirSeen us (nsquare s) to) ((pt =? 13) || (pt =? 14)) else (NoRel, NoMotion)) = (r, w) /\
     In m (byMotion us w all (byRel us r all all)) /\ forall x, In x (byMotion us w all (byRel us r all all)) -> mvDrop x = false -> In x ms /\ mvFrom x = nsquare s).
    { intros Ec. rewrite Ec. exists NoRel, NoMotion. split; [reflexivity|]. cbn [byMotion byRel]. split; [exact Iall|]. intros x H Dx. pose proof (Fall x H Dx) as Hx. split; [exact Hx|].
      assert (Q : In (mvFrom x) cs) by (apply SO; eauto). rewrite Ec in Q. destruct Q as [Q|[]]. now symmetry. }
    destruct CL as [CL|[[s2 CL] ND]].
    - apply One. apply only_one; auto. intros i H. apply SO in H as (x & H & <-). destruct (Fr x H) as (s' & -> & _ & Rs). now rewrite (CL s' Rs).
    - destruct (N.eq_dec (nsquare s) (nsquare s2)) as [Eq|Nq].
      { apply One. apply only_one; auto. intros i H. apply SO in H as (x & H & <-). destruct (Fr x H) as (s' & -> & _ & Rs). destruct (CL s' Rs) as [-> | ->]; auto. }
      assert (F2 : forall i, In i cs -> i = nsquare s \/ i = nsquare s2).
      { intros i H. apply SO in H as (x & H & <-). destruct (Fr x H) as (s' & -> & _ & Rs). destruct (CL s' Rs) as [-> | ->]; auto. }
      assert (Dall : forall x, In x all -> mvDrop x = false).
      { intros x H. destruct (mvDrop x) eqn:Dx; [|reflexivity]. exfalso. apply ND. apply filter_In in H as [H O]. unfold ofPiece in O. rewrite Dx in O. apply andb_true_iff in O as [O1 O2]. apply N.eqb_eq in O1, O2.
        destruct (moves_sound z b Z R K x H) as (mv & Lx & Ex). fold p in Lx, Ex. destruct mv as [k' t'|s' t' pr'].
        - pose proof Lx as [[PL _] _]. cbn [pseudo_legal] in PL. destruct PL as (T' & _ & Hh & _). pose proof (hand_kind p _ k' Hh) as Hk. assert (No : k' <> OU) by (intros ->; cbn in Hk; discriminate Hk).
          destruct (ki2_drop_fields p k' t' T' Hk) as (X1 & X2 & _). rewrite <- Ex in X1, X2. rewrite (proj1 (drop_hand x k' Hk No X2)) in O2. apply nkind_inj' in O2. subst k'. rewrite O1 in X1. apply square_inj in X1; auto. subst t'. exact Lx.
        - pose proof Lx as [[PL _] _]. cbn [pseudo_legal] in PL. destruct PL as (S' & T' & k' & At' & _). destruct (ki2_go_fields p s' t' pr' k' G S' T' At') as (_ & _ & _ & _ & X). rewrite <- Ex in X. congruence. }
      assert (Two : cs = [nsquare s; nsquare s2] \/ cs = [nsquare s2; nsquare s] -> exists r w, (if 1 <? N.of_nat (List.length cs) then words (map (fun i => mkCand (relSeen us i to) (dirSeen us i to) (i =? nsquare s)) cs) (relSeen us (nsquare s) to) (dirSeen us (nsquare s) to) ((pt =? 13) || (pt =? 14)) else (NoRel, NoMotion)) = (r, w) /\
         In m (byMotion us w all (byRel us r all all)) /\ forall x, In x (byMotion us w all (byRel us r all all)) -> mvDrop x = false -> In x ms /\ mvFrom x = nsquare s).
      { intros Ec. assert (I2 : In (nsquare s2) cs) by (destruct Ec as [-> | ->]; cbn; auto). apply SO in I2 as (x2 & H2 & X2). destruct (Fr x2 H2) as (s2' & Y2 & S2 & Rs2).
        assert (s2' = s2). { destruct (CL s2' Rs2) as [-> | ->]; [exfalso; apply Nq; congruence|reflexivity]. } subst s2'.
        destruct Rs2 as [At2 [pr2 PL2]]. cbn [pseudo_legal] in PL2. destruct PL2 as (_ & _ & k2 & At2' & A2 & _). rewrite At2 in At2'. injection At2' as <-.
        assert (A1 : attacks (occupied (abs p)) (side (abs p)) k s t). { destruct L as [[PL _] _]. cbn [pseudo_legal] in PL. destruct PL as (_ & _ & k1 & At1 & A1 & _). rewrite At in At1. injection At1 as <-. exact A1. }
        assert (Ns : s <> s2) by (intros ->; now apply Nq).
        assert (Cl : (relSeen us (nsquare s) to, dirSeen us (nsquare s) to) <> (relSeen us (nsquare s2) to, dirSeen us (nsquare s2) to)).
        { intros E. injection E as Ea Eb. apply Ns. exact (class_differs (abs p) (side (abs p)) k s s2 t At At2 A1 A2 (same_class us s s2 t S S2 T Ea Eb)). }
        assert (Nt : s <> t). { intros E. destruct L as [[PL _] _]. cbn [pseudo_legal] in PL. destruct PL as (_ & _ & _ & _ & _ & O & _). apply (O k). now rewrite <- E. }
        assert (Sd : dirSeen us (nsquare s) to = DSide -> relSeen us (nsquare s) to <> SSame).
        { intros Ea Eb. pose proof (rel_of us (nsquare s) to (nsquare_lt s S) (nsquare_lt t T)) as P1. pose proof (dir_of us (nsquare s) to (nsquare_lt s S) (nsquare_lt t T)) as P2. rewrite Eb in P1. rewrite Ea in P2. cbn [relP dirP] in P1, P2.
          apply Nt. apply square_inj; auto. fold to. rewrite (N.div_mod (nsquare s) 9), (N.div_mod to 9) by discriminate. now rewrite P1, P2. }
        set (first := match cs with i :: _ => i =? nsquare s | [] => true end).
        assert (Em : map (fun i => mkCand (relSeen us i to) (dirSeen us i to) (i =? nsquare s)) cs =
           if first then [mkCand (relSeen us (nsquare s) to) (dirSeen us (nsquare s) to) true; mkCand (relSeen us (nsquare s2) to) (dirSeen us (nsquare s2) to) false]
           else [mkCand (relSeen us (nsquare s2) to) (dirSeen us (nsquare s2) to) false; mkCand (relSeen us (nsquare s) to) (dirSeen us (nsquare s) to) true]).
        { assert (Q : (nsquare s2 =? nsquare s) = false) by (apply N.eqb_neq; auto). unfold first. destruct Ec as [-> | ->]; cbn [map]; now rewrite Q, N.eqb_refl. }
        assert (Ln : 1 <? N.of_nat (List.length cs) = true) by (destruct Ec as [-> | ->]; reflexivity). rewrite Ln, Em.
        pose proof (words_two (relSeen us (nsquare s) to) (dirSeen us (nsquare s) to) (relSeen us (nsquare s2) to) (dirSeen us (nsquare s2) to) ((pt =? 13) || (pt =? 14)) first Cl Sd) as Wt. cbv zeta in Wt.
        destruct (words _ _ _ _) as [r w] in Wt |- *. cbn [fst snd] in Wt. exists r, w. split; [reflexivity|].
        assert (Ft : forall x, In x all -> mvTo x = to) by (intros x H; now apply (Fms x (Fall x H (Dall x H)))).
        assert (Ff : forall x, In x all -> mvFrom x = nsquare s \/ mvFrom x = nsquare s2) by (intros x H; apply F2; apply SO; exists x; split; [apply Fall; auto|reflexivity]).
        pose proof (read_told us all m to (nsquare s) (nsquare s2) r w (nsquare_lt s S) (nsquare_lt s2 S2) (nsquare_lt t T) Iall E2 Ft Ff Wt) as Rt.
        split; [apply Rt; auto|]. intros x H Dx. apply Rt in H as [H Hf]. split; [now apply Fall|exact Hf]. }
      destruct (two_list cs (nsquare s) (nsquare s2) NO IO Nq F2) as [Q|[Q|Q]]; auto. }
  destruct Wd as (r & w & Wd & Wm & Wx).
  (* the end *)
  set (times := count (fun m2 => mvFrom m2 =? mvFrom m) ms).
  set (e := if pr then [uPro] else if times =? 2 then [uNot; uPro] else []).
  assert (Fx : forall x, In x ms -> mvFrom x = nsquare s -> mvPromo x = pr -> x = m).
  { intros x H Hf Hp. destruct (Fms x H) as (Ix & Dx & Tx & _). exact (go_same x m Ix Jm Dx D (eq_trans Tx (eq_sym E1)) (eq_trans Hf (eq_sym E2)) (eq_trans Hp (eq_sym E3))). }
  assert (Tm : times = 1 \/ times = 2 /\ True).
  { unfold times, count. set (l := filter (fun m2 => mvFrom m2 =? mvFrom m) ms).
    assert (Nl : NoDup l) by (apply NoDup_filter; apply NoDup_filter; exact (proj1 (pseudo_facts z b Z R K))).
    assert (Il : In m l) by (apply filter_In; split; [exact Ims|apply N.eqb_refl]).
    assert (Ml : (List.length (map mvPromo l) <= 2)%nat).
    { apply (NoDup_incl_length (l' := [true; false])); [|intros [|] _; cbn; auto].
      assert (Inj : forall x y, In x l -> In y l -> mvPromo x = mvPromo y -> x = y).
      { intros x y Hx Hy E. apply filter_In in Hx as [Hx Qx]. apply filter_In in Hy as [Hy Qy]. apply N.eqb_eq in Qx, Qy. destruct (Fms x Hx) as (Ix & Dx & Tx & _). destruct (Fms y Hy) as (Iy & Dy & Ty & _). apply go_same; auto; congruence. }
      clear Il. revert Nl Inj. clear. induction l as [|a l IH]; intros Nl Inj; cbn [map]; constructor.
      - apply NoDup_cons_iff in Nl as [H _]. intros J. apply in_map_iff in J as (y & E & J). apply H. rewrite (Inj a y); cbn; auto.
      - apply IH; [now apply NoDup_cons_iff in Nl|]. intros x y Hx Hy. apply Inj; cbn; auto. }
    rewrite map_length in Ml. destruct l as [|a [|c [|d l]]]; [destruct Il|left; reflexivity|right; split; [reflexivity|exact I]|cbn [List.length] in Ml; lia]. }
  assert (W : moveToKi2 b m = Done (ki2Space (((if turn p =? Black then uBlack else uWhite) :: ki2To b to) ++ tailOf pt r w e))).
  { unfold moveToKi2. cbv zeta. rewrite D, E1, E4. fold p to pt ms cs us times. rewrite E2. rewrite Wd, E3. unfold tailOf, e. destruct pr; [reflexivity|].
    assert (Q : times =? 0 = false) by (apply N.eqb_neq; lia). rewrite Q. reflexivity. }
  assert (Ie : In e ends) by (unfold e; destruct pr; [cbn; auto|destruct (times =? 2); cbn; auto]).
  destruct (written_found (turn p) b to pt r w e (nsquare_lt t T) (kind_pts k) Ie) as (f & M & F1 & F2 & F3 & F4 & F5 & F6).
  eexists _, f. split; [exact W|]. split; [exact M|]. split; [exact F6|]. rewrite (choose b f _ _ _ _ _ F1 F2 F3 F4 F5 (kind_pts k)). cbv zeta. fold p ls all us.
  apply settle_go; [apply nodup_end, nodup_motion, nodup_rel, nodup_all|..|exact D|].
  - unfold e, byEnd. destruct pr; [change (uPro =? uDrop) with false; rewrite N.eqb_refl; apply filter_In; auto|]. destruct (times =? 2); [apply filter_In; now rewrite E3|exact Wm].
  - intros x Hx Dx. unfold e, byEnd in Hx. destruct pr.
    + change (uPro =? uDrop) with false in Hx. rewrite N.eqb_refl in Hx. apply filter_In in Hx as [Hx Px]. destruct (Wx x Hx Dx). now apply Fx.
    + destruct (times =? 2) eqn:Et.
      * apply filter_In in Hx as [Hx Px]. destruct (Wx x Hx Dx). apply Fx; auto. now apply negb_true_iff.
      * destruct (Wx x Hx Dx) as [Hm Hf]. assert (T1 : times = 1) by (apply N.eqb_neq in Et; lia). unfold times, count in T1.
        assert (Q1 : In x (filter (fun m2 => mvFrom m2 =? mvFrom m) ms)) by (apply filter_In; split; [exact Hm|apply N.eqb_eq; congruence]).
        assert (Q2 : In m (filter (fun m2 => mvFrom m2 =? mvFrom m) ms)) by (apply filter_In; split; [exact Ims|apply N.eqb_refl]).
        destruct (filter (fun m2 => mvFrom m2 =? mvFrom m) ms) as [|a [|c l]]; [destruct Q1|destruct Q1 as [<-|[]]; destruct Q2 as [<-|[]]; reflexivity|cbn [List.length] in T1; lia].
Qed.
Lemma move_read mv : legal (abs p) mv -> clear_move (abs p) mv -> let m := code p mv in
  exists txt, moveToKi2 b m = Done txt /\ forall n, parseMoveStr (S (S n)) z b txt = Done ([m], push z b m).
Proof.
  intros L CL m. assert (X : exists txt f, moveToKi2 b m = Done txt /\ matchMove (normalize txt) = Some f /\ fRest f = [] /\ chooseMove b f = Done m).
  { destruct mv as [k t|s t pr]; [exact (drop_read k t L)|exact (go_read s t pr L CL)]. }
  destruct X as (txt & f & W & M & Rs & C). exists txt. split; [exact W|]. intros n. unfold parseMoveStr. cbn [moveLoop skipn]. rewrite M, C. cbn [obind].
  assert (Im : In m ls) by (exact (proj1 (proj2 (moves_complete z b Z R K)) _ L)). rewrite (listed_is_legal z b m Z R K Im), Rs. cbn [List.length].
  rewrite Nat.sub_0_r, skipn_all. reflexivity.
Qed.
(* whatever piece is meant, the text is written, and what is read moves or drops a piece of the kind to the square *)
Lemma settled_in cs m : settle cs = Done m -> In m cs.
Proof.
  unfold settle. destruct cs as [|a [|c l]]; [discriminate|intros E; injection E as ->; now left|]. destruct (filter _ _) as [|x [|? ?]] eqn:F; try discriminate. intros E. injection E as ->.
  assert (I : In m (filter (fun m => negb (mvDrop m)) (a :: c :: l))) by (rewrite F; now left). now apply filter_In in I.
Qed.
Lemma settled cs : settle cs = Thrown \/ exists m, settle cs = Done m.
Proof. unfold settle. destruct cs as [|a [|c l]]; eauto. destruct (filter _ _) as [|x [|? ?]]; eauto. Qed.
Lemma sub_end e cs x : In x (byEnd e cs) -> In x cs.
Proof. unfold byEnd. destruct e as [|c [|c2 [|? ?]]]; auto; [destruct (c =? uDrop); [intros H; now apply filter_In in H|destruct (c =? uPro); auto; intros H; now apply filter_In in H]|intros H; now apply filter_In in H]. Qed.
Lemma go_written s t pr k : legal (abs p) (Go s t pr) -> at_square (abs p) s = Some (side (abs p), k) -> on_board t ->
  exists r w e, In e ends /\ moveToKi2 b (code p (Go s t pr)) = Done (ki2Space (((if turn p =? Black then uBlack else uWhite) :: ki2To b (nsquare t)) ++ tailOf (nkind k) r w e)).
Proof.
  intros L At T. set (m := code p (Go s t pr)). assert (Jm : In m ps) by (apply listed_pseudo; exact (proj1 (proj2 (moves_complete z b Z R K)) _ L)).
  assert (S : on_board s) by (destruct L as [[PL _] _]; cbn [pseudo_legal] in PL; tauto). destruct (ki2_go_fields p s t pr k G S T At) as (E1 & E2 & E3 & E4 & D). fold m in E1, E2, E3, E4, D.
  assert (Ims : In m (filter (fun m2 => mvFrom m2 =? mvFrom m) (sameMoves p (nsquare t) (nkind k)))).
  { apply filter_In. split; [|apply N.eqb_refl]. apply filter_In. split; [exact Jm|]. rewrite E1, E4, D, !N.eqb_refl. reflexivity. }
  assert (Q : count (fun m2 => mvFrom m2 =? mvFrom m) (sameMoves p (nsquare t) (nkind k)) =? 0 = false).
  { unfold count. destruct (filter _ _); [destruct Ims|]. reflexivity. }
  unfold moveToKi2. cbv zeta. rewrite D, E1, E3, E4. fold p. rewrite Q. match goal with |- context [let '(_, _) := ?X in _] => destruct X as [r w] end.
  set (c2 := count _ _ =? 2). exists r, w, (if pr then [uPro] else if c2 then [uNot; uPro] else []). unfold tailOf. split; [destruct pr; [cbn; auto|destruct c2; cbn; auto]|]. destruct pr; reflexivity.
Qed.
Lemma near_read mv : legal (abs p) mv -> exists txt, moveToKi2 b (code p mv) = Done txt /\ forall n,
  parseMoveStr (S (S n)) z b txt = Thrown \/
  exists mv', legal (abs p) mv' /\ piece_to (abs p) mv' = piece_to (abs p) mv /\ parseMoveStr (S (S n)) z b txt = Done ([code p mv'], push z b (code p mv')).
Proof.
  intros L. assert (X : exists k t, piece_to (abs p) mv = Some (k, t) /\ on_board t /\ exists r w e, In e ends /\ moveToKi2 b (code p mv) = Done (ki2Space (((if turn p =? Black then uBlack else uWhite) :: ki2To b (nsquare t)) ++ tailOf (nkind k) r w e))).
  { destruct mv as [k t|s t pr].
    - exists k, t. split; [reflexivity|]. pose proof L as [[PL _] _]. cbn [pseudo_legal] in PL. destruct PL as (T & _ & H & _). split; [exact T|]. pose proof (hand_kind p _ k H) as Hk. assert (No : k <> OU) by (intros ->; cbn in Hk; discriminate Hk).
      destruct (ki2_drop_fields p k t T Hk) as (E1 & E2 & _ & D). exists NoRel, NoMotion. unfold moveToKi2. cbv zeta. rewrite D, E1. fold p.
      assert (X : [nthN 0 handSymbols (moveDropHandPiece (code p (Drop k t)))] = nthN [] pieceSymbols2 (nkind k)) by (unfold moveDropHandPiece; rewrite E2; destruct k; cbn in Hk; try lia; try congruence; reflexivity). rewrite X.
      set (q := 0 <? _). exists (if q then [uDrop] else []). split; [destruct q; cbn; auto|reflexivity].
    - pose proof L as [[PL _] _]. cbn [pseudo_legal] in PL. destruct PL as (S & T & k & At & _). exists k, t. split; [cbn [piece_to]; now rewrite At|]. split; [exact T|]. exact (go_written s t pr k L At T). }
  destruct X as (k & t & Ep & T & r & w & e & Ie & W). eexists. split; [exact W|]. intros n. destruct (written_found (turn p) b (nsquare t) (nkind k) r w e (nsquare_lt t T) (kind_pts k) Ie) as (f & M & F1 & F2 & F3 & F4 & F5 & F6).
  unfold parseMoveStr. cbn [moveLoop skipn]. rewrite M, (choose b f _ _ _ _ _ F1 F2 F3 F4 F5 (kind_pts k)). cbv zeta. fold p ls.
  match goal with |- context [settle ?l] => destruct (settled l) as [E|[x E]]; rewrite E end; cbn [obind]; [now left|right]. apply settled_in, sub_end, sub_motion, sub_rel in E. apply filter_In in E as [Ix O].
  destruct (moves_sound z b Z R K x Ix) as (mv' & L' & Ex). fold p in L', Ex. exists mv'. split; [exact L'|]. split.
  - rewrite Ep. unfold ofPiece in O. destruct mv' as [k' t'|s' t' pr']; pose proof L' as [[PL' _] _]; cbn [pseudo_legal] in PL'.
    + destruct PL' as (T' & _ & H & _). pose proof (hand_kind p _ k' H) as Hk. assert (No : k' <> OU) by (intros ->; cbn in Hk; discriminate Hk). destruct (ki2_drop_fields p k' t' T' Hk) as (E1 & E2 & _ & D). rewrite <- Ex in E1, E2, D.
      rewrite D, E1, (proj1 (drop_hand x k' Hk No E2)) in O. apply andb_true_iff in O as [O1 O2]. apply N.eqb_eq in O1, O2. apply nkind_inj' in O2. apply square_inj in O1; auto. now subst.
    + destruct PL' as (S' & T' & k' & At' & _). destruct (ki2_go_fields p s' t' pr' k' G S' T' At') as (E1 & _ & _ & E4 & D). rewrite <- Ex in E1, E4, D. rewrite D, E1, E4 in O. apply andb_true_iff in O as [O1 O2]. apply N.eqb_eq in O1, O2.
      apply nkind_inj' in O2. apply square_inj in O1; auto. cbn [piece_to]. rewrite At'. now subst.
  - pose proof (listed_is_legal z b x Z R K Ix) as LX. fold p in LX. rewrite LX, F6. cbn [List.length]. rewrite Nat.sub_0_r, skipn_all, Ex. reflexivity.
Qed.
End One.

(* ---- a game ---- *)
Lemma game_read z b ms : okZob z -> clear_game z b ms -> reachable z b -> well_formed (abs (bpos b)) ->
  exists ls, exportKi2 z b ms = Done ls /\ forall n, parseMoveLines (S (S n)) z b ls = Done (ms, ki2_board z b ms).
Proof.
  intros Z C. induction C as [b|b mv ms L CL C IH]; intros R W; [exists []; split; reflexivity|].
  destruct (move_read z b Z R (wf_playable _ W) mv L CL) as (txt & E & P). destruct (push_wf z b mv Z R W L) as [R1 W1]. destruct (IH R1 W1) as (ls & E' & P').
  exists (txt :: ls). split; [cbn [exportKi2]; rewrite E; cbn [obind]; rewrite E'; reflexivity|]. intros n. cbn [parseMoveLines]. rewrite P. cbn [obind fst snd]. rewrite P'. reflexivity.
Qed.
