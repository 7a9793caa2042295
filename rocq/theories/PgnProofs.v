(* PGN texts: the proofs. *)
From Verif Require Export PgnSpec.
From Verif Require Import Ki2Proofs Rules Bridge GenClaims CommandFinal SfenProofs SfenFinal ClaimProofs.
Local Open Scope N_scope.

(* ---- squares ---- *)
Definition unsq (l : list ascii) : N := match l with [a; c] => (105 - N_of_ascii a) * 9 + (57 - N_of_ascii c) | _ => 0 end.
Definition black (c : ascii) : bool := negb (Ascii.eqb c sp || Ascii.eqb c lf).
Definition plain (c : ascii) : bool := black c && negb (Ascii.eqb c "@" || Ascii.eqb c "+").
Definition same_text (a c : list ascii) : bool := if list_eq_dec ascii_dec a c then true else false.
Definition sq_ok (i : N) : bool := match sanSquare i with Done l => same_text l (pgn_square (squareN i)) && (unsq l =? i) && forallb plain l | _ => false end.
Lemma sq_all : forallb sq_ok (map N.of_nat (seq 0 81)) = true. Proof. vm_compute. reflexivity. Qed.
Lemma sq_facts s : on_board s -> sanSquare (nsquare s) = Done (pgn_square s) /\ unsq (pgn_square s) = nsquare s /\ forallb plain (pgn_square s) = true.
Proof.
  intros B. pose proof (nsquare_lt s B) as H. assert (K : sq_ok (nsquare s) = true).
  { apply (proj1 (forallb_forall _ _) sq_all). apply in_map_iff. exists (N.to_nat (nsquare s)). split; [lia|]. apply in_seq. lia. }
  unfold sq_ok in K. destruct (sanSquare (nsquare s)) as [l| |] eqn:E; try discriminate. apply andb_true_iff in K as [K K3]. apply andb_true_iff in K as [K1 K2].
  unfold same_text in K1. destruct (list_eq_dec ascii_dec l _) as [->|]; [|discriminate]. rewrite (square_inv' s B) in *. apply N.eqb_eq in K2. auto.
Qed.
Lemma sq_inj s t : on_board s -> on_board t -> pgn_square s = pgn_square t -> s = t.
Proof. intros S T E. apply square_inj; auto. rewrite <- (proj1 (proj2 (sq_facts s S))), <- (proj1 (proj2 (sq_facts t T))). now rewrite E. Qed.

(* ---- one move ---- *)
Lemma hand_written k : nkind k < 8 -> k <> OU -> forall m, mvFrom m = 80 + nkind k -> lookup sanHand (moveDropHandPiece m) = Done (chars (pgn_kind "+K" k)).
Proof. intros K O m E. unfold moveDropHandPiece. rewrite E. destruct k; cbn in K; try lia; try contradiction; vm_compute; reflexivity. Qed.
Lemma piece_written k : lookup sanPiece (nkind k) = Done (chars (pgn_kind "+K" k)).
Proof. destruct k; reflexivity. Qed.
Lemma hand_not_king p c : ~ (0 < in_hand (abs p) c OU)%Z. Proof. cbn. lia. Qed.
Lemma legal_shape p mv : good p -> legal (abs p) mv ->
  match mv with Drop k t => on_board t /\ nkind k < 8 /\ k <> OU | Go s t pr => on_board s /\ on_board t /\ exists k, at_square (abs p) s = Some (side (abs p), k) end.
Proof.
  intros G [[P _] _]. destruct mv as [k t|s t pr]; unfold pseudo_legal in P; cbv zeta in P.
  - destruct P as (T & _ & H & _). split; [exact T|]. split; [exact (hand_kind p _ k H)|]. intros ->. exact (hand_not_king p _ H).
  - destruct P as (S & T & k & A & _). split; [exact S|]. split; [exact T|]. exists k. exact A.
Qed.
Lemma san_written p mv : good p -> legal (abs p) mv -> moveToSan (code p mv) = Done (san_text "+K" (abs p) mv).
Proof.
  intros G L. pose proof (legal_shape p mv G L) as S. destruct mv as [k t|s t pr].
  - destruct S as (T & K & O). destruct (ki2_drop_fields p k t T K) as (E1 & E2 & E3 & E4). unfold moveToSan. rewrite E1, (proj1 (sq_facts t T)), E4, (hand_written k K O _ E2). reflexivity.
  - destruct S as (S & T & k & A). destruct (ki2_go_fields p s t pr k G S T A) as (E1 & E2 & E3 & E4 & E5). unfold moveToSan.
    rewrite E1, (proj1 (sq_facts t T)), E5, E2, (proj1 (sq_facts s S)), E4, (piece_written k), E3. cbn [obind san_text]. rewrite A. reflexivity.
Qed.

(* ---- two moves with one text ---- *)
Lemma kind_shape k : exists c, (chars (pgn_kind "+K" k) = [c] \/ chars (pgn_kind "+K" k) = ["+"%char; c]) /\ plain c = true.
Proof. destruct k; cbn; eexists; (split; [(left; reflexivity) || (right; reflexivity)|reflexivity]). Qed.
Lemma hand_shape k : nkind k < 8 -> exists c, chars (pgn_kind "+K" k) = [c] /\ plain c = true.
Proof. destruct k; cbn; intros H; try lia; eexists; (split; reflexivity). Qed.
Lemma hand_letter_inj k k' : nkind k < 8 -> nkind k' < 8 -> pgn_kind "+K" k = pgn_kind "+K" k' -> k = k'.
Proof. destruct k, k'; cbn; intros H H' E; try reflexivity; try discriminate; lia. Qed.
Lemma chars_inj s t : chars s = chars t -> s = t.
Proof. intros E. unfold chars in E. rewrite <- (string_of_list_ascii_of_string s), E. apply string_of_list_ascii_of_string. Qed.
Lemma sq_two s : on_board s -> exists a c, pgn_square s = [a; c] /\ plain a = true /\ plain c = true.
Proof.
  intros B. pose proof (proj2 (proj2 (sq_facts s B))) as F. unfold pgn_square in *. cbn [forallb] in F. apply andb_true_iff in F as [F1 F]. apply andb_true_iff in F as [F2 _]. eauto.
Qed.
Lemma plain_at c : plain c = true -> c <> "@"%char. Proof. intros P ->. discriminate. Qed.
Lemma plain_plus c : plain c = true -> c <> "+"%char. Proof. intros P ->. discriminate. Qed.
Definition tail_of (pr : bool) : list ascii := if pr then ["+"%char] else [].
Lemma tail_inj pr pr' : tail_of pr = tail_of pr' -> pr = pr'. Proof. destruct pr, pr'; cbn; intros E; (reflexivity || discriminate E). Qed.
Lemma drop_go c a1 c1 K a2 c2 l : c <> "+"%char -> a2 <> "@"%char -> (exists d, (K = [d] \/ K = ["+"%char; d])) -> [c; "@"%char; a1; c1] = K ++ [a2; c2] ++ l -> False.
Proof. intros P A (d & [-> | ->]) E; cbn in E; injection E; intros; subst; contradiction. Qed.
Lemma go_go K K' (a1 c1 a2 c2 a1' c1' a2' c2' : ascii) pr pr' : (exists d, (K = [d] \/ K = ["+"%char; d]) /\ plain d = true) -> (exists d, (K' = [d] \/ K' = ["+"%char; d]) /\ plain d = true) ->
  K ++ [a1; c1] ++ [a2; c2] ++ tail_of pr = K' ++ [a1'; c1'] ++ [a2'; c2'] ++ tail_of pr' -> [a1; c1] = [a1'; c1'] /\ [a2; c2] = [a2'; c2'] /\ tail_of pr = tail_of pr'.
Proof.
  intros (d & D & P) (d' & D' & P') E. apply plain_plus in P. apply plain_plus in P'. destruct D as [-> | ->], D' as [-> | ->]; cbn [app] in E.
  - injection E. intros -> -> -> -> -> _. auto.
  - exfalso. injection E. intros. subst. contradiction.
  - exfalso. injection E. intros. subst. contradiction.
  - injection E. intros -> -> -> -> -> _. auto.
Qed.
Lemma drop_drop (c c' : ascii) x y : [c] ++ "@"%char :: x = [c'] ++ "@"%char :: y -> c = c' /\ x = y.
Proof. cbn [app]. intros E. injection E. auto. Qed.
Lemma san_inj p mv mv' : good p -> legal (abs p) mv -> legal (abs p) mv' -> san_text "+K" (abs p) mv = san_text "+K" (abs p) mv' -> mv = mv'.
Proof.
  intros G L L' E. pose proof (legal_shape p mv G L) as S. pose proof (legal_shape p mv' G L') as S'.
  assert (X : forall k t s t' pr k', on_board t -> nkind k < 8 -> on_board s -> on_board t' ->
    chars (pgn_kind "+K" k) ++ "@"%char :: pgn_square t = chars (pgn_kind "+K" k') ++ pgn_square s ++ pgn_square t' ++ tail_of pr -> False).
  { clear. intros k t s t' pr k' T K S T' E. destruct (hand_shape k K) as (c & Ec & Pc). destruct (sq_two t T) as (a1 & c1 & Et & _). destruct (sq_two s S) as (a2 & c2 & Es & Pa & _).
    destruct (kind_shape k') as (d & D & _). rewrite Ec, Et, Es in E. exact (drop_go c a1 c1 _ a2 c2 _ (plain_plus _ Pc) (plain_at _ Pa) (ex_intro _ d D) E). }
  destruct mv as [k t|s t pr], mv' as [k' t'|s' t' pr'].
  - destruct S as (T & K & _), S' as (T' & K' & _). cbn [san_text] in E. destruct (hand_shape k K) as (c & Ec & Pc). destruct (hand_shape k' K') as (c' & Ec' & Pc').
    rewrite Ec, Ec' in E. destruct (drop_drop _ _ _ _ E) as [E1 E2].
    assert (k = k') as -> by (apply hand_letter_inj; auto; apply chars_inj; now rewrite Ec, Ec', E1). f_equal. apply sq_inj; auto.
  - exfalso. destruct S as (T & K & _), S' as (S' & T' & k' & A'). cbn [san_text] in E. rewrite A' in E. exact (X _ _ _ _ _ _ T K S' T' E).
  - exfalso. destruct S' as (T & K & _), S as (S' & T' & k0 & A'). cbn [san_text] in E. rewrite A' in E. exact (X _ _ _ _ _ _ T K S' T' (eq_sym E)).
  - destruct S as (S & T & k & A), S' as (S' & T' & k' & A'). cbn [san_text] in E. rewrite A, A' in E.
    assert (Y : pgn_square s = pgn_square s' /\ pgn_square t = pgn_square t' /\ tail_of pr = tail_of pr') by exact (go_go _ _ _ _ _ _ _ _ _ _ pr pr' (kind_shape k) (kind_shape k') E).
    destruct Y as (Y1 & Y2 & Y3). apply sq_inj in Y1; auto. apply sq_inj in Y2; auto. apply tail_inj in Y3. now subst.
Qed.
