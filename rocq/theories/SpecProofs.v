(* Consequences of the rules alone (nothing about the model): legal play conserves the pieces and
   keeps positions well formed. *)
From Coq Require Import Lia.
From Verif Require Import Spec.
Local Open Scope Z_scope.

Lemma sq_eqb_iff s t : square_eqb s t = true <-> s = t.
Proof. destruct s as [a b], t as [c d]. unfold square_eqb. cbn [fst snd]. rewrite andb_true_iff, !Z.eqb_eq. split; [intros []; congruence|intros E; inversion E; auto]. Qed.
Lemma sq_eqb_refl s : square_eqb s s = true. Proof. now apply sq_eqb_iff. Qed.
Lemma sq_eqb_neq s t : s <> t -> square_eqb s t = false.
Proof. intros H. destruct (square_eqb s t) eqn:E; [|reflexivity]. apply sq_eqb_iff in E. contradiction. Qed.
Lemma kind_eqb_eq a b : kind_eqb a b = true <-> a = b.
Proof. destruct a, b; cbn; split; intros; congruence. Qed.
Lemma kind_eqb_refl a : kind_eqb a a = true. Proof. now apply kind_eqb_eq. Qed.
Lemma color_eqb_eq a b : color_eqb a b = true <-> a = b.
Proof. destruct a, b; cbn; split; intros; congruence. Qed.
Lemma other_other c : other (other c) = c. Proof. now destruct c. Qed.
Lemma other_neq c : other c <> c. Proof. now destruct c. Qed.
Lemma color_cases c d : c = d \/ c = other d. Proof. destruct c, d; auto. Qed.

Lemma put_same b t x : put b t x t = x. Proof. unfold put. now rewrite sq_eqb_refl. Qed.
Lemma put_other b t x s : s <> t -> put b t x s = b s. Proof. intros H. unfold put. now rewrite sq_eqb_neq. Qed.

(* ---- counting ---- *)
Definition weight (k : kind) (x : option (color * kind)) : Z :=
  match x with Some (_, k') => if kind_eqb (unpromote k') k then 1 else 0 | None => 0 end.
Fixpoint sumw (b : square -> option (color * kind)) (k : kind) (l : list square) : Z :=
  match l with [] => 0 | s :: l => weight k (b s) + sumw b k l end.
Lemma count_sumw P k : on_board_count P k = sumw (at_square P) k all_squares.
Proof.
  unfold on_board_count. induction all_squares as [|a l IH]; cbn [filter sumw]; [reflexivity|]. rewrite <- IH. unfold weight.
  destruct (at_square P a) as [[c k']|]; [|lia]. destruct (kind_eqb (unpromote k') k); cbn [length]; lia.
Qed.
Lemma sumw_ext b b' k l : (forall s, In s l -> b s = b' s) -> sumw b k l = sumw b' k l.
Proof. induction l as [|a l IH]; cbn [sumw]; intros H; [reflexivity|]. rewrite IH by (intros; apply H; now right). now rewrite (H a (or_introl eq_refl)). Qed.
Lemma sumw_put b t x k l : NoDup l -> In t l -> sumw (put b t x) k l = sumw b k l - weight k (b t) + weight k x.
Proof.
  induction l as [|a l IH]; intros ND Hi; [destruct Hi|]. inversion ND as [|? ? Na ND']; subst. cbn [sumw]. destruct Hi as [->|Hi].
  - rewrite put_same. rewrite (sumw_ext (put b t x) b) by (intros s Hs; apply put_other; intros ->; contradiction). lia.
  - rewrite IH by auto. rewrite put_other by (intros ->; contradiction). lia.
Qed.
Lemma all_squares_NoDup : NoDup all_squares.
Proof.
  assert (D : forall l : list square, (fix nd l := match l with [] => true | s :: l => negb (existsb (square_eqb s) l) && nd l end) l = true -> NoDup l).
  { induction l as [|a l IH]; intros H; constructor; apply andb_prop in H as [H1 H2]; auto. intros Hi. apply negb_true_iff in H1.
    assert (existsb (square_eqb a) l = true); [|congruence]. apply existsb_exists. exists a. split; auto. apply sq_eqb_refl. }
  apply D. vm_compute. reflexivity.
Qed.
Lemma digits_iff n : In n digits <-> 1 <= n <= 9.
Proof. unfold digits. cbn [In]. lia. Qed.
Lemma all_squares_iff s : In s all_squares <-> on_board s.
Proof.
  unfold all_squares, on_board. rewrite in_flat_map. destruct s as [f r]. cbn [fst snd]. split.
  - intros (f' & Hf & H). apply in_map_iff in H as (r' & E & Hr). inversion E; subst. rewrite digits_iff in *. auto.
  - intros [Hf Hr]. exists f. split; [now apply digits_iff|]. apply in_map_iff. exists r. split; [reflexivity|now apply digits_iff].
Qed.
Lemma count_put b t x k h c h' c' : on_board t -> on_board_count (mkPosition (put b t x) h c) k = on_board_count (mkPosition b h' c') k - weight k (b t) + weight k x.
Proof. intros H. rewrite !count_sumw. cbn [at_square]. apply sumw_put; [apply all_squares_NoDup|now apply all_squares_iff]. Qed.
Lemma count_pos P k s c k' : on_board s -> at_square P s = Some (c, k') -> unpromote k' = k -> 1 <= on_board_count P k.
Proof.
  intros B E U. rewrite count_sumw. apply all_squares_iff in B. induction all_squares as [|a l IH]; [destruct B|]. cbn [sumw].
  assert (N : forall l, 0 <= sumw (at_square P) k l) by (clear; induction l as [|a l IH]; cbn [sumw]; unfold weight; [lia|]; destruct (at_square P a) as [[? ?]|]; [destruct (kind_eqb _ _)|]; lia).
  destruct B as [->|B]; [unfold weight; rewrite E, U, kind_eqb_refl; specialize (N l); lia|]. specialize (IH B). unfold weight. destruct (at_square P a) as [[? ?]|]; [destruct (kind_eqb _ _)|]; lia.
Qed.

Lemma attacks_neq (O : square -> Prop) c k s t : attacks O c k s t -> s <> t.
Proof.
  intros A E. subst t. destruct s as [x y]. destruct A as [(d & Hd & E)|(d & n & Hd & Hn & E & _)].
  - assert (E1 := f_equal fst E). assert (E2 := f_equal snd E). unfold displaced in E1, E2. change (fst (x, y)) with x in *. change (snd (x, y)) with y in *. change (x = x + 1 * fst d) in E1. change (y = y + 1 * (forward c * snd d)) in E2. clear E. destruct c; cbn [forward] in E2; destruct k; cbn [steps app orthogonal diagonal gold_steps In] in Hd;
    repeat (destruct Hd as [<-|Hd]; [cbn [fst snd] in *; lia|]); destruct Hd.
  - assert (E1 := f_equal fst E). assert (E2 := f_equal snd E). unfold displaced in E1, E2. change (x = x + n * fst d) in E1. change (y = y + n * (forward c * snd d)) in E2. clear E. destruct c; cbn [forward] in E2; destruct k; cbn [slides orthogonal diagonal In] in Hd;
    repeat (destruct Hd as [<-|Hd]; [cbn [fst snd] in *; lia|]); destruct Hd.
Qed.
Lemma hand_unpromote k : In k hand_kinds -> unpromote k = k.
Proof. cbn [hand_kinds In]. intros H. repeat (destruct H as [<-|H]; [reflexivity|]). destruct H. Qed.
Lemma promote_unpromote k k' : promote k = Some k' -> unpromote k' = unpromote k /\ k' <> OU /\ k' <> FU /\ forall c t, ~ dead_end c k' t.
Proof. destruct k; cbn [promote]; intros E; inversion E; subst; repeat split; try discriminate; intros c t H; exact H. Qed.

(* no piece is created or destroyed: every kind keeps its number, board and hands together *)
Theorem play_total P m k : (forall c k, ~ In k hand_kinds -> in_hand P c k = 0) -> pseudo_legal P m -> total (play P m) k = total P k.
Proof.
  intros H0 PL. destruct m as [j t|s t pr]; unfold pseudo_legal in PL.
  - destruct PL as (Bt & Et & Hj & _). unfold total, play. rewrite (count_put _ _ _ _ _ _ (in_hand P) (side P) Bt). rewrite Et. cbn [in_hand weight].
    assert (Hu : unpromote j = j).
    { apply hand_unpromote. destruct (in_dec (fun a b => match kind_eqb a b as x return kind_eqb a b = x -> {a = b} + {a <> b} with
         | true => fun E => left (proj1 (kind_eqb_eq a b) E) | false => fun E => right (fun e => diff_false_true (eq_trans (eq_sym E) (proj2 (kind_eqb_eq a b) e))) end eq_refl) j hand_kinds); auto.
      rewrite H0 in Hj by auto. lia. }
    rewrite Hu. unfold add_hand. destruct P as [b h c]. cbn [at_square in_hand side] in *.
    destruct (kind_eqb j k) eqn:E1.
    + apply kind_eqb_eq in E1. subst k. rewrite kind_eqb_refl. destruct c; cbn [color_eqb andb]; lia.
    + assert (E2 : kind_eqb k j = false) by (destruct (kind_eqb k j) eqn:E; [apply kind_eqb_eq in E; subst; rewrite kind_eqb_refl in E1; discriminate|reflexivity]).
      rewrite E2. rewrite !andb_false_r. lia.
  - destruct PL as (Bs & Bt & j & Es & A & Nt & Pr & _). assert (D := attacks_neq _ _ _ _ _ A). unfold total, play. rewrite Es.
    set (moved := Some (side P, if pr then match promote j with Some k' => k' | None => j end else j)).
    assert (W : weight k moved = weight k (at_square P s)).
    { rewrite Es. unfold moved, weight. destruct pr; [|reflexivity]. destruct (promote j) as [j'|] eqn:E; [|reflexivity]. apply promote_unpromote in E as (-> & _). reflexivity. }
    rewrite (count_put _ t _ _ _ _ (in_hand P) (side P) Bt). rewrite (count_put _ s _ _ _ _ (in_hand P) (side P) Bs). rewrite (put_other _ s None t) by auto. cbn [in_hand]. rewrite W.
    destruct P as [b h c]. cbn [at_square in_hand side] in *.
    destruct (b t) as [[c' k']|] eqn:Et; cbn [weight]; [|lia]. unfold add_hand. destruct (kind_eqb (unpromote k') k) eqn:E1.
    + apply kind_eqb_eq in E1. subst k. rewrite kind_eqb_refl. destruct c; cbn [color_eqb andb]; lia.
    + assert (E2 : kind_eqb k (unpromote k') = false) by (destruct (kind_eqb k (unpromote k')) eqn:E; [apply kind_eqb_eq in E; subst; rewrite kind_eqb_refl in E1; discriminate|reflexivity]).
      rewrite E2, !andb_false_r. lia.
Qed.

(* a king is never captured: the side that has just moved is not in check *)
Lemma no_king_capture P s t pr c : proper P -> pseudo_legal P (Go s t pr) -> at_square P t <> Some (c, OU).
Proof.
  intros Pr (Bs & Bt & k & Es & A & Nt & _) E. destruct (color_cases c (side P)) as [->| ->]; [exact (Nt OU E)|].
  apply (pr_safe P Pr). exists t. split; auto. split; auto. exists s. split; auto. rewrite other_other. exists k. auto.
Qed.
Lemma pawn_file (O : square -> Prop) c s t : attacks O c FU s t -> fst s = fst t.
Proof.
  intros [(d & Hd & ->)|(d & n & Hd & _)]; [|destruct Hd]. cbn [steps In] in Hd. destruct Hd as [<-|[]]. unfold displaced. cbn [fst snd]. lia.
Qed.
Lemma put_some b t x s y : put b t x s = Some y -> (s = t /\ x = Some y) \/ (s <> t /\ b s = Some y).
Proof. unfold put. destruct (square_eqb s t) eqn:E; [apply sq_eqb_iff in E; auto|]. intros H. right. split; auto. intros ->. rewrite sq_eqb_refl in E. discriminate. Qed.

Lemma in_hand_kinds_dec k : {In k hand_kinds} + {~ In k hand_kinds}.
Proof. apply in_dec. decide equality. Qed.
Theorem play_proper P m : proper P -> legal_but_drop_mate P m -> proper (play P m).
Proof.
  intros Pr [PL NC]. pose proof Pr as [H1 H2 H3 H4 H5 H6].
  assert (T : forall k, total (play P m) k = total P k) by (intros k; apply play_total; auto).
  assert (S : ~ in_check (play P m) (other (side (play P m)))) by (replace (other (side (play P m))) with (side P) by (destruct m; cbn [play side]; now rewrite other_other); exact NC).
  destruct m as [j t|s t pr].
  - pose proof PL as (Bt & Et & Hj & _).
    assert (Kj : In j hand_kinds) by (destruct (in_hand_kinds_dec j) as [|N]; auto; rewrite H4 in Hj by auto; lia).
    constructor; auto.
    + intros s. cbn [play at_square]. intros Hs. destruct (put _ _ _ s) as [y|] eqn:E; [|contradiction]. apply put_some in E as [[-> _]|[_ E]]; auto. apply H1. congruence.
    + intros c a b Ea Eb. cbn [play at_square] in *. apply put_some in Ea as [[-> Ea]|[_ Ea]]; [inversion Ea; subst; cbn in Kj; intuition discriminate|].
      apply put_some in Eb as [[-> Eb]|[_ Eb]]; [inversion Eb; subst; cbn in Kj; intuition discriminate|]. eapply H2; eauto.
    + intros c k. cbn [play in_hand]. unfold add_hand. specialize (H3 c k). destruct (color_eqb c (side P) && kind_eqb k j) eqn:E; [|lia]. apply andb_prop in E as [E1 E2].
      apply color_eqb_eq in E1. apply kind_eqb_eq in E2. subst. lia.
    + intros c k Nk. cbn [play in_hand]. unfold add_hand. rewrite H4 by auto. destruct (kind_eqb k j) eqn:E; [apply kind_eqb_eq in E; subst; contradiction|]. now rewrite andb_false_r.
    + intros k Hk. rewrite T. auto.
  - pose proof (no_king_capture P s t pr) as NK. assert (PL' := PL). destruct PL as (Bs & Bt & j & Es & A & Nt & Pm & Dm).
    assert (D := attacks_neq _ _ _ _ _ A).
    assert (K : forall c a, at_square (play P (Go s t pr)) a = Some (c, OU) -> (a = t /\ j = OU /\ c = side P) \/ (a <> s /\ a <> t /\ at_square P a = Some (c, OU))).
    { intros c a. cbn [play at_square]. rewrite Es. intros E. apply put_some in E as [[-> E]|[N E]].
      - left. inversion E as [[E1 E2]]. split; auto. split; auto. destruct pr; auto. destruct (promote j) as [j'|] eqn:Ej; auto. apply promote_unpromote in Ej as (_ & N & _). congruence.
      - right. apply put_some in E as [[_ E]|[N' E]]; [discriminate|]. auto. }
    constructor; auto.
    + intros a. cbn [play at_square]. intros Ha. destruct (put _ t _ a) as [y|] eqn:E; [|contradiction]. apply put_some in E as [[-> _]|[_ E]]; auto.
      apply put_some in E as [[-> E]|[_ E]]; [discriminate|]. apply H1. congruence.
    + intros c a b Ka Kb. apply K in Ka as [(-> & -> & ->)|(N1 & N2 & Ka)]; apply K in Kb as [(-> & X & Y)|(N3 & N4 & Kb)]; auto.
      * exfalso. apply N3. eapply H2; eauto.
      * subst. exfalso. apply N1. eapply H2; eauto.
      * eapply H2; eauto.
    + intros c k. cbn [play in_hand]. specialize (H3 c k). destruct (at_square P t) as [[c' k']|]; auto. unfold add_hand. destruct (_ && _); lia.
    + intros c k Nk. cbn [play in_hand]. destruct (at_square P t) as [[c' k']|] eqn:Et; auto. unfold add_hand. rewrite H4 by auto.
      destruct (kind_eqb k (unpromote k')) eqn:E; [|now rewrite andb_false_r]. apply kind_eqb_eq in E. subst k. exfalso. destruct k'; try (apply Nk; cbn; tauto). exact (NK c' Pr PL' eq_refl).
    + intros k Hk. rewrite T. auto.
Qed.
Theorem play_well_formed P m : well_formed P -> legal_but_drop_mate P m -> well_formed (play P m).
Proof.
  intros [Pr W2 W3 W4] L. pose proof (play_proper P m Pr L) as Pr'. constructor; auto; destruct L as [PL NC]; clear Pr' NC; destruct m as [j t|s t pr].
  - intros c. destruct (W2 c) as (a & Ea). exists a. cbn [play at_square]. destruct PL as (_ & Et & _). rewrite put_other; auto. intros ->. congruence.
  - intros c. pose proof (no_king_capture P s t pr) as NK. assert (PL' := PL). destruct PL as (Bs & Bt & j & Es & A & Nt & Pm & Dm).
    destruct (W2 c) as (a & Ea). cbn [play at_square]. rewrite Es. destruct (square_eqb a s) eqn:E.
    + apply sq_eqb_iff in E. subst a. rewrite Es in Ea. inversion Ea; subst. exists t. rewrite put_same. destruct pr; reflexivity.
    + exists a. rewrite put_other by (intros ->; exact (NK c Pr PL' Ea)). rewrite put_other; auto. intros ->. rewrite sq_eqb_refl in E. discriminate.
  - intros a c k. cbn [play at_square]. destruct PL as (_ & _ & _ & Nd & _). intros E. apply put_some in E as [[-> E]|[_ E]]; [inversion E; subst; auto|]. apply (W3 _ _ _ E).
  - intros a c k. destruct PL as (Bs & Bt & j & Es & A & Nt & Pm & Dm). cbn [play at_square]. rewrite Es. intros E. apply put_some in E as [[-> E]|[_ E]].
    + inversion E as [[E1 E2]]. subst c. destruct pr; [|subst; auto]. destruct (Pm eq_refl) as [X _]. destruct (promote j) as [j'|] eqn:Ej; [|contradiction]. apply promote_unpromote in Ej as (_ & _ & _ & N). apply N.
    + apply put_some in E as [[_ E]|[_ E]]; [discriminate|]. apply (W3 _ _ _ E).
  - intros c a b. destruct PL as (Bt & Et & _ & _ & Nf). cbn [play at_square]. intros Ea Eb Ef.
    assert (Q : forall x, fst x = fst t -> at_square P x = Some (side P, FU) -> j = FU -> False).
    { intros x Fx Ex ->. apply (Nf eq_refl x); auto. apply (pr_board P Pr). congruence. }
    apply put_some in Ea as [[-> Ea]|[_ Ea]]; apply put_some in Eb as [[-> Eb]|[_ Eb]]; auto.
    + inversion Ea; subst. exfalso. eapply (Q b); eauto.
    + inversion Eb; subst. exfalso. eapply (Q a); eauto.
    + eapply W4; eauto.
  - intros c a b. destruct PL as (Bs & Bt & j & Es & A & Nt & Pm & Dm). cbn [play at_square]. rewrite Es. intros Ea Eb Ef.
    assert (Q : forall x, x <> s -> fst x = fst t -> at_square P x = Some (side P, FU) -> (if pr then match promote j with Some k' => k' | None => j end else j) = FU -> False).
    { intros x Nx Fx Ex E. assert (j = FU). { destruct pr; auto. destruct (promote j) as [j'|] eqn:Ej; auto. apply promote_unpromote in Ej as (_ & _ & N & _). contradiction. }
      subst j. apply Nx. apply (W4 (side P)); auto. rewrite Fx. symmetry. now apply pawn_file in A. }
    assert (R : forall x, put (put (at_square P) s None) t (Some (side P, if pr then match promote j with Some k' => k' | None => j end else j)) x = Some (c, FU) ->
       (x = t /\ c = side P /\ (if pr then match promote j with Some k' => k' | None => j end else j) = FU) \/ (x <> s /\ at_square P x = Some (c, FU))).
    { intros x E. apply put_some in E as [[-> E]|[_ E]]; [inversion E; auto|]. apply put_some in E as [[_ E]|[N E]]; [discriminate|auto]. }
    apply R in Ea as [(-> & -> & Ea)|[Na Ea]]; apply R in Eb as [(-> & X & Eb)|[Nb Eb]]; auto.
    + exfalso. eapply (Q b); eauto.
    + subst c. exfalso. eapply (Q a); eauto.
    + eapply W4; eauto.
Qed.
