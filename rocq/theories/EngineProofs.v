(* usi.Engine: answers, scores and lines of play are read as the engine wrote them. *)
From Verif Require Export EngineSpec.
From Verif Require Import SfenProofs SfenFinal.
Local Open Scope N_scope.

Lemma same_iff a : forall b, same a b = true <-> a = b.
Proof.
  induction a as [|x a IH]; intros [|y b]; cbn [same]; try (split; intros; (reflexivity || discriminate)). rewrite andb_true_iff, Ascii.eqb_eq, IH. split; [intros [-> ->]; reflexivity|intros E; injection E as -> ->; auto].
Qed.
Lemma same_refl a : same a a = true. Proof. now apply same_iff. Qed.
Lemma same_no a b : a <> b -> same a b = false. Proof. intros H. destruct (same a b) eqn:E; [|reflexivity]. now apply same_iff in E. Qed.
Lemma after_app w l : tailOf w (w ++ l) = Some l.
Proof. induction w as [|c w IH]; [reflexivity|]. cbn [app tailOf]. now rewrite Ascii.eqb_refl. Qed.
Lemma after_some w : forall l r, tailOf w l = Some r -> l = w ++ r.
Proof.
  induction w as [|c w IH]; intros l r H; [now injection H|]. destruct l as [|y l]; [discriminate|]. cbn [tailOf] in H. destruct (Ascii.eqb_spec c y) as [->|]; [|discriminate]. cbn [app]. f_equal. now apply IH.
Qed.
Definition gapless (w : txt) : Prop := Forall (fun c => Ascii.eqb c gap = false) w.
Lemma space_gap c : isSpace c = false -> Ascii.eqb c gap = false.
Proof. intros H. destruct (Ascii.eqb_spec c gap) as [->|]; [discriminate H|reflexivity]. Qed.
Lemma token_gapless w : token w -> gapless w. Proof. intros [_ F]. eapply Forall_impl; [|exact F]. intros c. apply space_gap. Qed.
(* ---- joining and splitting ---- *)
Lemma split_one w : gapless w -> split1 w = [w].
Proof. intros F. induction F as [|c w C F IH]; [reflexivity|]. cbn [split1]. now rewrite C, IH. Qed.
Lemma split_cons w l : gapless w -> split1 (w ++ gap :: l) = w :: split1 l.
Proof. intros F. induction F as [|c w C F IH]; [reflexivity|]. cbn [app split1]. now rewrite C, IH. Qed.
Lemma join_cons w v ws : join (w :: v :: ws) = w ++ gap :: join (v :: ws). Proof. reflexivity. Qed.
Lemma split_join ws : ws <> [] -> Forall gapless ws -> split1 (join ws) = ws.
Proof.
  intros N F. induction F as [|w ws G F IH]; [contradiction|]. destruct ws as [|v ws]; [exact (split_one w G)|]. rewrite join_cons, (split_cons w _ G), IH by discriminate. reflexivity.
Qed.
Definition flat (ws : list txt) : txt := List.concat (map (fun w => w ++ [gap]) ws).
Lemma flat_cons w ws l : flat (w :: ws) ++ l = w ++ gap :: flat ws ++ l. Proof. unfold flat. cbn [map List.concat]. now rewrite <- !app_assoc. Qed.
Lemma join_app ws vs : vs <> [] -> join (ws ++ vs) = flat ws ++ join vs.
Proof.
  intros N. induction ws as [|w ws IH]; [reflexivity|]. rewrite flat_cons, <- IH. cbn [app]. destruct (ws ++ vs) as [|x l] eqn:E; [|reflexivity]. apply app_eq_nil in E as [_ E]. contradiction.
Qed.
Lemma flat_join ws : ws <> [] -> flat ws = join ws ++ [gap].
Proof.
  induction ws as [|w ws IH]; [contradiction|]. intros _. destruct ws as [|v ws]; [unfold flat; cbn [map List.concat join]; now rewrite app_nil_r|].
  rewrite <- (app_nil_r (flat _)), flat_cons, app_nil_r, IH by discriminate. rewrite join_cons, <- app_assoc. reflexivity.
Qed.
(* ---- stripping ---- *)
Definition edged (l : txt) : Prop := (exists c t, l = c :: t /\ isSpace c = false) /\ exists d s, rev l = d :: s /\ isSpace d = false.
Lemma token_edged w : token w -> edged w.
Proof.
  intros [N F]. split; [destruct w as [|c t]; [contradiction|]; inversion F; eauto|]. apply Forall_rev in F. destruct (rev w) as [|d s] eqn:E; [|inversion F; eauto]. apply (f_equal (@rev ascii)) in E. rewrite rev_involutive in E. contradiction.
Qed.
Lemma edged_more w l : edged w -> edged l -> edged (w ++ gap :: l).
Proof.
  intros [(c & t & -> & C) _] [_ (d & s & E & D)]. split; [exists c, (t ++ gap :: l); split; [reflexivity|exact C]|]. exists d, (s ++ [gap] ++ rev (c :: t)). split; [|exact D].
  rewrite rev_app_distr. cbn [rev]. rewrite E. cbn [app]. now rewrite <- app_assoc.
Qed.
Lemma edged_join ws : ws <> [] -> Forall token ws -> edged (join ws).
Proof. intros N F. induction F as [|w ws T F IH]; [contradiction|]. destruct ws as [|v ws]; [exact (token_edged w T)|]. rewrite join_cons. apply edged_more; [now apply token_edged|apply IH; discriminate]. Qed.
Lemma skip_all sp l : Forall (fun c => isSpace c = true) sp -> skipSpaces (sp ++ l) = skipSpaces l.
Proof. intros F. induction F as [|c sp C F IH]; [reflexivity|]. cbn [app skipSpaces]. now rewrite C. Qed.
Lemma strip_edged l sp : edged l -> Forall (fun c => isSpace c = true) sp -> pyStrip (l ++ sp) = l.
Proof.
  intros [(c & t & E & C) (d & s & R & D)] S. unfold pyStrip. assert (X : skipSpaces (l ++ sp) = l ++ sp) by (rewrite E; cbn [app skipSpaces]; now rewrite C). rewrite X, rev_app_distr, (skip_all _ _ (Forall_rev S)), R. cbn [skipSpaces]. rewrite D, <- R.
  apply rev_involutive.
Qed.
(* ---- the pattern of info lines ---- *)
Definition ahead (w l : txt) (x : option (txt * txt)) : option (txt * txt) := match x with Some (a, p) => Some (w ++ gap :: a, p) | None => None end.
Lemma pv_inside t l : gapless t -> lastPv false (t ++ gap :: l) = ahead t l (lastPv true l).
Proof.
  intros F. induction F as [|c t C F IH]; [cbn [app lastPv]; rewrite Ascii.eqb_refl; destruct (lastPv true l) as [[a p]|]; reflexivity|]. cbn [app lastPv]. rewrite C, IH. destruct (lastPv true l) as [[a p]|]; reflexivity.
Qed.
Lemma no_pv_gap w l : gapless w -> w <> tx "pv" -> tailOf (tx "pv ") (w ++ gap :: l) = None.
Proof.
  intros F N. destruct (tailOf (tx "pv ") (w ++ gap :: l)) as [r|] eqn:E; [|reflexivity]. exfalso. apply after_some in E. cbn in E. destruct w as [|a [|b [|c w]]]; cbn [app] in E.
  - injection E as E1 E2. discriminate E1.
  - injection E as E1 E2. discriminate E2.
  - injection E as -> -> E2. now apply N.
  - assert (c = gap) as -> by (now injection E). inversion F as [|? ? _ F1]. inversion F1 as [|? ? _ F2]. inversion F2 as [|? ? X _]. now rewrite Ascii.eqb_refl in X.
Qed.
Lemma no_pv_end w : gapless w -> tailOf (tx "pv ") w = None.
Proof.
  intros F. destruct (tailOf (tx "pv ") w) as [r|] eqn:E; [|reflexivity]. exfalso. apply after_some in E. cbn in E. subst w. inversion F as [|? ? _ F1]. inversion F1 as [|? ? _ F2]. inversion F2 as [|? ? X _]. now rewrite Ascii.eqb_refl in X.
Qed.
Lemma pv_word (free : bool) w l : gapless w -> w <> [] -> w <> tx "pv" -> lastPv free (w ++ gap :: l) = ahead w l (lastPv true l).
Proof.
  intros F N P. pose proof (no_pv_gap w l F P) as A. destruct F as [|c t C F]; [contradiction|]. cbn [app] in *. cbn [lastPv]. rewrite C, (pv_inside t l F), A. destruct (lastPv true l) as [[a p]|]; [reflexivity|]. cbn [ahead]. now destruct free.
Qed.
Lemma pv_end (free : bool) w : gapless w -> lastPv free w = None.
Proof.
  intros F. revert free. induction F as [|c t C F IH]; intros free; [reflexivity|]. cbn [lastPv]. rewrite C, IH. rewrite (no_pv_end (c :: t)) by (constructor; assumption). now destruct free.
Qed.
Lemma pv_none ms : Forall (fun w => token w /\ w <> tx "pv") ms -> forall free, lastPv free (join ms) = None.
Proof.
  intros F. induction F as [|w ms [T N] F IH]; intros free; [reflexivity|]. pose proof (token_gapless w T) as G. destruct ms as [|v ms]; [exact (pv_end free w G)|]. rewrite join_cons, (pv_word free w _ G (proj1 T) N), IH. reflexivity.
Qed.
Lemma pv_found ws m ms : Forall (fun w => token w /\ w <> tx "pv") ws -> Forall (fun w => token w /\ w <> tx "pv") (m :: ms) ->
  lastPv true (flat ws ++ tx "pv " ++ join (m :: ms)) = Some (flat ws, join (m :: ms)).
Proof.
  intros F M. induction F as [|w ws [T N] F IH].
  - change (flat []) with (@nil ascii). cbn [app]. change (tx "pv " ++ join (m :: ms)) with ("p"%char :: "v"%char :: gap :: join (m :: ms)).
    assert (X : lastPv true (join (m :: ms)) = None) by (now apply pv_none). cbn [lastPv]. change (Ascii.eqb "p" gap) with false. change (Ascii.eqb "v" gap) with false. change (Ascii.eqb gap gap) with true. rewrite X.
    change (tailOf (tx "pv ") ("p"%char :: "v"%char :: gap :: join (m :: ms))) with (Some (join (m :: ms))).
    assert (Ed : edged (join (m :: ms))) by (apply edged_join; [discriminate|eapply Forall_impl; [|exact M]; now intros w [T _]]). destruct Ed as [(c & t & -> & C) _]. now rewrite C.
  - rewrite flat_cons, (pv_word true w _ (token_gapless w T) (proj1 T) N), IH. cbn [ahead]. rewrite <- (app_nil_r (flat (w :: ws))), flat_cons, app_nil_r. reflexivity.
Qed.
(* ---- numbers ---- *)
Lemma printN_digits n : printN n <> [] /\ Forall (fun c => isDigit c = true) (printN n) /\ readDigits (printN n) 0 = n.
Proof.
  destruct (numeral_chars _ _ (printN_numeral n)) as (A & F & V). unfold la, sa in *. rewrite list_ascii_of_string_of_list_ascii in *. split; [|split; [exact F|]].
  - destruct (printN n); [contradiction|discriminate].
  - rewrite (readDigits_all _ 0 F). lia.
Qed.
Lemma digits_int n : digitsInt (printN n) = Some (Z.of_N n).
Proof.
  destruct (printN_digits n) as (A & F & V). unfold digitsInt. assert (X : forallb isDigit (printN n) = true) by (apply forallb_forall; apply Forall_forall; exact F). destruct (printN n) as [|c t] eqn:E; [contradiction|]. now rewrite X, V.
Qed.
Lemma int_back n : pyInt (printZ n) = Some n.
Proof.
  unfold printZ. destruct (Z.ltb_spec n 0) as [L|L].
  - cbn [pyInt]. rewrite Ascii.eqb_refl, digits_int. cbn [option_map]. f_equal. lia.
  - rewrite <- (Z2N.id n L) at 2. rewrite <- digits_int. destruct (printN_digits (Z.to_N n)) as (A & F & _). destruct (printN (Z.to_N n)) as [|c t]; [contradiction|]. cbn [pyInt].
    inversion F as [|? ? C _]. destruct (Ascii.eqb_spec c "-") as [->|]; [discriminate C|]. destruct (Ascii.eqb_spec c "+") as [->|]; [discriminate C|]. reflexivity.
Qed.
Lemma digit_solid c : isDigit c = true -> isSpace c = false.
Proof. unfold isDigit, isSpace. rewrite andb_true_iff, !N.leb_le. intros [A B]. apply orb_false_iff. split; [apply N.eqb_neq; lia|]. apply andb_false_iff. right. apply N.leb_gt. lia. Qed.
Lemma number_token n : token (printZ n) /\ printZ n <> tx "pv".
Proof.
  assert (X : forall k, token (printN k)) by (intros k; destruct (printN_digits k) as (A & F & _); split; [exact A|]; eapply Forall_impl; [|exact F]; exact digit_solid).
  split.
  - unfold printZ. destruct (n <? 0)%Z; [|apply X]. split; [discriminate|]. constructor; [reflexivity|apply X].
  - intros E. pose proof (int_back n) as I. rewrite E in I. discriminate I.
Qed.
