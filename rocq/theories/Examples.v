(* A checker for concrete games, used to show that the hypotheses of the property theorems are met. *)
From Verif Require Export Decide PseudoN ViewsOut.
Local Open Scope N_scope.
Local Opaque N.mul N.add N.sub N.div N.modulo.

Fixpoint runB (dbl : bool) (z : Zob) (b : Board) (line : list (option move)) (es : list event) : option (Board * list (option move)) :=
  match es with
  | [] => Some (b, line)
  | Play m :: es => if legal0B (bpos b) m then runB dbl z (push z b (code (bpos b) m)) (Some m :: line) es else None
  | Unplay :: es => match line with Some _ :: l => match pop b with Some (b', _) => runB dbl z b' l es | None => None end | _ => None end
  | Pass :: es => if dbl || (match line with None :: _ => false | _ => true end)
                  then match pushPass b with Some b' => runB dbl z b' (None :: line) es | None => None end else None
  | Unpass :: es => match line with None :: l => match popPass b with Some b' => runB dbl z b' l es | None => None end | _ => None end
  end.
Definition mayB (dbl : bool) : list (option move) -> Prop := if dbl then any_pass else no_double_pass.
Lemma runB_ok dbl z b0 : okZob z -> set_up z b0 -> forall es2 es1 b line b' line',
  game (mayB dbl) (abs (bpos b0)) es1 line -> calls z b0 es1 = Some b -> runB dbl z b line es2 = Some (b', line') ->
  game (mayB dbl) (abs (bpos b0)) (es1 ++ es2) line' /\ calls z b0 (es1 ++ es2) = Some b'.
Proof.
  intros Z SU. destruct (set_up_ok z b0 SU) as (G0 & C0 & _). induction es2 as [|e es2 IH]; intros es1 b line b' line' G E R.
  - rewrite app_nil_r. cbn [runB] in R. injection R as <- <-. auto.
  - destruct (game_ok _ z b0 es1 line Z G0 C0 G) as (b1 & E1 & Gb & Cb & S & Ch). rewrite E in E1. injection E1 as <-.
    replace (es1 ++ e :: es2) with ((es1 ++ [e]) ++ es2) by (now rewrite <- app_assoc). destruct e as [m| | |]; cbn [runB] in R.
    + destruct (legal0B (bpos b) m) eqn:L; [|discriminate]. apply legal0B_iff in L; auto. eapply IH; [..|exact R].
      * apply g_play; auto. eapply legal0_same; eauto.
      * now rewrite calls_app, E.
    + destruct line as [|[m|] l]; try discriminate. destruct (pop b) as [[b2 m2]|] eqn:P; [|discriminate]. eapply IH; [..|exact R].
      * eapply g_unplay; eauto.
      * rewrite calls_app, E. cbn [callOf step]. now rewrite P.
    + destruct (dbl || _) eqn:D; [|discriminate]. destruct (pushPass b) as [b2|] eqn:P; [|discriminate]. eapply IH; [..|exact R].
      * apply g_pass; auto.
        -- unfold pushPass in P. destruct (inCheck (bpos b)) eqn:N; [discriminate|]. intros X. apply not_true_iff_false in N. apply N. apply (inCheck_exact z); auto.
           rewrite (proj2 (proj2 S)). eapply in_check_same; [apply same_sym; exact S|exact X].
        -- destruct dbl; [exact I|]. destruct line as [|[m|] l]; try exact I. discriminate D.
      * rewrite calls_app, E. exact P.
    + destruct line as [|[m|] l]; try discriminate. destruct (popPass b) as [b2|] eqn:P; [|discriminate]. eapply IH; [..|exact R].
      * eapply g_unpass; eauto.
      * rewrite calls_app, E. exact P.
Qed.

(* tables used in examples *)
Definition z0 : Zob := initZobrist (fun pt sq c => (pt * 6364136223846793005 + sq * 1442695040888963407 + c * 99990001) mod 18446744073709551616)
                                   (fun hp c => (hp * 88172645463325252 + c * 2685821657736338717 + 77) mod 18446744073709551616).
Lemma okZob0 : okZob z0. Proof. apply okZob_init. Qed.

(* pawn, pawn, bishop takes bishop, taken back, a pass taken back, bishop promotes with check, king moves away *)
Definition demoGame : list event :=
  [Play (Go (7, 7) (7, 6) false); Play (Go (3, 3) (3, 4) false); Play (Go (8, 8) (2, 2) true); Unplay; Pass; Unpass;
   Play (Go (8, 8) (3, 3) true); Play (Go (5, 1) (6, 2) false)]%Z.
Definition demoLine : list (option move) :=
  [Some (Go (5, 1) (6, 2) false); Some (Go (8, 8) (3, 3) true); Some (Go (3, 3) (3, 4) false); Some (Go (7, 7) (7, 6) false)]%Z.
Definition demoBoard : Board := replay z0 (startBoard z0) demoLine.
Lemma demo_runs : option_map snd (runB false z0 (startBoard z0) [] demoGame) = Some demoLine.
Proof. vm_compute. reflexivity. Qed.
Lemma demo_game : game no_double_pass (abs (bpos (startBoard z0))) demoGame demoLine.
Proof.
  pose proof demo_runs as R. destruct (runB false z0 (startBoard z0) [] demoGame) as [[b l]|] eqn:E; [|discriminate R]. cbn [option_map snd] in R. injection R as ->.
  exact (proj1 (runB_ok false z0 (startBoard z0) okZob0 (start_set_up z0) demoGame [] (startBoard z0) [] b demoLine (g_start _ _) eq_refl E)).
Qed.
Lemma game_weaken P es line : game no_double_pass P es line -> game any_pass P es line.
Proof. intros G. induction G; [apply g_start|now apply g_play|eapply g_unplay; eauto|apply g_pass; auto; exact I|eapply g_unpass; eauto]. Qed.
Lemma demo_game_any : game any_pass (abs (bpos (startBoard z0))) demoGame demoLine.
Proof. exact (game_weaken _ _ _ demo_game). Qed.
Lemma demo_reachable : reachable z0 demoBoard.
Proof.
  exists (startBoard z0), demoGame, demoLine. split; [apply start_set_up|]. split; [exact demo_game_any|]. destruct (set_up_ok z0 _ (start_set_up z0)) as (G & C & K & _).
  exact (game_exact z0 (startBoard z0) demoGame demoLine okZob0 G C K demo_game).
Qed.
(* after 7g7f 3c3d: the bishop may take the bishop, promoting *)
Definition demo2 : Board := replay z0 (startBoard z0) [Some (Go (3, 3) (3, 4) false); Some (Go (7, 7) (7, 6) false)]%Z.
Definition demo2_takes : move := Go (8, 8)%Z (2, 2)%Z true.
Definition demo2_checks : move := Go (8, 8)%Z (3, 3)%Z true.
Lemma demo2_runs : option_map snd (runB false z0 (startBoard z0) [] [Play (Go (7, 7) (7, 6) false); Play (Go (3, 3) (3, 4) false)]%Z) = Some [Some (Go (3, 3) (3, 4) false); Some (Go (7, 7) (7, 6) false)]%Z.
Proof. vm_compute. reflexivity. Qed.
Lemma demo2_game : game no_double_pass (abs (bpos (startBoard z0))) [Play (Go (7, 7) (7, 6) false); Play (Go (3, 3) (3, 4) false)]%Z [Some (Go (3, 3) (3, 4) false); Some (Go (7, 7) (7, 6) false)]%Z.
Proof.
  pose proof demo2_runs as R. destruct (runB false z0 (startBoard z0) [] _) as [[b l]|] eqn:E; [|discriminate R]. cbn [option_map snd] in R. injection R as ->.
  exact (proj1 (runB_ok false z0 (startBoard z0) okZob0 (start_set_up z0) _ [] (startBoard z0) [] b _ (g_start _ _) eq_refl E)).
Qed.
Lemma demo2_reachable : reachable z0 demo2.
Proof.
  eexists (startBoard z0), _, _. split; [apply start_set_up|]. split; [exact (game_weaken _ _ _ demo2_game)|]. destruct (set_up_ok z0 _ (start_set_up z0)) as (G & C & K & _).
  exact (game_exact z0 (startBoard z0) _ _ okZob0 G C K demo2_game).
Qed.
Lemma demo2_legal : legal0B (bpos demo2) demo2_takes && legal0B (bpos demo2) demo2_checks = true.
Proof. vm_compute. reflexivity. Qed.
Lemma demo2_takes_legal : legal_but_drop_mate (abs (bpos demo2)) demo2_takes.
Proof. apply legal0B_iff; [exact (proj1 (reachable_ok z0 demo2 okZob0 demo2_reachable))|]. exact (proj1 (andb_prop _ _ demo2_legal)). Qed.
Lemma demo2_checks_legal : legal_but_drop_mate (abs (bpos demo2)) demo2_checks.
Proof. apply legal0B_iff; [exact (proj1 (reachable_ok z0 demo2 okZob0 demo2_reachable))|]. exact (proj2 (andb_prop _ _ demo2_legal)). Qed.

Definition demo2_line : list (option move) := [Some (Go (3, 3) (3, 4) false); Some (Go (7, 7) (7, 6) false)]%Z.
Lemma demo2_pass_runs : option_map snd (runB false z0 (startBoard z0) [] [Play (Go (7, 7) (7, 6) false); Play (Go (3, 3) (3, 4) false); Pass]%Z) = Some (None :: demo2_line).
Proof. vm_compute. reflexivity. Qed.
Lemma demo2_quiet : let P := after (abs (bpos (startBoard z0))) demo2_line in ~ in_check P (side P).
Proof.
  pose proof demo2_pass_runs as R. destruct (runB false z0 (startBoard z0) [] _) as [[b l]|] eqn:E; [|discriminate R]. cbn [option_map snd] in R. injection R as ->.
  exact (proj1 (game_line _ _ _ _ (proj1 (runB_ok false z0 (startBoard z0) okZob0 (start_set_up z0) _ [] (startBoard z0) [] b _ (g_start _ _) eq_refl E)))).
Qed.
