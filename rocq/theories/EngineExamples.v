(* Lines of an engine. *)
From Verif Require Export CommandExamples EngineFinal.
Local Open Scope N_scope.

Definition report1 : report := mkReport [(tx "depth", 5%Z)] (Cp (-30)) [(tx "nodes", 1200%Z)] (tx "7g7f") [tx "3c3d"].
Definition report2 : report := mkReport [(tx "depth", 6%Z)] (Mate 9) [] (tx "2g2f") [].
Definition report3 : report := mkReport [(tx "depth", 7%Z)] (Cp 44) [(tx "nps", 800%Z)] (tx "7g7f") [tx "8c8d"; tx "2g2f"].
Definition search : list said := [Report report1; Other (tx "checking"); Report report3; Report report2].
Definition tokenB (l : txt) : bool := match l with [] => false | _ => forallb (fun c => negb (isSpace c)) l end.
Lemma tokenB_ok l : tokenB l = true -> token l.
Proof. destruct l as [|c l]; [discriminate|]. intros A. split; [discriminate|]. apply Forall_forall. unfold tokenB in A. rewrite forallb_forall in A. intros x I. apply negb_true_iff. now apply A. Qed.
Definition plainB (l : txt) : bool := tokenB l && forallb (fun w => negb (same l w)) [tx "pv"; tx "string"; tx "score"; tx "cp"; tx "mate"].
Lemma plainB_ok l : plainB l = true -> plain_name l.
Proof. intros H. apply andb_true_iff in H as [A B]. split; [now apply tokenB_ok|]. rewrite forallb_forall in B. intros I. specialize (B l I). now rewrite same_refl in B. Qed.
Definition moveB (l : txt) : bool := tokenB l && negb (same l (tx "pv")).
Lemma moveB_ok l : moveB l = true -> token l /\ l <> tx "pv".
Proof. intros H. apply andb_true_iff in H as [A B]. split; [now apply tokenB_ok|]. intros E. rewrite E in B. discriminate B. Qed.
Definition reportB (r : report) : bool := forallb (fun x => plainB (fst x)) (rFirst r) && forallb (fun x => plainB (fst x)) (rThen r) && forallb moveB (rMove r :: rRest r).
Lemma reportB_ok r : reportB r = true -> proper_report r.
Proof.
  intros H. apply andb_true_iff in H as [H C]. apply andb_true_iff in H as [A B]. rewrite forallb_forall in A, B, C. split; [|split]; apply Forall_forall; intros x I; [apply plainB_ok; now apply A|apply plainB_ok; now apply B|apply moveB_ok; now apply C].
Qed.
Lemma search_proper : Forall proper_said search.
Proof. constructor; [exact (reportB_ok report1 eq_refl)|]. constructor; [intros r E; discriminate E|]. constructor; [exact (reportB_ok report3 eq_refl)|]. constructor; [exact (reportB_ok report2 eq_refl)|constructor]. Qed.
Lemma go_no_info : forall r, tx "go btime 0" <> tx "info " ++ r. Proof. intros r E. discriminate E. Qed.
Lemma move_token : token (tx "7g7f"). Proof. now apply tokenB_ok. Qed.
Lemma search_last : last_report (tx "7g7f") search = Some report3. Proof. reflexivity. Qed.
Lemma search_line : report_line report1 = tx "info depth 5 score cp -30 nodes 1200 pv 7g7f 3c3d". Proof. vm_compute. reflexivity. Qed.
Lemma search_goes_on : Forall (fun l => ~ ends_search l) (map line_of search).
Proof. unfold search. cbn [map line_of]. do 4 (constructor; [intros [r E]; vm_compute in E; discriminate E|]). constructor. Qed.
(* a mate whose length the engine does not know *)
Lemma mate_unknown ms : score ms (fold_left hear [tx "info depth 5 score mate + pv 7g7f"; tx "bestmove 7g7f"] listen) = Thrown /\
  score ms (fold_left hear [tx "info depth 5 score mate - nodes 20 pv 7g7f"; tx "bestmove 7g7f"] listen) = Thrown.
Proof. split; vm_compute; reflexivity. Qed.
Lemma pv_alone ms : let l := fold_left hear [tx "info pv 7g7f"; tx "bestmove 7g7f"] listen in score ms l = Thrown /\ pv l = Done (Some [tx "7g7f"]).
Proof. split; vm_compute; reflexivity. Qed.
Lemma two_moves : twoMoves <> []. Proof. discriminate. Qed.
