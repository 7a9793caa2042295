(* Games for the KI2 exporter and reader. *)
From Verif Require Export Ki2Examples KifExamples Ki2GameProofs.
Local Open Scope N_scope.

(* the first move has a comment *)
Definition note (ms : list N) : list noted := match ms with m :: ms => mkNoted m (Some (u "定跡")) :: map (fun m => mkNoted m None) ms | [] => [] end.
Definition twoNoted : list noted := note (ki2_codes z0 start1 twoMoves).
Lemma played_note ms : played (note ms) = ms.
Proof. destruct ms as [|m ms]; [reflexivity|]. unfold played. cbn [note map nMove]. f_equal. rewrite map_map. apply map_id. Qed.
Lemma two_noted : clear_game z0 start1 (played twoNoted). Proof. unfold twoNoted. rewrite played_note. exact two_clear. Qed.
Lemma start1_ply : (0 < gamePly (bpos start1))%Z. Proof. vm_compute. reflexivity. Qed.
Lemma two_comments : map comment_of twoNoted = [Some (u "定跡"); None]. Proof. reflexivity. Qed.
Lemma two_texts : exportNotes z0 start1 twoNoted = Done [u "▲７六歩"; u "**定跡"; u "△３四歩"]. Proof. vm_compute. reflexivity. Qed.
Lemma handicap_ply : (gamePly (bpos handicap) <= 0)%Z. Proof. vm_compute. discriminate. Qed.
