(* Concrete games for CSA.Exporter, and texts it writes that are not read back. *)
From Verif Require Export ExportProofs.
Local Open Scope N_scope.

Fixpoint codes_of (z : Zob) (b : Board) (ms : list move) : list N := match ms with [] => [] | m :: ms => code (bpos b) m :: codes_of z (push z b (code (bpos b) m)) ms end.
Lemma plays_codes z ms : okZob z -> forall b, reachable z b -> well_formed (abs (bpos b)) -> legal_moves (abs (bpos b)) ms -> plays z b (codes_of z b ms).
Proof.
  intros Z. induction ms as [|m ms IH]; intros b R W L; [exact I|]. destruct L as [L1 L2]. destruct (push_wf z b m Z R W L1) as [R1 W1]. cbn [codes_of plays].
  split; [exact (proj1 (proj2 (moves_complete z b Z R (wf_playable _ W))) m L1)|]. apply IH; auto. eapply legal_moves_same; [apply same_sym; exact (push_same z b m Z R L1)|exact L2].
Qed.
Lemma two_codes : codes_of z0 start1 twoMoves = [73275; 68117]. Proof. vm_compute. reflexivity. Qed.
Definition told1 : told := mkTold 73275 (Some 12%Z) (Scored 30 "30 +7776FU").
Definition told2 : told := mkTold 68117 None (Beside "well").
Definition someGame : exported := mkExported "V2.2" ["alice"; "bob"]%string [("EVENT", "final")]%string "hello" [told1; told2] (Some ("%TORYO"%string, Some 5%Z)).
Definition otherGame : exported := mkExported "" [] [] "" [] None.
Definition someSession : session := mkSession (FromBoard start1) start1 someGame.
Definition otherSession : session := mkSession (FromBoard someHands) someHands otherGame.
Lemma some_told : Forall told_ok [told1; told2].
Proof.
  constructor; [|constructor; [|constructor]]; (split; [|split]).
  - intros n E. injection E as <-. unfold int_max. lia.
  - split; [apply one_small; reflexivity|]. split; [reflexivity|]. exists "30"%string, " +7776FU"%string. split; [reflexivity|]. split; [right; exists "+7776FU"%string; reflexivity|]. split; [exact (int_plus _ _ num30)|unfold int_max; lia].
  - intros c E. discriminate.
  - intros n E. discriminate.
  - split; [apply one_small; reflexivity|discriminate].
  - reflexivity.
Qed.
Lemma some_game_ok : exported_ok someGame.
Proof.
  constructor; cbn [someGame x_version x_names x_vars x_comment x_moves x_end].
  - split; [apply one_small; reflexivity|right; exists "2.2"%string; reflexivity].
  - split; [repeat constructor; apply one_small; reflexivity|cbn; lia].
  - constructor; [|constructor]. split; apply one_small; reflexivity.
  - split; [apply one_small; reflexivity|]. split; [intros [t E]; discriminate|]. right. apply small_comment. reflexivity.
  - exact some_told.
  - intros w t E. injection E as <- <-. split; [apply one_small; reflexivity|]. split; [exists "TORYO"%string; reflexivity|]. split; [intros H; cbn in H; intuition discriminate|]. intros n E. injection E as <-. unfold int_max. lia.
Qed.
Lemma some_session_ok : session_ok z0 someSession.
Proof.
  constructor; cbn [someSession s_init s_board s_game].
  - exact (set_up_reachable _ _ start1_set_up).
  - exact start1_wf.
  - reflexivity.
  - change (map t_code (x_moves someGame)) with [73275; 68117]. rewrite <- two_codes. exact (plays_codes z0 twoMoves okZob0 start1 (set_up_reachable _ _ start1_set_up) start1_wf two_legal1).
  - exact some_game_ok.
Qed.
Lemma hands_wf_run : wellFormedB (bpos someHands) = true. Proof. vm_compute. reflexivity. Qed.
Lemma other_session_ok : session_ok z0 otherSession.
Proof.
  constructor; cbn [otherSession s_init s_board s_game].
  - exact some_reachable.
  - exact (wellFormedB_ok _ (proj1 (reachable_ok z0 someHands okZob0 some_reachable)) hands_wf_run).
  - reflexivity.
  - exact I.
  - constructor; cbn [otherGame x_version x_names x_vars x_comment x_moves x_end]; [split; [intros []|now left]|split; [constructor|cbn; lia]|constructor| |constructor|discriminate].
    split; [intros []|]. split; [intros [t E]; discriminate|now left].
Qed.
(* the text itself *)
Lemma some_text : exists e, export_game z0 (FromBoard start1) someGame newExporter = Done e /\
  fText e = ended ["V2.2"; "N+alice"; "N-bob"; "'hello"; "$EVENT:final"; "PI"; "+"; "+7776FU"; "T12"; "'** 30 +7776FU"; "-3334FU,'well"; "%TORYO"; "T5"]%string.
Proof. eexists. split; vm_compute; reflexivity. Qed.

(* ---- what is not read back ---- *)
Lemma sfen_raises z s names vars comment version e e' : s <> ""%string -> s <> startSfen -> exportInfo z (FromSfen s) names vars comment version e <> Done e'.
Proof.
  intros A B. unfold exportInfo. destruct (String.eqb_spec s ""); [easy|]. destruct (String.eqb_spec s startSfen); [easy|]. destruct (setSfen z s); discriminate.
Qed.
Definition quotedGame : exported := mkExported "" [] [] "'hi" [] None.
Lemma quoted_lost stof : exists e, export_game z0 NoBoard quotedGame newExporter = Done e /\ fText e = ended ["'hiPI"; "+"]%string /\ parseCsa z0 stof (fText e) = Undefined.
Proof. eexists. split; [vm_compute; reflexivity|]. split; vm_compute; reflexivity. Qed.
Lemma comma_lost stof : exists e1 e g, exportInfo z0 NoBoard [] [] "" "" newExporter = Done e1 /\ exportMove 73275 (Some 12%Z) "well" "," e1 = Done e /\ fText e = ended ["PI"; "+"; "+7776FU,T12,'well"]%string /\
  parseCsa z0 stof (fText e) = Done g /\ gMoves g = [73275] /\ gTimes g = [0%Z] /\ gComments g = [""%string].
Proof. do 3 eexists. split; [vm_compute; reflexivity|]. split; [vm_compute; reflexivity|]. split; [vm_compute; reflexivity|]. split; [vm_compute; reflexivity|]. repeat split; vm_compute; reflexivity. Qed.
Lemma move_first m time comment sep : exportMove m time comment sep newExporter = Thrown. Proof. reflexivity. Qed.
