(* C50: game records written with CSA.Exporter are read back by the reader.  Export.v has the exporter's methods;
   ExportSpec.v has what a program tells it ("session"), when that is in order ("session_ok": the moves are integers of
   the list of legal moves, texts are single lines) and what the reader has to report ("reported").  stof stands for
   std::stof.  Proofs in ExportProofs.v, concrete games in ExportExamples.v. *)
From Verif Require Import ExportExamples.
Local Open Scope N_scope.

(* one game: the same start, integers, times, scores, comments, names and result *)
Theorem C50_game : forall rp rh stof s, let z := initZobrist rp rh in session_ok z s ->
  exists e g, export_game z (s_init s) (s_game s) newExporter = Done e /\ parseCsa z stof (fText e) = Done g /\ reported z (s_board s) (s_game s) g.
Proof. exact (fun rp rh stof s => game_read (initZobrist rp rh) stof s (okZob_init rp rh)). Qed.
Print Assumptions C50_game.
(* any number of games in one file *)
Theorem C50_games : forall rp rh stof ss, let z := initZobrist rp rh in ss <> [] -> Forall (session_ok z) ss ->
  exists e gs, export_games z ss newExporter = Done e /\ parseStr z stof (fText e) = Done gs /\ Forall2 (fun s g => reported z (s_board s) (s_game s) g) ss gs.
Proof. exact (fun rp rh stof ss => games_read (initZobrist rp rh) stof ss (okZob_init rp rh)). Qed.
Print Assumptions C50_games.
Example C50_case : session_ok z0 someSession /\ Forall (session_ok z0) [someSession; otherSession] /\ map t_code (x_moves (s_game someSession)) = [73275; 68117].
Proof. exact (conj some_session_ok (conj (Forall_cons _ some_session_ok (Forall_cons _ other_session_ok (Forall_nil _))) eq_refl)). Qed.
Example C50_text_case : exists e, export_game z0 (FromBoard start1) someGame newExporter = Done e /\
  fText e = ended ["V2.2"; "N+alice"; "N-bob"; "'hello"; "$EVENT:final"; "PI"; "+"; "+7776FU"; "T12"; "'** 30 +7776FU"; "-3334FU,'well"; "%TORYO"; "T5"]%string.
Proof. exact some_text. Qed.

(* an SFEN text other than the starting one makes info raise *)
Theorem C50_sfen_refuted : forall z s names vars comment version e e', s <> ""%string -> s <> startSfen -> exportInfo z (FromSfen s) names vars comment version e <> Done e'.
Proof. exact sfen_raises. Qed.
Print Assumptions C50_sfen_refuted.
(* a comment that begins with an apostrophe swallows the next line; reading the file then uses cells that were never set *)
Theorem C50_quoted_refuted : forall stof, exists e, export_game z0 NoBoard quotedGame newExporter = Done e /\ fText e = ended ["'hiPI"; "+"]%string /\ parseCsa z0 stof (fText e) = Undefined.
Proof. exact quoted_lost. Qed.
Print Assumptions C50_quoted_refuted.
(* with the separator "," and a time, both the time and the comment are lost *)
Theorem C50_comma_refuted : forall stof, exists e1 e g, exportInfo z0 NoBoard [] [] "" "" newExporter = Done e1 /\ exportMove 73275 (Some 12%Z) "well" "," e1 = Done e /\ fText e = ended ["PI"; "+"; "+7776FU,T12,'well"]%string /\
  parseCsa z0 stof (fText e) = Done g /\ gMoves g = [73275] /\ gTimes g = [0%Z] /\ gComments g = [""%string].
Proof. exact comma_lost. Qed.
Print Assumptions C50_comma_refuted.
