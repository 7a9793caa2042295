(* C57: the other exchanges with a USI engine.  TalkSpec.v says what is claimed; the proofs are in TalkProofs.v. *)
From Verif Require Import TalkProofs EngineExamples.

(* connect takes the last name the engine gives before usiok, and reads no further. *)
Theorem C57_name : forall xs sp rest, Forall proper_greeting xs -> all_space sp -> exists n, forall k, connectLoop (n + S k) (map greeting_line xs ++ (tx "usiok" ++ sp) :: rest) None = Some (last_name xs, rest).
Proof. exact name_given. Qed.
Print Assumptions C57_name.
(* usi gives the lines up to usiok, in order; the listener hears them and usiok. *)
Theorem C57_usi : forall cmd ls sp rest, Forall (not_word "usiok") ls -> all_space sp -> exists n, forall k,
  usiLoop (n + S k) (ls ++ (tx "usiok" ++ sp) :: rest) [] [cmd] = Some (map pyStrip ls, cmd :: map pyStrip ls ++ [tx "usiok"], rest).
Proof. exact (fun cmd ls sp rest F S => ex_intro _ (List.length ls) (usi_lines ls F sp rest [] [cmd] S)). Qed.
Print Assumptions C57_usi.
(* isready comes back at the first readyok. *)
Theorem C57_ready : forall cmd ls sp rest, Forall (not_word "readyok") ls -> all_space sp -> exists n, forall k,
  readyLoop (n + S k) (ls ++ (tx "readyok" ++ sp) :: rest) [cmd] = Some (cmd :: map pyStrip ls ++ [tx "readyok"], rest).
Proof. exact (fun cmd ls sp rest F S => ex_intro _ (List.length ls) (ready_heard ls F sp rest [cmd] S)). Qed.
Print Assumptions C57_ready.
(* go_mate gives what follows the first checkmate: the moves, or a word such as nomate. *)
Theorem C57_mate : forall cmd ls ws sp rest, Forall (not_begun "checkmate") ls -> ws <> [] -> Forall token ws -> all_space sp -> exists n, forall k,
  mateLoop (n + S k) (ls ++ (join (tx "checkmate" :: ws) ++ sp) :: rest) [cmd] = Some (join ws, cmd :: map pyStrip ls ++ [join (tx "checkmate" :: ws)], rest).
Proof. exact (fun cmd ls ws sp rest F N T S => ex_intro _ (List.length ls) (mate_answer ls F ws sp rest [cmd] N T S)). Qed.
Print Assumptions C57_mate.
(* The words of the go command are the limits given, with their names; increments only without byoyomi. *)
Theorem C57_go_command : forall a, split1 (goCommand a) = go_words a.
Proof. exact go_command. Qed.
Print Assumptions C57_go_command.
Example C57_case : Forall proper_greeting greetings /\ last_name greetings = Some (tx "Strong Engine 3") /\ Forall (not_word "usiok") (map greeting_line greetings) /\
  Forall (not_word "readyok") (map greeting_line greetings) /\ Forall (not_begun "checkmate") (map greeting_line greetings) /\ Forall token [tx "7g7f"; tx "nomate"] /\
  goCommand (mkLimits true (Some 60000%Z) (Some 50000%Z) None (Some 1000%Z) None None) = tx "go ponder btime 60000 wtime 50000 binc 1000".
Proof. exact greetings_meet. Qed.
(* When the engine ends without an answer, usi and isready should raise EOFError; they go on reading for ever. *)
Theorem C57_eof_refuted : forall ls, (Forall (not_word "usiok") ls -> forall k lines h, usiLoop k ls lines h = None) /\ (Forall (not_word "readyok") ls -> forall k h, readyLoop k ls h = None).
Proof. exact (fun ls => conj (usi_waits ls) (ready_waits ls)). Qed.
Print Assumptions C57_eof_refuted.
