(* C58: reports of several lines of play.  MultiSpec.v says what is claimed; the proofs are in MultiProofs.v. *)
From Verif Require Import MultiProofs EngineExamples.

(* info tells the last report of every rank that was reported, and of no other, by ascending rank: its rank, score and moves.
   Missing: reports whose score is marked as a bound; see C58_bound_refuted. *)
Theorem C58_reports_partial : forall xs, Forall proper_rank xs -> exists rs ds, multiInfo (fold_left hearMulti (map line_of xs) []) = Done ds /\ Forall2 tells rs ds /\
  StronglySorted (fun a b => fst a < fst b)%Z rs /\ forall k r, In (k, r) rs <-> last_ranked k xs = Some r.
Proof. exact multi_told. Qed.
Print Assumptions C58_reports_partial.
Definition second : report := mkReport [(tx "depth", 5%Z); (tx "multipv", 2%Z)] (Cp (-30)) [] (tx "7g7f") [tx "3c3d"].
Definition best1 : report := mkReport [(tx "depth", 5%Z)] (Cp 80) [(tx "multipv", 1%Z)] (tx "2g2f") [].
Definition better1 : report := mkReport [(tx "multipv", 1%Z)] (Mate 9) [(tx "nodes", 700%Z)] (tx "5g5f") [tx "3c3d"].
Definition ranked_search : list said := [Report second; Report best1; Other (tx "checking"); Report report1; Report better1].
Example C58_case : Forall proper_rank ranked_search /\ last_ranked 1 ranked_search = Some better1 /\ last_ranked 2 ranked_search = Some second /\ last_ranked 3 ranked_search = None /\
  report_line second = tx "info depth 5 multipv 2 score cp -30 pv 7g7f 3c3d".
Proof.
  split; [|repeat split; vm_compute; reflexivity]. unfold ranked_search.
  repeat (constructor; [first [intros t E; discriminate E|split; [apply reportB_ok; reflexivity|split; [repeat (constructor; [cbn; intros E; first [discriminate E|intros X; discriminate X]|]); constructor|repeat (constructor; [discriminate|]); constructor]]]|]). constructor.
Qed.
(* A score may be marked as a bound; when nothing stands between the mark and the moves, info raises IndexError. *)
Theorem C58_bound_refuted : multiInfo (hearMulti [] (join [tx "info"; tx "multipv"; tx "1"; tx "score"; tx "cp"; tx "30"; tx "upperbound"; tx "pv"; tx "7g7f"])) = Thrown.
Proof. vm_compute. reflexivity. Qed.
Print Assumptions C58_bound_refuted.
