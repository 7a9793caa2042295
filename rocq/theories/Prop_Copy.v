(* C31: copies of a board.  Heap.v models the boards in memory with their pointers: "hRun z none l" runs the
   calls l of a program on several boards, starting with none, and "view h (Py n)" is what can be seen of
   board n: position, chain of states and history, found by following the pointers.  HeapSpec.v has the value
   semantics: "values z no_boards l" runs the same calls with every board a value of its own.  Proofs in
   HeapProofs.v. *)
From Verif Require Import Command CommandExamples HeapProofs.
Local Open Scope N_scope.

(* C31.  Whatever calls are made on however many boards, copies included: if they are defined on values,
   they are defined in memory (no dangling or null pointer is followed and no copy throws), and every board
   looks like its value. *)
Theorem C31_values : forall z l v, values z no_boards l = Some v -> exists h, hRun z none l = Some h /\ forall n, view h (Py n) = v n.
Proof. exact boards_are_values. Qed.
Print Assumptions C31_values.
(* In particular, the copy has the position, chain of states and history of the original, the original is as
   before, and each keeps them whatever is done to other boards later, deleting the other one included. *)
Theorem C31_copy : forall z l v src dst b later v', values z no_boards l = Some v -> v src = Some b ->
  values z (set_value v dst (Some b)) later = Some v' ->
  exists h h1 h', hRun z none l = Some h /\ view h (Py src) = Some b /\
    hRun z h [Copy dst src] = Some h1 /\ view h1 (Py dst) = Some b /\ view h1 (Py src) = Some b /\
    hRun z h1 later = Some h' /\
    (Forall (fun c => target c <> dst) later -> view h' (Py dst) = Some b) /\
    (src <> dst -> Forall (fun c => target c <> src) later -> view h' (Py src) = Some b).
Proof. exact copy_keeps. Qed.
Print Assumptions C31_copy.
(* two moves, a pass, a copy; the original is taken back to the start and deleted; the copy takes back the
   pass and plays on *)
Definition someCalls : list call :=
  [MakeSfen 0 startSfen; Do 0 (Push 73275); Do 0 (Push 68117); Do 0 PushPass; Copy 1 0; Do 0 PopPass; Do 0 Pop; Do 0 Pop; SetTurn 0 1; Delete 0; Do 1 PopPass; Do 1 Pop].
Example C31_case : (match values z0 no_boards someCalls with Some v => Some (option_map toSfen (v 0%nat), option_map (fun b => (toSfen b, getHistory b)) (v 1%nat)) | None => None end) =
  Some (None, Some ("lnsgkgsnl/1r5b1/ppppppppp/9/9/2P6/PP1PPPPPP/1B5R1/LNSGKGSNL w - 2"%string, [73275])).
Proof. vm_compute. reflexivity. Qed.
Example C31_copy_case : (match values z0 no_boards (firstn 4 someCalls) with
  | Some v => match v 0%nat with
              | Some b => match values z0 (set_value v 1 (Some b)) (skipn 5 someCalls) with Some _ => Some (getHistory b) | None => None end
              | None => None end
  | None => None end) = Some [73275; 68117; MoveNull].
Proof. vm_compute. reflexivity. Qed.
