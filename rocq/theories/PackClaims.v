(* Vocabulary of the theorems about packed positions.  No proofs. *)
From Verif Require Export Packed Claims HandFinal.
Local Open Scope N_scope.

(* both kings are on the board *)
Definition both_kings (P : position) : Prop := forall c, exists s, on_board s /\ at_square P s = Some (c, OU).
(* the number of bits put into a stream *)
Definition bits_written (s : Stream) : N := 8 * spos s + scurr s.
(* a buffer of 32 bytes *)
Definition buffer32 (d : list N) : Prop := length d = 32%nat /\ Forall (fun x => x < 256) d.
(* each hand word is the packing of seven counts that fit their fields (no count ran over) *)
Definition hands_fit (p : Position) : Prop := forall c, c < 2 -> exists f, counts f /\ handOf p c = packed f.
