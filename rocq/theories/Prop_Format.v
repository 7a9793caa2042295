(* C47: the bytes of to_hcp and to_psfen.  PackSpec.v writes the two published formats down as strings of bits:
   "hcp_bits P" and "psfen_bits P" for a position P; "bits_of_bytes d" are the bits of the bytes d, lowest
   first.  Proofs in PackFormat.v. *)
From Coq Require Import String.
From Verif Require Import PackExamples PackFormat.
Local Open Scope N_scope.

(* C47.  The bytes written are those of the format, for every board with both kings ... *)
Theorem C47_hcp_bytes : forall rp rh b, let z := initZobrist rp rh in reachable z b -> both_kings (abs (bpos b)) ->
  exists s, toHcp b = Some s /\ buffer32 (sdata s) /\ bits_of_bytes (sdata s) = hcp_bits (abs (bpos b)).
Proof. exact (fun rp rh b => hcp_bytes (initZobrist rp rh) b (okZob_init rp rh)). Qed.
Print Assumptions C47_hcp_bytes.
Theorem C47_psfen_bytes : forall rp rh b, let z := initZobrist rp rh in reachable z b -> both_kings (abs (bpos b)) ->
  exists s, toPsfen b = Some s /\ buffer32 (sdata s) /\ bits_of_bytes (sdata s) = psfen_bits (abs (bpos b)).
Proof. exact (fun rp rh b => psfen_bytes (initZobrist rp rh) b (okZob_init rp rh)). Qed.
Print Assumptions C47_psfen_bytes.
(* ... and bytes of the format, whoever wrote them, are read as the position they stand for. *)
Theorem C47_hcp_read : forall rp rh b d, let z := initZobrist rp rh in reachable z b -> both_kings (abs (bpos b)) -> bits_of_bytes d = hcp_bits (abs (bpos b)) ->
  exists p, setHcp z d = Done (mkBoard p []) /\ same_position (abs p) (abs (bpos b)) /\ gamePly p = 1%Z /\ set_up z (mkBoard p []).
Proof. exact (fun rp rh b d => hcp_read (initZobrist rp rh) b d (okZob_init rp rh)). Qed.
Print Assumptions C47_hcp_read.
Theorem C47_psfen_read : forall rp rh b d, let z := initZobrist rp rh in reachable z b -> both_kings (abs (bpos b)) -> bits_of_bytes d = psfen_bits (abs (bpos b)) ->
  exists p, setPsfen z d = Done (mkBoard p []) /\ same_position (abs p) (abs (bpos b)) /\ gamePly p = 1%Z /\ set_up z (mkBoard p []).
Proof. exact (fun rp rh b d => psfen_read (initZobrist rp rh) b d (okZob_init rp rh)). Qed.
Print Assumptions C47_psfen_read.
Example C47_case : reachable z0 (startBoard z0) /\ both_kings (abs (bpos (startBoard z0))).
Proof. exact (conj (proj1 start_playable) start_kings). Qed.
(* a white pawn, a black dragon, a gold in black's hand *)
Example C47_words : (hcp_square (Some (Gote, FU)), psfen_square (Some (Sente, RY)), hcp_hand Sente KI) = (word "1010"%string, word "11111110"%string, word "11100"%string).
Proof. reflexivity. Qed.
