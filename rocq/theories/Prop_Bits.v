(* C32: packed hands; C34: bit primitives.  Proofs in HandFinal.v. *)
From Verif Require Import HandFinal Bits Bitboard Attack.
Local Open Scope N_scope.

(* C32: a hand filled with counts f(0..6) (within the field widths) is seven independent counters *)
Theorem C32_read : forall f, counts f -> forall hp, hp < 7 -> numOf (packed f) hp = f hp /\ numOfT (packed f) hp = f hp /\ (handExists (packed f) hp = true <-> 0 < f hp).
Proof. exact packed_read. Qed.
Print Assumptions C32_read.
Theorem C32_equal : forall f g, counts f -> counts g -> (packed f = packed g <-> forall hp, hp < 7 -> f hp = g hp).
Proof. exact packed_inj. Qed.
Print Assumptions C32_equal.
Theorem C32_add_one : forall f hp, counts f -> hp < 7 -> f hp + 1 < limit hp -> plusOne (packed f) hp = packed (changed f hp (f hp + 1)).
Proof. exact packed_plus. Qed.
Print Assumptions C32_add_one.
Theorem C32_remove_one : forall f hp, counts f -> hp < 7 -> 0 < f hp -> minusOne (packed f) hp = packed (changed f hp (f hp - 1)).
Proof. exact packed_minus. Qed.
Print Assumptions C32_remove_one.
Theorem C32_superior : forall f g, counts f -> counts g -> (isEqualOrSuperior (packed f) (packed g) = true <-> forall hp, hp < 7 -> g hp <= f hp).
Proof. exact packed_superior. Qed.
Print Assumptions C32_superior.
Theorem C32_other_than_pawn : forall f, counts f -> (exceptPawnExists (packed f) = true <-> exists hp, 1 <= hp < 7 /\ 0 < f hp).
Proof. exact packed_other. Qed.
Print Assumptions C32_other_than_pawn.
Definition fullHand (hp : N) : N := nthN 0 [18; 4; 4; 4; 4; 2; 2] hp.
Example C32_case : counts fullHand /\ isEqualOrSuperior (packed fullHand) (packed (changed fullHand 0 17)) = true /\ isEqualOrSuperior (packed (changed fullHand 6 0)) (packed (changed fullHand 0 17)) = false.
Proof. split; [|vm_compute; split; reflexivity]. intros hp H. destruct (hp_cases hp H) as [->|[->|[->|[->|[->|[->| ->]]]]]]; reflexivity. Qed.

(* C34: both builds of the primitives, against counting bits and finding the lowest one *)
Theorem C34_population_count : forall x, x < 2 ^ 64 -> count1s x = bit_count x /\ count1s_portable x = bit_count x.
Proof. exact count1s_meaning. Qed.
Print Assumptions C34_population_count.
Theorem C34_lowest_bit : forall x, x <> 0 -> x < 2 ^ 64 -> lowest_bit x (firstOneFromLSB x) /\ lowest_bit x (firstOneFromLSB_portable x).
Proof. exact firstOne_meaning. Qed.
Print Assumptions C34_lowest_bit.
Theorem C34_bishop_attacks : forall sq occ, bishopAttack_portable sq occ = bishopAttack sq occ.
Proof. exact bishopAttack_builds_agree. Qed.
Print Assumptions C34_bishop_attacks.
Example C34_case : count1s_portable 0xf0f00000000000ff = 16 /\ firstOneFromLSB_portable 0x8000000000000000 = 63.
Proof. vm_compute. split; reflexivity. Qed.
