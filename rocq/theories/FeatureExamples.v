(* Positions for the theorems on declarations and feature planes. *)
From Verif Require Export Features2 GenExamples.
Local Open Scope N_scope.

(* the black king and eleven other pieces in the white camp: eight promoted pawns, two dragons, a horse *)
Definition campSet : list N := sparse [(8, 24); (36, 8); (11, 9); (20, 9); (29, 9); (38, 9); (47, 9); (56, 9); (65, 9); (74, 9); (72, 14); (63, 14); (54, 13)].
(* with a bishop in hand: 28 points; with four pawns: 27 *)
Definition campBoard : Board := boardOf 0 campSet [[0; 0; 0; 0; 0; 1; 0]; [0; 0; 0; 0; 0; 0; 0]].
Definition shortBoard : Board := boardOf 0 campSet [[4; 0; 0; 0; 0; 0; 0]; [0; 0; 0; 0; 0; 0; 0]].
Lemma camp_set_up : set_up z0 campBoard. Proof. apply boardOf_set_up. vm_compute. reflexivity. Qed.
Lemma short_set_up : set_up z0 shortBoard. Proof. apply boardOf_set_up. vm_compute. reflexivity. Qed.
Lemma camp_declares : nyugyoku (bpos campBoard) = true. Proof. vm_compute. reflexivity. Qed.
Lemma short_not : nyugyoku (bpos shortBoard) = false. Proof. vm_compute. reflexivity. Qed.
Definition zeros : Mem := repeat 0%Z 9639.
Lemma zeros_len : Z.of_nat (length zeros) = 9639%Z. Proof. unfold zeros. rewrite repeat_length. reflexivity. Qed.
Lemma zeros_entry i : entry zeros i = 0%Z. Proof. unfold entry, zeros. apply nth_repeat. Qed.
Lemma camp_numbers : camp_count (abs (bpos campBoard)) Sente = 11%Z /\ points (abs (bpos campBoard)) Sente = 28%Z.
Proof. split; vm_compute; reflexivity. Qed.
(* none of the ten planes for the missing pieces is written *)
Lemma camp_unmarked : exists m', makeFeatures2 true (bpos campBoard) zeros = Some m' /\
  forall j s, (0 <= j < 10)%Z -> on_board s -> entry m' ((57 + (1 + j)) * 81 + cell s)%Z = 0%Z.
Proof.
  destruct (features2_more z0 campBoard zeros okZob0 (set_up_reachable _ _ camp_set_up)) as (m' & E & B); [rewrite zeros_len; lia|].
  exists m'. split; [exact E|]. destruct B as (_ & _ & _ & D). intros j s Hj Hs. specialize (D Sente s Hs). cbv zeta in D. destruct D as (_ & D & _). specialize (D j Hj).
  assert (side (abs (bpos campBoard)) = Sente) as Es by reflexivity. rewrite Es in D. change (whose Sente Sente) with 0%Z in D. change (57 + 31 * 0 + (1 + j))%Z with (57 + (1 + j))%Z in D.
  pose proof (proj1 camp_numbers) as N. rewrite N in D. destruct D as [[X _]|[_ X]]; [lia|]. rewrite X. apply zeros_entry.
Qed.
(* filling the same buffer for another board leaves what was written for the first one *)
Lemma camp_stale : exists m1 m2, makeFeatures2 true (bpos campBoard) zeros = Some m1 /\ makeFeatures2 true (bpos (startBoard z0)) m1 = Some m2 /\
  forall s, on_board s -> entry m2 (57 * 81 + cell s)%Z = 1%Z.
Proof.
  destruct (features2_more z0 campBoard zeros okZob0 (set_up_reachable _ _ camp_set_up)) as (m1 & E1 & B1); [rewrite zeros_len; lia|].
  destruct (features2_more z0 (startBoard z0) m1 okZob0 (set_up_reachable _ _ (start_set_up z0))) as (m2 & E2 & B2); [rewrite (proj1 B1), zeros_len; lia|].
  exists m1, m2. split; [exact E1|]. split; [exact E2|]. intros s Hs. destruct B1 as (_ & _ & _ & D1). destruct B2 as (_ & _ & _ & D2).
  specialize (D1 Sente s Hs). specialize (D2 Sente s Hs). cbv zeta in D1, D2. destruct D1 as (D1 & _). destruct D2 as (D2 & _).
  assert (side (abs (bpos campBoard)) = Sente) as Es by reflexivity. rewrite Es in D1. assert (side (abs (bpos (startBoard z0))) = Sente) as Es2 by reflexivity. rewrite Es2 in D2.
  change (57 + 31 * whose Sente Sente + 0)%Z with 57%Z in D1, D2. destruct D2 as [[_ X]|[_ ->]]; [exact X|].
  destruct D1 as [[_ X]|[N _]]; [exact X|]. exfalso. apply N. pose proof camp_declares as C. apply (nyugyoku_exact z0 campBoard okZob0 (set_up_reachable _ _ camp_set_up)) in C.
  destruct C as (_ & K & _). now rewrite Es in K.
Qed.
