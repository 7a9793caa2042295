(* Shared list/word helpers for the model.  No code of /repo is modelled here: these are the
   Gallina counterparts of C++ array access, array update and counting loops. *)
From Coq Require Export List NArith ZArith Bool Lia.
From Coq Require Export ZifyBool ZifyNat ZifyN.
Export ListNotations.
Ltac Zify.zify_post_hook ::= Z.div_mod_to_equations.
Open Scope N_scope.

Arguments N.add : simpl never.
Arguments N.sub : simpl never.
Arguments N.mul : simpl never.
Arguments N.div : simpl never.
Arguments N.modulo : simpl never.
Arguments N.eqb : simpl never.
Arguments N.ltb : simpl never.
Arguments N.leb : simpl never.
Arguments N.land : simpl never.
Arguments N.lor : simpl never.
Arguments N.lxor : simpl never.
Arguments N.ldiff : simpl never.
Arguments N.shiftl : simpl never.
Arguments N.shiftr : simpl never.
Arguments N.testbit : simpl never.
Arguments N.pow : simpl never.
Arguments N.to_nat : simpl never.

(* seqN s n = [s; s+1; ...; s+n-1]: the index list of a C++ counting loop *)
Fixpoint seqN (s : N) (n : nat) : list N :=
  match n with O => [] | S k => s :: seqN (s + 1) k end.

Lemma in_seqN n : forall s x, In x (seqN s n) <-> s <= x < s + N.of_nat n.
Proof.
  induction n as [|n IH]; intros s x; cbn [seqN In].
  - lia.
  - rewrite IH. lia.
Qed.

Lemma NoDup_seqN n : forall s, NoDup (seqN s n).
Proof.
  induction n as [|n IH]; intros s; cbn [seqN]; constructor; auto.
  rewrite in_seqN. lia.
Qed.

Lemma length_seqN n : forall s, length (seqN s n) = n.
Proof. induction n as [|n IH]; intros s; cbn [seqN length]; auto. Qed.

(* reading an array cell; the default is only reached by out-of-range accesses *)
Definition nthN {A} (d : A) (l : list A) (i : N) : A := nth (N.to_nat i) l d.

(* writing an array cell; an out-of-range write leaves the list unchanged *)
Fixpoint upd_nat {A} (l : list A) (i : nat) (v : A) : list A :=
  match l, i with
  | [], _ => []
  | _ :: r, O => v :: r
  | x :: r, S k => x :: upd_nat r k v
  end.
Definition updN {A} (l : list A) (i : N) (v : A) : list A := upd_nat l (N.to_nat i) v.

Lemma length_upd_nat {A} (l : list A) : forall i v, length (upd_nat l i v) = length l.
Proof. induction l as [|x l IH]; intros [|i] v; cbn; auto. Qed.

Lemma length_updN {A} (l : list A) i v : length (updN l i v) = length l.
Proof. apply length_upd_nat. Qed.

Lemma nth_upd_nat_eq {A} (d : A) (l : list A) : forall i v, (i < length l)%nat -> nth i (upd_nat l i v) d = v.
Proof. induction l as [|x l IH]; intros [|i] v; cbn; try lia; auto. intros H. apply IH. lia. Qed.

Lemma nth_upd_nat_neq {A} (d : A) (l : list A) : forall i j v, i <> j -> nth j (upd_nat l i v) d = nth j l d.
Proof.
  induction l as [|x l IH]; intros [|i] [|j] v; cbn; try congruence; auto.
Qed.

Lemma nthN_updN_eq {A} (d : A) l i v : i < N.of_nat (length l) -> nthN d (updN l i v) i = v.
Proof. intros H. apply nth_upd_nat_eq. lia. Qed.

Lemma nthN_updN_neq {A} (d : A) l i j v : i <> j -> nthN d (updN l i v) j = nthN d l j.
Proof. intros H. apply nth_upd_nat_neq. lia. Qed.

Lemma nthN_updN {A} (d : A) l i j v : i < N.of_nat (length l) ->
  nthN d (updN l i v) j = if i =? j then v else nthN d l j.
Proof.
  intros H. destruct (N.eqb_spec i j) as [->|Hn].
  - now apply nthN_updN_eq.
  - now apply nthN_updN_neq.
Qed.

Lemma nthN_ext {A} (d : A) (l l' : list A) :
  length l = length l' -> (forall i, i < N.of_nat (length l) -> nthN d l i = nthN d l' i) -> l = l'.
Proof.
  intros HL H. apply (nth_ext l l' d d HL). intros n Hn.
  specialize (H (N.of_nat n)). unfold nthN in H. rewrite Nnat.Nat2N.id in H. apply H. lia.
Qed.

Lemma upd_nat_upd_nat {A} (l : list A) : forall i v w, upd_nat (upd_nat l i v) i w = upd_nat l i w.
Proof. induction l as [|x l IH]; intros [|i] v w; cbn; f_equal; auto. Qed.

Lemma upd_nat_comm {A} (l : list A) : forall i j v w, i <> j ->
  upd_nat (upd_nat l i v) j w = upd_nat (upd_nat l j w) i v.
Proof. induction l as [|x l IH]; intros [|i] [|j] v w H; cbn; try congruence; f_equal; auto. Qed.

Lemma upd_nat_same {A} (d : A) (l : list A) : forall i, upd_nat l i (nth i l d) = l.
Proof. induction l as [|x l IH]; intros [|i]; cbn; f_equal; auto. Qed.

Lemma updN_updN {A} (l : list A) i v w : updN (updN l i v) i w = updN l i w.
Proof. apply upd_nat_upd_nat. Qed.
Lemma updN_comm {A} (l : list A) i j v w : i <> j -> updN (updN l i v) j w = updN (updN l j w) i v.
Proof. intros H. apply upd_nat_comm. lia. Qed.
Lemma updN_same {A} (d : A) (l : list A) i v : nthN d l i = v -> updN l i v = l.
Proof. intros <-. apply upd_nat_same. Qed.

(* the 81 squares in index order (Square SQ11..SQ99, square.hpp:33-43) *)
Definition squares : list N := seqN 0 81.

Lemma in_squares s : In s squares <-> s < 81.
Proof. unfold squares. rewrite in_seqN. lia. Qed.

Lemma NoDup_squares : NoDup squares.
Proof. apply NoDup_seqN. Qed.

(* lifting of finite checks *)
Lemma forallb_squares (f : N -> bool) : forallb f squares = true -> forall s, s < 81 -> f s = true.
Proof. intros H s Hs. rewrite forallb_forall in H. apply H. now apply in_squares. Qed.

Lemma forallb_squares2 (f : N -> N -> bool) :
  forallb (fun s => forallb (f s) squares) squares = true -> forall s t, s < 81 -> t < 81 -> f s t = true.
Proof.
  intros H s t Hs Ht. pose proof (forallb_squares _ H s Hs) as H1. cbv beta in H1.
  exact (forallb_squares _ H1 t Ht).
Qed.

Lemma forallb_seqN (f : N -> bool) s n : forallb f (seqN s n) = true ->
  forall x, s <= x < s + N.of_nat n -> f x = true.
Proof. intros H x Hx. rewrite forallb_forall in H. apply H. now apply in_seqN. Qed.

Lemma existsb_In {A} (f : A -> bool) l x : In x l -> f x = true -> existsb f l = true.
Proof. intros Hi Hf. apply existsb_exists. eauto. Qed.

Lemma existsb_false {A} (f : A -> bool) l : existsb f l = false -> forall x, In x l -> f x = false.
Proof.
  intros H x Hx. destruct (f x) eqn:E; auto.
  rewrite (existsb_In f l x Hx E) in H. discriminate.
Qed.

(* closes a closed boolean goal [e = true] by kernel evaluation *)
Ltac vmtrue := vm_cast_no_check (eq_refl true).
