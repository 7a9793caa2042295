(* Geometry of the 9x9 board used as the bridge between the word-level model and the rules in
   Spec.v.  Independent of the C++ code: everything is computed from file/rank coordinates. *)
From Verif Require Export Base.

Definition dir := (Z * Z)%type.     (* (file change, rank change) *)
Definition fz (s : N) : Z := Z.of_N (s / 9).
Definition rz (s : N) : Z := Z.of_N (s mod 9).
Definition onb (f r : Z) : bool := ((0 <=? f) && (f <? 9) && (0 <=? r) && (r <? 9))%Z.
Definition sqz (f r : Z) : N := Z.to_N (f * 9 + r).

(* one step from s in direction d *)
Definition stepTo (d : dir) (s : N) : option N :=
  let f := (fz s + fst d)%Z in let r := (rz s + snd d)%Z in
  if onb f r then Some (sqz f r) else None.

(* the squares met when leaving s in direction d, nearest first *)
Fixpoint rayF (n : nat) (d : dir) (s : N) : list N :=
  match n with
  | O => []
  | S k => match stepTo d s with None => [] | Some t => t :: rayF k d t end
  end.
Definition ray (d : dir) (s : N) : list N := rayF 8 d s.

(* a slide stops on the first occupied square, which it still reaches *)
Fixpoint walk (occ : N -> bool) (l : list N) : list N :=
  match l with
  | [] => []
  | t :: r => t :: (if occ t then [] else walk occ r)
  end.

(* squares strictly between two squares of a common line *)
Definition betw (s t : N) : list N :=
  let df := (fz t - fz s)%Z in let dr := (rz t - rz s)%Z in
  if ((df =? 0) || (dr =? 0) || (Z.abs df =? Z.abs dr))%Z then
    let n := Z.max (Z.abs df) (Z.abs dr) in
    rayF (Z.to_nat (n - 1)) (Z.sgn df, Z.sgn dr) s
  else [].

Definition dN : dir := (0, -1)%Z.
Definition dS : dir := (0, 1)%Z.
Definition dW : dir := (1, 0)%Z.
Definition dE : dir := (-1, 0)%Z.
Definition dNW : dir := (1, -1)%Z.
Definition dNE : dir := (-1, -1)%Z.
Definition dSW : dir := (1, 1)%Z.
Definition dSE : dir := (-1, 1)%Z.
Definition rookDirs : list dir := [dN; dS; dW; dE].
Definition bishopDirs : list dir := [dNW; dNE; dSW; dSE].
Definition allDirs : list dir := rookDirs ++ bishopDirs.

(* forward direction of a colour: 0 = Black moves towards rank 1, 1 = White towards rank 9 *)
Definition fwd (c : N) : Z := if c =? 0 then (-1)%Z else 1%Z.

(* one-step moves of a piece type (1..14, the enum of piece.hpp:32-41) *)
Definition stepsOf (pt c : N) : list dir :=
  let u := fwd c in
  let gold := [(0, u); (1, u); (-1, u); (1, 0); (-1, 0); (0, -u)]%Z in
  match pt with
  | 1 => [(0, u)]%Z
  | 3 => [(1, 2 * u); (-1, 2 * u)]%Z
  | 4 => [(0, u); (1, u); (-1, u); (1, -u); (-1, -u)]%Z
  | 7 | 9 | 10 | 11 | 12 => gold
  | 8 => allDirs
  | 13 => rookDirs
  | 14 => bishopDirs
  | _ => []
  end.
(* sliding directions of a piece type *)
Definition slidesOf (pt c : N) : list dir :=
  match pt with
  | 2 => [(0, fwd c)]%Z
  | 5 | 13 => bishopDirs
  | 6 | 14 => rookDirs
  | _ => []
  end.

Definition memN (x : N) (l : list N) : bool := existsb (N.eqb x) l.
Definition stepHits (d : dir) (s t : N) : bool :=
  match stepTo d s with Some u => u =? t | None => false end.

(* t is reached from s on an empty board *)
Definition reach (pt c s t : N) : bool :=
  existsb (fun d => stepHits d s t) (stepsOf pt c) || existsb (fun d => memN t (ray d s)) (slidesOf pt c).
(* no occupied square strictly between s and t *)
Definition clear (occ : N -> bool) (s t : N) : bool := forallb (fun x => negb (occ x)) (betw s t).

Lemma memN_In x l : memN x l = true <-> In x l.
Proof.
  unfold memN. rewrite existsb_exists. split.
  - intros (y & Hy & E). apply N.eqb_eq in E. now subst.
  - intros H. exists x. split; auto. apply N.eqb_refl.
Qed.

(* prefixes of a ray are exactly the squares between *)
Fixpoint prefixes_ok (s : N) (pre l : list N) : bool :=
  match l with
  | [] => true
  | t :: r => (if list_eq_dec N.eq_dec (betw s t) pre then true else false)
              && negb (memN t pre) && prefixes_ok s (pre ++ [t]) r
  end.

Lemma rays_prefixes : forallb (fun s => forallb (fun d => prefixes_ok s [] (ray d s)) allDirs) squares = true.
Proof. vm_compute. reflexivity. Qed.

Lemma walk_In_gen occ s : forall l pre, prefixes_ok s pre l = true -> (forall x, In x pre -> occ x = false) ->
  forall t, In t (walk occ l) <-> In t l /\ clear occ s t = true.
Proof.
  induction l as [|u r IH]; intros pre Hp Hpre t; cbn [walk].
  - cbn. tauto.
  - cbn [prefixes_ok] in Hp. apply andb_prop in Hp as [Hp Hr]. apply andb_prop in Hp as [Hb Hnin].
    destruct (list_eq_dec N.eq_dec (betw s u) pre) as [Eb|]; [|discriminate]. clear Hb.
    assert (Hcu : clear occ s u = true).
    { unfold clear. rewrite Eb. apply forallb_forall. intros x Hx. now rewrite (Hpre x Hx). }
    destruct (occ u) eqn:Eo.
    + split.
      * intros [<-|[]]. split; [now left|exact Hcu].
      * intros [[<-|Hin] Hc]; [now left|].
        (* t later in the ray: u is between *)
        exfalso.
        assert (G : forall r' pre', prefixes_ok s pre' r' = true -> In u pre' -> In t r' -> In u (betw s t)).
        { clear - s. induction r' as [|v r' IH']; intros pre' Hp' Hu Ht; [destruct Ht|].
          cbn [prefixes_ok] in Hp'. apply andb_prop in Hp' as [Hp' Hr']. apply andb_prop in Hp' as [Hb' _].
          destruct (list_eq_dec N.eq_dec (betw s v) pre') as [E'|]; [|discriminate].
          destruct Ht as [->|Ht]; [now rewrite E'|].
          apply (IH' _ Hr'); auto. apply in_or_app. now left. }
        specialize (G r (pre ++ [u]) Hr). assert (Hu : In u (pre ++ [u])) by (apply in_or_app; right; now left).
        specialize (G Hu Hin). unfold clear in Hc. rewrite forallb_forall in Hc.
        specialize (Hc u G). rewrite Eo in Hc. discriminate.
    + cbn [In]. rewrite (IH (pre ++ [u]) Hr).
      * split.
        -- intros [<-|[H1 H2]]; [split; [now left|exact Hcu]|]. split; [now right|exact H2].
        -- intros [[<-|H1] H2]; [now left|]. right. tauto.
      * intros x Hx. apply in_app_or in Hx as [Hx|[<-|[]]]; auto.
Qed.

Lemma walk_In occ s d t : s < 81 -> In d allDirs ->
  (In t (walk occ (ray d s)) <-> In t (ray d s) /\ clear occ s t = true).
Proof.
  intros Hs Hd. apply walk_In_gen with (pre := []); [|intros x []].
  pose proof (forallb_squares _ rays_prefixes s Hs) as H. cbv beta in H.
  rewrite forallb_forall in H. now apply H.
Qed.

Lemma onb_sqz f r : onb f r = true -> sqz f r < 81 /\ fz (sqz f r) = f /\ rz (sqz f r) = r.
Proof.
  unfold onb, sqz, fz, rz. intros H.
  repeat (apply andb_prop in H as [H ?]). rewrite !N2Z.inj_div, !N2Z.inj_mod by lia.
  rewrite Z2N.id by lia. lia.
Qed.

Lemma fz_rz_range s : s < 81 -> (0 <= fz s < 9 /\ 0 <= rz s < 9)%Z.
Proof. unfold fz, rz. lia. Qed.

Lemma sqz_fz_rz s : s < 81 -> sqz (fz s) (rz s) = s.
Proof. unfold sqz, fz, rz. intros H. lia. Qed.

Lemma stepTo_lt d s t : stepTo d s = Some t -> t < 81.
Proof.
  unfold stepTo. destruct (onb _ _) eqn:E; [|discriminate]. intros [= <-].
  now apply onb_sqz in E.
Qed.

Lemma rayF_lt n : forall d s t, In t (rayF n d s) -> t < 81.
Proof.
  induction n as [|n IH]; intros d s t; cbn [rayF]; [intros []|].
  destruct (stepTo d s) as [u|] eqn:E; [|intros []].
  intros [<-|H]; [now apply stepTo_lt in E|eauto].
Qed.

Lemma ray_lt d s t : In t (ray d s) -> t < 81.
Proof. apply rayF_lt. Qed.

Lemma betw_lt s t x : In x (betw s t) -> x < 81.
Proof. unfold betw. destruct (_ || _); [apply rayF_lt|intros []]. Qed.

Lemma clear_ext occ occ' s t : (forall x, x < 81 -> occ x = occ' x) -> clear occ s t = clear occ' s t.
Proof.
  intros H. unfold clear.
  assert (G : forall l, (forall x, In x l -> x < 81) -> forallb (fun x => negb (occ x)) l = forallb (fun x => negb (occ' x)) l).
  { induction l as [|a l IH]; intros Hl; cbn [forallb]; [reflexivity|].
    rewrite IH by (intros; apply Hl; now right). rewrite H by (apply Hl; now left). reflexivity. }
  apply G. intros x. apply betw_lt.
Qed.
