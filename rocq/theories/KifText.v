(* KIF move lines: what the pattern finds in a line that was written. *)
From Verif Require Export KifSpec.
From Verif Require Import Ki2Text Rules SfenProofs SfenFinal.
Local Open Scope N_scope.

(* ---- numbers ---- *)
Definition value (t : Text) (a : N) : N := fold_left (fun a c => a * 10 + (c - 48)) t a.
Lemma dig_ascii c : isDigit c = true -> isDig (N_of_ascii c) = true /\ N_of_ascii c - 48 = digitValue c.
Proof. destruct c as [[] [] [] [] [] [] [] []]; intros D; try discriminate D; split; reflexivity. Qed.
Lemma value_ascii l : Forall (fun c => isDigit c = true) l -> forall a, value (map N_of_ascii l) a = valueOf l a.
Proof. induction 1 as [|c l D F IH]; intros a; [reflexivity|]. cbn [map value fold_left valueOf]. rewrite (proj2 (dig_ascii c D)). apply IH. Qed.
Lemma num_facts n : num n <> [] /\ forallb isDig (num n) = true /\ value (num n) 0 = n.
Proof.
  destruct (numeral_chars _ _ (printN_numeral n)) as (A & F & V). unfold la, sa in *. rewrite list_ascii_of_string_of_list_ascii in *. unfold num. split; [|split].
  - destruct (printN n); [contradiction|discriminate].
  - apply forallb_forall. intros c I. apply in_map_iff in I as (x & <- & I). apply dig_ascii. exact (proj1 (Forall_forall _ _) F x I).
  - rewrite (value_ascii _ F). lia.
Qed.
Lemma zeros_value k t : value (repeat 48 k ++ t) 0 = value t 0.
Proof. induction k as [|k IH]; [reflexivity|]. exact IH. Qed.
Lemma zeros_dig k : forallb isDig (repeat 48 k) = true. Proof. induction k; [reflexivity|exact IHk]. Qed.
Definition two (n : N) : Text := padLeft 48 2 (num n).
Lemma two_facts n : two n <> [] /\ forallb isDig (two n) = true /\ value (two n) 0 = n.
Proof.
  destruct (num_facts n) as (A & F & V). unfold two, padLeft. split; [|split].
  - intros E. apply app_eq_nil in E as [_ E]. contradiction.
  - rewrite forallb_app, zeros_dig, F. reflexivity.
  - rewrite zeros_value. exact V.
Qed.
Lemma intOf_value t : t <> [] -> intOf t = Done (value t 0). Proof. destruct t; [contradiction|reflexivity]. Qed.

(* ---- runs of characters ---- *)
Lemma span_run f a c t : forallb f a = true -> f c = false -> span f (a ++ c :: t) = (a, c :: t).
Proof. induction a as [|x a IH]; cbn [app span forallb]; intros F C; [now rewrite C|]. apply andb_true_iff in F as [-> F]. rewrite (IH F C). reflexivity. Qed.
Lemma blanks k : forallb (N.eqb blank) (repeat blank k) = true. Proof. induction k; [reflexivity|exact IHk]. Qed.
Lemma drop_blanks k c t : isSpaceU c = false -> dropSpaces (repeat blank k ++ c :: t) = c :: t.
Proof. intros C. induction k as [|k IH]; cbn [repeat app dropSpaces]; [now rewrite C|]. exact IH. Qed.
Lemma dig_not_blank c : isDig c = true -> (blank =? c) = false.
Proof. unfold isDig, blank. rewrite andb_true_iff, !N.leb_le, N.eqb_neq. lia. Qed.
Lemma dig_time c : isDig c = true -> timeChar c = true. Proof. intros D. unfold timeChar. rewrite D. apply orb_true_r. Qed.
Lemma digs_time t : forallb isDig t = true -> forallb timeChar t = true.
Proof. rewrite !forallb_forall. intros F c I. apply dig_time. auto. Qed.
Lemma dig_colon c : isDig c = true -> (c =? colon) = false.
Proof. unfold isDig, colon. rewrite andb_true_iff, !N.leb_le, N.eqb_neq. lia. Qed.
Lemma num_cons n : exists d t, num n = d :: t /\ isDig d = true.
Proof. destruct (num_facts n) as (A & F & _). destruct (num n) as [|d t]; [contradiction|]. cbn [forallb] in F. apply andb_true_iff in F as [F _]. eauto. Qed.

(* ---- the time ---- *)
Lemma time_digits t : forallb isDig t = true -> forall p r a, timeOf p (t ++ r) a = timeOf (p ++ t) r a.
Proof.
  induction t as [|c t IH]; intros F p r a; [now rewrite app_nil_r|]. cbn [forallb] in F. apply andb_true_iff in F as [D F]. cbn [app timeOf]. rewrite (dig_colon c D), (IH F), <- app_assoc. reflexivity.
Qed.
Lemma time_value m s : timeOf [] (num m ++ colon :: two s) 0 = Done (m * 60 + s).
Proof.
  destruct (num_facts m) as (A & F & V). destruct (two_facts s) as (A2 & F2 & V2). rewrite (time_digits _ F). cbn [app timeOf]. rewrite N.eqb_refl, (intOf_value _ A), V. cbn [obind].
  rewrite <- (app_nil_r (two s)), (time_digits _ F2). cbn [app timeOf]. rewrite (intOf_value _ A2), V2. reflexivity.
Qed.
Lemma stamp_read sec sum : kifTime (stamp sec sum) = Some (num (sec / 60) ++ colon :: two (sec mod 60), []).
Proof.
  unfold stamp, kifTime. rewrite N.eqb_refl. fold (two (sec mod 60)) (two (sum / 3600)) (two (sum mod 3600 / 60)) (two (sum mod 3600 mod 60)).
  destruct (num_cons (sec / 60)) as (d & t & E & D). destruct (num_facts (sec / 60)) as (_ & F1 & _). unfold padLeft at 1. rewrite <- app_assoc.
  set (w := colon :: two (sec mod 60) ++ _). assert (S1 : snd (span (N.eqb blank) (repeat blank (2 - List.length (num (sec / 60))) ++ num (sec / 60) ++ w)) = num (sec / 60) ++ w).
  { rewrite E. cbn [app]. rewrite span_run; [reflexivity|apply blanks|now apply dig_not_blank]. }
  rewrite S1. unfold w. clear S1 w.
  assert (J : forall a c r : Text, a ++ colon :: c ++ slash :: r = (a ++ colon :: c) ++ slash :: r) by (intros; rewrite <- app_assoc; reflexivity). rewrite J. clear J.
  rewrite span_run; [|rewrite forallb_app; cbn [forallb]; rewrite (digs_time _ F1), (digs_time _ (proj1 (proj2 (two_facts _)))); reflexivity|reflexivity].
  rewrite E at 1. cbn [app]. rewrite N.eqb_refl.
  assert (J : forall a b c : Text, a ++ colon :: b ++ colon :: c ++ [close_] = (a ++ colon :: b ++ colon :: c) ++ [close_]) by (intros; rewrite <- !app_assoc; cbn [app]; rewrite <- app_assoc; reflexivity). rewrite J. clear J.
  rewrite span_run; [|rewrite forallb_app; cbn [forallb]; rewrite forallb_app; cbn [forallb]; rewrite !(digs_time _ (proj1 (proj2 (two_facts _)))); reflexivity|reflexivity].
  destruct (two (sum / 3600)) as [|q r] eqn:Q; [exfalso; exact (proj1 (two_facts (sum / 3600)) Q)|]. cbn [app]. rewrite N.eqb_refl. rewrite E. reflexivity.
Qed.

(* ---- a whole line ---- *)
Definition calm (c : N) : bool := plain c && negb (c =? ch "：") && negb (c =? 10).
Lemma normalize_app a t : forallb calm a = true -> normalize (a ++ t) = a ++ normalize t.
Proof.
  induction a as [|c a IH]; cbn [app forallb]; [reflexivity|]. rewrite andb_true_iff. intros [C F]. unfold calm in C. rewrite !andb_true_iff in C. rewrite normalize_cons by tauto. now rewrite IH.
Qed.
Lemma replace2_pro a2 b t : a2 <> open_ -> replace2 (ch "成") a2 b (uPro :: open_ :: t) = uPro :: open_ :: replace2 (ch "成") a2 b t.
Proof.
  intros H. assert (E : forall x, replace2 (ch "成") a2 b (uPro :: open_ :: x) = if open_ =? a2 then b :: replace2 (ch "成") a2 b x else uPro :: replace2 (ch "成") a2 b (open_ :: x)) by reflexivity.
  rewrite E, (proj2 (N.eqb_neq open_ a2)) by congruence. f_equal. apply replace2_cons. discriminate.
Qed.
Lemma normalize_pro t : normalize (uPro :: open_ :: t) = uPro :: open_ :: normalize t.
Proof.
  unfold normalize. assert (E1 : forall x, replace1 (ch "王") (ch "玉") (uPro :: open_ :: x) = uPro :: open_ :: replace1 (ch "王") (ch "玉") x) by reflexivity.
  assert (E2 : forall x, replace1 (ch "竜") (ch "龍") (uPro :: open_ :: x) = uPro :: open_ :: replace1 (ch "竜") (ch "龍") x) by reflexivity.
  rewrite E1, E2.
  rewrite !replace2_pro by discriminate. reflexivity.
Qed.
Lemma dig_calm c : isDig c = true -> calm c = true.
Proof.
  unfold isDig. rewrite andb_true_iff, !N.leb_le. intros [A B]. unfold calm, plain. rewrite !andb_true_iff, !negb_true_iff, !N.eqb_neq.
  assert (X : forall k, 57 < k -> c <> k) by lia. repeat split; try (apply X; reflexivity). lia.
Qed.
Lemma digs_calm t : forallb isDig t = true -> forallb calm t = true. Proof. rewrite !forallb_forall. intros F c I. apply dig_calm. auto. Qed.
Lemma blanks_calm k : forallb calm (repeat blank k) = true. Proof. induction k; [reflexivity|exact IHk]. Qed.
Lemma num_calm n : forallb calm (num n) = true. Proof. apply digs_calm, num_facts. Qed.
Lemma two_calm n : forallb calm (padLeft 48 2 (num n)) = true. Proof. apply digs_calm, (two_facts n). Qed.
Lemma pad_calm k n : forallb calm (padLeft blank k (num n)) = true. Proof. unfold padLeft. rewrite forallb_app, blanks_calm. apply num_calm. Qed.
Lemma stamp_calm sec sum : forallb calm (stamp sec sum) = true.
Proof. unfold stamp. cbn [forallb]. repeat (rewrite forallb_app; cbn [forallb]). rewrite pad_calm, !two_calm. reflexivity. Qed.
Lemma pad_six k t : repeat blank k ++ repeat blank 6 ++ t = repeat blank (k + 6) ++ t. Proof. now rewrite app_assoc, <- repeat_app. Qed.
(* the text after the number is a body followed by k blanks *)
Lemma line_match number body k s sec sum : normalize (body ++ repeat blank (k + 6) ++ stamp sec sum) = body ++ repeat blank (k + 6) ++ stamp sec sum ->
  (exists c t, body = c :: t /\ isSpaceU c = false) -> (forall t, kifBody (body ++ t) = Some (s, t)) ->
  matchKif (normalize (kifLine number (body ++ repeat blank k) sec sum)) = Some (s, Some (num (sec / 60) ++ colon :: two (sec mod 60))).
Proof.
  intros N (c & t & E & C) B. unfold kifLine. rewrite normalize_app by apply pad_calm. change (normalize (blank :: ?x)) with (normalize ([blank] ++ x)).
  rewrite (normalize_app [blank]) by reflexivity. rewrite <- (app_assoc body), pad_six, N. unfold padLeft, matchKif. rewrite <- app_assoc.
  destruct (num_cons number) as (d & t' & En & D). destruct (num_facts number) as (_ & F & _).
  assert (S1 : snd (span (N.eqb blank) (repeat blank (4 - List.length (num number)) ++ num number ++ [blank] ++ body ++ repeat blank (k + 6) ++ stamp sec sum)) = num number ++ blank :: body ++ repeat blank (k + 6) ++ stamp sec sum).
  { rewrite En. cbn [app]. rewrite span_run; [reflexivity|apply blanks|now apply dig_not_blank]. }
  rewrite S1, (span_run isDig _ blank _ F eq_refl). rewrite En at 1. clear S1.
  assert (S2 : span isSpaceU (blank :: body ++ repeat blank (k + 6) ++ stamp sec sum) = ([blank], body ++ repeat blank (k + 6) ++ stamp sec sum)).
  { rewrite E. exact (span_run isSpaceU [blank] c _ eq_refl C). }
  rewrite S2, B. cbv zeta. unfold stamp at 1. rewrite (drop_blanks (k + 6) open_ _ eq_refl). fold (stamp sec sum). rewrite stamp_read. reflexivity.
Qed.
