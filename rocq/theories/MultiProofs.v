(* MultiPVListener: proofs. *)
From Coq Require Import Lia Permutation.
From Verif Require Export MultiSpec EngineFinal.

Definition sp (ws : list txt) : txt := List.concat (map (cons gap) ws).
Lemma sp_cons w ws : sp (w :: ws) = gap :: w ++ sp ws. Proof. reflexivity. Qed.
Lemma join_sp w ws : join (w :: ws) = w ++ sp ws.
Proof. revert w. induction ws as [|v ws IH]; intros w; [cbn; now rewrite app_nil_r|]. rewrite join_cons, IH. reflexivity. Qed.
(* a text of words after a word: a key with spaces around it is found where a word is *)
Lemma tail_word k w ws : gapless w -> gapless k ->
  tailOf (gap :: k ++ [gap]) (gap :: w ++ sp ws) = if same w k then match ws with [] => None | d :: r => Some (d ++ sp r) end else None.
Proof.
  intros G K. change (tailOf (gap :: k ++ [gap]) (gap :: w ++ sp ws)) with (if Ascii.eqb gap gap then tailOf (k ++ [gap]) (w ++ sp ws) else None). rewrite Ascii.eqb_refl.
  revert w G. induction K as [|c k C K IH]; intros w G.
  - destruct G as [|d w D G]; cbn [app tailOf same].
    + destruct ws as [|v ws]; [reflexivity|]. rewrite sp_cons. cbn [tailOf]. now rewrite Ascii.eqb_refl.
    + rewrite Ascii.eqb_sym, D. reflexivity.
  - destruct G as [|d w D G]; cbn [app tailOf same].
    + destruct ws as [|v ws]; [reflexivity|]. rewrite sp_cons. now rewrite C.
    + rewrite (Ascii.eqb_sym d c). destruct (Ascii.eqb c d); [|reflexivity]. cbn [andb]. exact (IH w G).
Qed.
Lemma tail_solid k c l : Ascii.eqb c gap = false -> tailOf (gap :: k) (c :: l) = None.
Proof. intros C. cbn [tailOf]. now rewrite Ascii.eqb_sym, C. Qed.
Fixpoint pvW (ws : list txt) : bool := match ws with [] => false | w :: r => (same w (tx "pv") && match r with [] => false | _ => true end) || pvW r end.
Lemma pv_solid w l : gapless w -> hasPv (w ++ l) = hasPv l.
Proof. intros G. induction G as [|c w C G IH]; [reflexivity|]. cbn [app]. cbn [hasPv]. change (tx " pv ") with (gap :: tx "pv "). rewrite (tail_solid _ c _ C). exact IH. Qed.
Lemma gapless_pv : gapless (tx "pv"). Proof. repeat constructor. Qed.
Lemma gapless_multi : gapless (tx "multipv"). Proof. repeat constructor. Qed.
Lemma pv_words ws : Forall gapless ws -> hasPv (sp ws) = pvW ws.
Proof.
  intros F. induction F as [|w ws G F IH]; [reflexivity|]. rewrite sp_cons. cbn [hasPv pvW]. change (tx " pv ") with (gap :: tx "pv" ++ [gap]). rewrite (tail_word _ w ws G gapless_pv), (pv_solid w _ G), IH.
  destruct (same w (tx "pv")); [destruct ws; reflexivity|reflexivity].
Qed.
Definition rankAt (ws : list txt) : option Z :=
  match ws with [] => None | d :: r => match spanDigits d with ([], _) => None | (ds, _) => if pvW r then Some (Z.of_N (readDigits ds 0)) else None end end.
Fixpoint lastW (ws : list txt) : option Z := match ws with [] => None | w :: r => match lastW r with Some n => Some n | None => if same w (tx "multipv") then rankAt r else None end end.
Lemma multi_solid w l : gapless w -> lastMulti (w ++ l) = lastMulti l.
Proof. intros G. induction G as [|c w C G IH]; [reflexivity|]. cbn [app]. cbn [lastMulti]. rewrite IH. change (tx " multipv ") with (gap :: tx "multipv "). rewrite (tail_solid _ c _ C). now destruct (lastMulti l). Qed.
Lemma span_words d ws : gapless d -> spanDigits (d ++ sp ws) = (fst (spanDigits d), snd (spanDigits d) ++ sp ws) /\ gapless (snd (spanDigits d)).
Proof.
  intros G. induction G as [|c d C G [IH1 IH2]].
  - split; [|constructor]. destruct ws; reflexivity.
  - cbn [app spanDigits]. destruct (isDigit c); cbn [fst snd]; [rewrite IH1; split; [reflexivity|exact IH2]|]. split; [reflexivity|now constructor].
Qed.
Lemma multi_words ws : Forall gapless ws -> lastMulti (sp ws) = lastW ws.
Proof.
  intros F. induction F as [|w ws G F IH]; [reflexivity|]. rewrite sp_cons. cbn [lastMulti lastW]. rewrite (multi_solid w _ G), IH. destruct (lastW ws); [reflexivity|].
  change (tx " multipv ") with (gap :: tx "multipv" ++ [gap]). rewrite (tail_word _ w ws G gapless_multi). destruct (same w (tx "multipv")); [|reflexivity].
  destruct F as [|d r D F]; [reflexivity|]. destruct (span_words d r D) as [E S]. rewrite E. cbn [rankAt]. destruct (spanDigits d) as [[|x ds] u]; cbn [fst snd] in *; [reflexivity|]. now rewrite (pv_solid u _ S), (pv_words r F).
Qed.
(* ---- the words of a report ---- *)
Lemma lastW_no ws : Forall (fun w => w <> tx "multipv") ws -> forall ys, lastW (ws ++ ys) = lastW ys.
Proof. intros F. induction F as [|w ws N F IH]; intros ys; [reflexivity|]. cbn [app lastW]. rewrite IH, (same_no _ _ N). now destruct (lastW ys). Qed.
Lemma pvW_app ws ys : pvW ys = true -> pvW (ws ++ ys) = true.
Proof. intros H. induction ws as [|w ws IH]; [exact H|]. cbn [app pvW]. rewrite IH. apply orb_true_r. Qed.
Lemma span_all l : Forall (fun c => isDigit c = true) l -> spanDigits l = (l, []).
Proof. intros F. induction F as [|c l C F IH]; [reflexivity|]. cbn [spanDigits]. now rewrite C, IH. Qed.
Lemma rank_number k ys : (0 <= k)%Z -> pvW ys = true -> rankAt (printZ k :: ys) = Some k.
Proof.
  intros K P. unfold rankAt. assert (E : printZ k = printN (Z.to_N k)) by (unfold printZ; destruct (Z.ltb_spec k 0); [lia|]; first [reflexivity|f_equal; lia]).
  rewrite E. destruct (printN_digits (Z.to_N k)) as (A & F & V). rewrite (span_all _ F). destruct (printN (Z.to_N k)) as [|c t]; [contradiction|]. rewrite P, V. f_equal. lia.
Qed.
Lemma number_other k : printZ k <> tx "multipv".
Proof. intros E. pose proof (int_back k) as B. rewrite E in B. discriminate B. Qed.
Lemma named_last xs : Forall (fun y => fst y = tx "multipv" -> (0 <= snd y)%Z) xs -> forall ys, pvW ys = true ->
  lastW (List.concat (map named xs) ++ ys) = match lastW ys with Some n => Some n | None => named_rank xs end.
Proof.
  intros F. induction F as [|[w k] xs H F IH]; intros ys P; [cbn; now destruct (lastW ys)|]. cbn [fst snd] in H. cbn [map List.concat named fst snd app]. cbn [lastW]. rewrite (same_no _ _ (number_other k)), (IH ys P). cbn [named_rank fst snd].
  destruct (lastW ys) as [n|]; [reflexivity|]. destruct (named_rank xs) as [n|]; [reflexivity|]. destruct (list_eq_dec ascii_dec w (tx "multipv")) as [E|N]; [|now rewrite (same_no _ _ N)].
  rewrite E, same_refl. apply rank_number; [exact (H E)|]. now apply pvW_app.
Qed.
Lemma worth_last w : Forall (fun w => w <> tx "multipv") (worth_words w).
Proof. destruct w as [n|n]; cbn [worth_words]; (constructor; [discriminate|constructor; [discriminate|constructor; [apply number_other|constructor]]]). Qed.
Lemma named_rank_app xs ys : named_rank (xs ++ ys) = match named_rank ys with Some k => Some k | None => named_rank xs end.
Proof. induction xs as [|x xs IH]; [cbn; now destruct (named_rank ys)|]. cbn [app named_rank]. rewrite IH. now destruct (named_rank ys). Qed.
Lemma multi_report r : proper_rank (Report r) -> matchMulti (report_line r) = rank r.
Proof.
  intros (P & K & M). pose proof (report_tokens r P) as T. destruct P as (_ & _ & Mv).
  assert (E : report_line r = tx "info" ++ sp (report_words r ++ tx "pv" :: rMove r :: rRest r)) by (unfold report_line; rewrite join_sp; unfold report_words; rewrite <- !app_assoc; reflexivity).
  unfold matchMulti. rewrite E, after_app, multi_words.
  - apply Forall_app in K as [K1 K2]. unfold report_words. rewrite <- !app_assoc. set (ys := tx "pv" :: rMove r :: rRest r).
    assert (Py : pvW ys = true) by reflexivity. assert (Ly : lastW ys = None).
    { unfold ys. rewrite <- (app_nil_r (tx "pv" :: rMove r :: rRest r)). rewrite lastW_no; [reflexivity|]. constructor; [discriminate|exact M]. }
    rewrite (named_last _ K1) by (apply pvW_app, pvW_app; exact Py). rewrite (lastW_no _ (worth_last _)), (named_last _ K2 ys Py), Ly. unfold rank. rewrite named_rank_app. now destruct (named_rank (rThen r)).
  - apply Forall_app. split; [eapply Forall_impl; [|exact T]; intros w [X _]; now apply token_gapless|]. constructor; [exact gapless_pv|]. eapply Forall_impl; [|exact Mv]. intros w [X _]. now apply token_gapless.
Qed.
(* ---- the dict ---- *)
Lemma put_keys k v d k' : In k' (map fst (setLine k v d)) <-> k' = k \/ In k' (map fst d).
Proof.
  induction d as [|[a b] d IH]; cbn [setLine map fst In]; [intuition|]. destruct (Z.eqb_spec k a) as [->|N]; cbn [map fst In]; [intuition|]. rewrite IH. intuition.
Qed.
Lemma put_nodup k v d : NoDup (map fst d) -> NoDup (map fst (setLine k v d)).
Proof.
  induction d as [|[a b] d IH]; intros N; cbn [setLine map fst]; [repeat constructor; intros []|]. cbn [map fst] in N. inversion N as [|? ? X Y]; subst. destruct (Z.eqb_spec k a) as [->|D]; cbn [map fst]; [now constructor|].
  constructor; [|now apply IH]. rewrite put_keys. intros [E|E]; [now apply D|contradiction].
Qed.
Lemma put_in k v d : NoDup (map fst d) -> forall k' l, In (k', l) (setLine k v d) <-> (k' = k /\ l = v) \/ (k' <> k /\ In (k', l) d).
Proof.
  induction d as [|[a b] d IH]; intros N k' l; cbn [setLine In]; [split; [intros [E|[]]; injection E as <- <-; auto|intros [[-> ->]|[_ []]]; auto]|]. cbn [map fst] in N. inversion N as [|? ? X Y]; subst.
  assert (Q : forall l', In (a, l') d -> False) by (intros l' I; apply X; exact (in_map fst _ _ I)).
  destruct (Z.eqb_spec k a) as [->|D]; cbn [In].
  - split; [intros [E|I]; [injection E as <- <-; auto|right; split; [intros ->; exact (Q _ I)|auto]]|]. intros [[-> ->]|[Nk [E|I]]]; [auto|injection E as -> ->; contradiction|auto].
  - rewrite (IH Y k' l). split; [intros [E|[[-> ->]|[Nk I]]]; [injection E as <- <-; right; split; [congruence|auto]|auto|auto]|]. intros [[-> ->]|[Nk [E|I]]]; auto.
Qed.
Lemma last_snoc k xs x : last_ranked k (xs ++ [x]) = match has_rank k x with Some r => Some r | None => last_ranked k xs end.
Proof. induction xs as [|y xs IH]; [cbn; now destruct (has_rank k x)|]. cbn [app last_ranked]. rewrite IH. now destruct (has_rank k x). Qed.
Lemma heard_dict xs : Forall proper_rank xs -> let d := fold_left hearMulti (map line_of xs) [] in
  NoDup (map fst d) /\ forall k l, In (k, l) d <-> exists r, last_ranked k xs = Some r /\ l = report_line r.
Proof.
  induction xs as [|x xs IH] using rev_ind; intros F; [cbn; split; [constructor|]; intros k l; split; [intros []|intros (r & E & _); discriminate E]|].
  apply Forall_app in F as [F Fx]. inversion Fx as [|? ? X _]; subst. destruct (IH F) as [N I]. rewrite map_app, fold_left_app. cbn [map fold_left]. set (d := fold_left hearMulti (map line_of xs) []) in *. cbv zeta. unfold hearMulti.
  destruct x as [r|line]; cbn [line_of].
  - rewrite (multi_report r X). destruct (rank r) as [k0|] eqn:Rk.
    + split; [now apply put_nodup|]. intros k l. rewrite (put_in _ _ _ N), last_snoc. cbn [has_rank]. rewrite Rk. destruct (Z.eq_dec k0 k) as [->|D].
      * split; [intros [[_ ->]|[C _]]; [eauto|contradiction]|]. intros (r' & E & ->). injection E as <-. auto.
      * rewrite I. split; [intros [[-> _]|[_ H]]; [contradiction|exact H]|]. intros H. right. split; [congruence|exact H].
    + split; [exact N|]. intros k l. rewrite I, last_snoc. cbn [has_rank]. rewrite Rk. reflexivity.
  - assert (E : matchMulti line = None) by (unfold matchMulti; destruct (tailOf (tx "info") line) as [t|] eqn:E; [apply after_some in E; now apply X in E|reflexivity]).
    rewrite E. split; [exact N|]. intros k l. rewrite I, last_snoc. reflexivity.
Qed.
(* ---- sorting ---- *)
Lemma insert_perm x d : Permutation (insertItem x d) (x :: d).
Proof. induction d as [|y d IH]; [reflexivity|]. cbn [insertItem]. destruct (fst x <=? fst y)%Z; [reflexivity|]. rewrite IH. apply perm_swap. Qed.
Lemma sort_perm d : Permutation (sortItems d) d.
Proof. induction d as [|x d IH]; [reflexivity|]. cbn [sortItems fold_right]. fold (sortItems d). rewrite insert_perm. now constructor. Qed.
Definition below (a b : Z * txt) : Prop := (fst a < fst b)%Z.
Lemma insert_sorted x d : StronglySorted below d -> ~ In (fst x) (map fst d) -> StronglySorted below (insertItem x d).
Proof.
  intros S. induction S as [|y d S IH F]; intros N; cbn [insertItem]; [repeat constructor|]. cbn [map In] in N. destruct (Z.leb_spec (fst x) (fst y)) as [L|L].
  - constructor; [now constructor|]. assert (B : below x y) by (unfold below; assert (fst y <> fst x) by tauto; lia). constructor; [exact B|]. eapply Forall_impl; [|exact F]. intros z. unfold below in *. lia.
  - constructor; [apply IH; tauto|]. apply Forall_forall. intros z I. apply (Permutation_in _ (insert_perm x d)) in I as [<-|I]; [exact L|]. rewrite Forall_forall in F. now apply F.
Qed.
Lemma sort_sorted d : NoDup (map fst d) -> StronglySorted below (sortItems d).
Proof.
  induction d as [|x d IH]; intros N; [constructor|]. cbn [map] in N. inversion N as [|? ? X Y]; subst. cbn [sortItems fold_right]. fold (sortItems d). apply insert_sorted; [now apply IH|].
  intros I. apply X. eapply Permutation_in; [|exact I]. apply Permutation_map, sort_perm.
Qed.
(* ---- what is told ---- *)
Lemma get_multi xs d : dictGet (tx "multipv") (numbers xs d) = match named_rank xs with Some k => Some (Number k) | None => dictGet (tx "multipv") d end.
Proof.
  revert d. induction xs as [|[w k] xs IH]; intros d; [reflexivity|]. change (numbers ((w, k) :: xs) d) with (numbers xs ((w, Number k) :: d)). rewrite IH. cbn [named_rank fst snd]. destruct (named_rank xs); [reflexivity|].
  cbn [dictGet]. destruct (list_eq_dec ascii_dec w (tx "multipv")) as [->|N]; [now rewrite same_refl|]. rewrite same_no; [reflexivity|congruence].
Qed.
Lemma told k r : proper_report r -> rank r = Some k -> exists x, splitInfo (info_of r) = Done x /\ tells (k, r) (x, split1 (iPv (info_of r))).
Proof.
  intros P Rk. exists (numbers (rThen r) (worth_entry (rScore r) ++ numbers (rFirst r) [])). split; [now apply report_split|]. destruct P as (A & B & M). unfold tells. cbn [fst snd]. split; [|split].
  - rewrite get_multi. unfold rank in Rk. rewrite named_rank_app in Rk. destruct (named_rank (rThen r)); [congruence|].
    assert (W : dictGet (tx "multipv") (worth_entry (rScore r) ++ numbers (rFirst r) []) = dictGet (tx "multipv") (numbers (rFirst r) [])) by (destruct (rScore r); reflexivity). rewrite W, get_multi, Rk. reflexivity.
  - destruct (rScore r) as [n|n]; (rewrite get_numbers; [reflexivity|exact B|cbn; auto]).
  - unfold info_of. cbn [iPv]. apply split_join; [discriminate|]. eapply Forall_impl; [|exact M]. intros w [X _]. now apply token_gapless.
Qed.
Lemma last_sound k xs r : Forall proper_rank xs -> last_ranked k xs = Some r -> proper_report r /\ rank r = Some k.
Proof.
  intros F. induction F as [|x xs X F IH]; [discriminate|]. cbn [last_ranked]. destruct (last_ranked k xs); [exact IH|]. destruct x as [r0|]; [|discriminate]. cbn [has_rank]. destruct (rank r0) as [k0|] eqn:Rk; [|discriminate].
  destruct (Z.eq_dec k0 k) as [->|]; [|discriminate]. intros E. injection E as <-. split; [apply X|exact Rk].
Qed.
Lemma lines_told xs d : Forall proper_rank xs -> StronglySorted below d -> (forall k l, In (k, l) d -> exists r, last_ranked k xs = Some r /\ l = report_line r) ->
  exists rs ds, map fst rs = map fst d /\ StronglySorted (fun a b => fst a < fst b)%Z rs /\ (forall k r, In (k, r) rs -> last_ranked k xs = Some r) /\ splitLines d = Done ds /\ Forall2 tells rs ds.
Proof.
  intros F S. induction S as [|[k l] d S IH B]; intros I; [exists [], []; repeat split; try constructor; intros ? ? []|]. destruct IH as (rs & ds & Ek & Sr & Ir & Sp & T); [intros k' l' X; apply I; now right|].
  destruct (I k l (or_introl eq_refl)) as (r & E & ->). destruct (last_sound k xs r F E) as [P Rk]. destruct (told k r P Rk) as (x & Ex & Tx). exists ((k, r) :: rs), ((x, split1 (iPv (info_of r))) :: ds).
  split; [cbn [map fst]; now rewrite Ek|]. split; [|split; [|split]].
  - constructor; [exact Sr|]. apply Forall_forall. intros y Iy. apply (in_map fst) in Iy. rewrite Ek in Iy. apply in_map_iff in Iy as (w & Ew & Iw). rewrite <- Ew. rewrite Forall_forall in B. exact (B w Iw).
  - intros k' r' [X|X]; [injection X as <- <-; exact E|now apply Ir].
  - cbn [splitLines]. rewrite (report_match r P). fold (info_of r). rewrite Ex. cbn [obind]. rewrite Sp. reflexivity.
  - now constructor.
Qed.
Lemma multi_told xs : Forall proper_rank xs -> exists rs ds, multiInfo (fold_left hearMulti (map line_of xs) []) = Done ds /\ Forall2 tells rs ds /\
  StronglySorted (fun a b => fst a < fst b)%Z rs /\ forall k r, In (k, r) rs <-> last_ranked k xs = Some r.
Proof.
  intros F. destruct (heard_dict xs F) as [N I]. set (d := fold_left hearMulti (map line_of xs) []) in *.
  assert (J : forall x, In x (sortItems d) <-> In x d) by (intros x; split; apply Permutation_in; [apply sort_perm|symmetry; apply sort_perm]).
  destruct (lines_told xs (sortItems d) F (sort_sorted d N)) as (rs & ds & Ek & Sr & Ir & Sp & T); [intros k l X; apply I, J; exact X|]. exists rs, ds. split; [exact Sp|]. split; [exact T|]. split; [exact Sr|].
  intros k r. split; [apply Ir|]. intros E. assert (X : In k (map fst rs)) by (rewrite Ek; apply (in_map fst (sortItems d) (k, report_line r)), J, I; eauto).
  apply in_map_iff in X as ([k' r'] & <- & X). cbn [fst] in *. pose proof (Ir _ _ X) as E'. rewrite E in E'. injection E' as <-. exact X.
Qed.
