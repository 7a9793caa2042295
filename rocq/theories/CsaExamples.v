(* Concrete CSA records. *)
From Verif Require Export CommandExamples GenExamples.
From Verif Require Export RotateFinal CsaFinal.
Local Open Scope N_scope.

Definition pieceSame (x y : option (color * kind)) : bool :=
  match x, y with Some (c, k), Some (d, j) => color_eqb c d && kind_eqb k j | None, None => true | _, _ => false end.
Lemma pieceSame_eq x y : pieceSame x y = true -> x = y.
Proof. destruct x as [[c k]|], y as [[d j]|]; cbn [pieceSame]; try discriminate; auto. intros H. apply andb_prop in H as [A B]. apply color_eqb_eq in A. apply kind_eqb_iff in B. now subst. Qed.
Lemma at_same f g : (forall s, ~ on_board s -> f s = None) -> (forall s, ~ on_board s -> g s = None) -> forallb (fun s => pieceSame (f s) (g s)) all_squares = true -> forall s, f s = g s.
Proof.
  intros F G H s. destruct (in_dec (fun a b : square => ltac:(decide equality; apply Z.eq_dec) : {a = b} + {a <> b}) s all_squares) as [I|N]; [rewrite forallb_forall in H; now apply pieceSame_eq, H|].
  rewrite all_squares_iff in N. now rewrite F, G.
Qed.
Lemma proper_off P s : proper P -> ~ on_board s -> at_square P s = None.
Proof. intros Pr N. destruct (at_square P s) eqn:E; [|reflexivity]. destruct N. apply (pr_board P Pr). congruence. Qed.
(* the initial position *)
Lemma start_array_proper : proper startArray. Proof. exact (proj2 (proj2 (proj2 (properB_ok _ _ _ start_ok)))). Qed.
Lemma start_array_wf : well_formed startArray. Proof. eapply well_formed_same; [exact start1_array|exact start1_wf]. Qed.
Lemma start_array_legal : legal_moves startArray twoMoves. Proof. exact (legal_moves_same _ _ _ start1_array two_legal1). Qed.
Lemma start_array_run : forallb (fun s => pieceSame (at_square startArray s) (initial_at s)) all_squares = true. Proof. vm_compute. reflexivity. Qed.
Lemma start_array_at s : at_square startArray s = initial_at s.
Proof.
  apply at_same; [intros t; apply proper_off, start_array_proper| |exact start_array_run]. intros t N. destruct (initial_at t) eqn:E; [|reflexivity]. destruct N. exact (initial_board t _ E).
Qed.
Lemma start_array_hand c k : in_hand startArray c k = 0%Z. Proof. destruct c, k; reflexivity. Qed.
Lemma start_block : csa_block startArray ["PI"; "+"]%string.
Proof.
  exact (block_initial startArray [] (NoDup_nil _) (Forall_nil _) (fun s H => match H with end) (fun s _ => start_array_at s) start_array_hand).
Qed.
Lemma some_csa_hands : csa_hands (abs (bpos someHands)) = [(Sente, repeat FU 9); (Sente, [KE]); (Sente, [KA]); (Gote, [KE; KE]); (Gote, [GI; GI; GI])]. Proof. vm_compute. reflexivity. Qed.
(* a whole game record *)
Definition someRecord : csa_record :=
  mkCsaRecord [Version "V2.2"; Name Sente "Ann"; Name Gote "Bo"; Information "$EVENT:x"; Said "'hello"] [""%string; "'go"%string]
    [mkEntry (Go (7, 7) (7, 6) false)%Z (Some "first"%string) [Spent 12; Spent 15]%Z; mkEntry (Go (3, 3) (3, 4) false)%Z None [Score (-30) "-30 3334FU"; Remark "'well"; Spent 4]%Z]
    (Some (mkEnding "%TORYO" (Some "x"%string) [Spent 9]%Z)).
Definition someLines : list string :=
  ["V2.2"; "N+Ann"; "N-Bo"; "$EVENT:x"; "'hello"; "PI"; "+"; ""; "'go"; "+7776FU,'first"; "T12"; "T15"; "-3334FU"; "'** -30 3334FU"; "'well"; "T4"; "%TORYO,x"; "T9"]%string.
Lemma small_comment s : starts "'" (la s) && negb (starts "'black_rate:" (la s)) && negb (starts "'white_rate:" (la s)) && negb (starts "'** " (la s)) && negb (starts "'summary:" (la s)) = true -> comment_line s.
Proof.
  intros H. repeat apply andb_prop in H as [H ?]. rewrite ?negb_true_iff in *. unfold comment_line. rewrite <- !starts_iff. repeat split; congruence.
Qed.
Lemma num12 : numeral "12" 12. Proof. exact (num_more "1" 1 2 (num_one 1 ltac:(lia)) ltac:(lia)). Qed.
Lemma num15 : numeral "15" 15. Proof. exact (num_more "1" 1 5 (num_one 1 ltac:(lia)) ltac:(lia)). Qed.
Lemma num30 : numeral "30" 30. Proof. exact (num_more "3" 3 0 (num_one 3 ltac:(lia)) ltac:(lia)). Qed.
Definition entry1 : entry := mkEntry (Go (7, 7) (7, 6) false)%Z (Some "first"%string) [Spent 12; Spent 15]%Z.
Definition entry2 : entry := mkEntry (Go (3, 3) (3, 4) false)%Z None [Score (-30) "-30 3334FU"; Remark "'well"; Spent 4]%Z.
Lemma move_text1 : "+7776FU,'first"%string = move_text startArray entry1. Proof. vm_compute. reflexivity. Qed.
Lemma move_text2 : "-3334FU"%string = move_text (play startArray (e_move entry1)) entry2. Proof. vm_compute. reflexivity. Qed.
Lemma some_entries : entries_text startArray (c_entries someRecord) ["+7776FU,'first"; "T12"; "T15"; "-3334FU"; "'** -30 3334FU"; "'well"; "T4"]%string.
Proof.
  rewrite move_text1, move_text2. change (c_entries someRecord) with [entry1; entry2].
  apply (entries_next _ _ _ ["T12"; "T15"]%string).
  - cbn [e_extras]. repeat constructor; [exists "12"%string; split; [reflexivity|]; split; [exact num12|vm_compute; discriminate]|exists "15"%string; split; [reflexivity|]; split; [exact num15|vm_compute; discriminate]].
  - apply (entries_next _ _ _ ["'** -30 3334FU"; "'well"; "T4"]%string []%list).
    + cbn [e_extras]. constructor; [|constructor; [|constructor; [|constructor]]].
      * split; [reflexivity|]. exists "-30"%string, " 3334FU"%string. split; [reflexivity|]. split; [right; now exists "3334FU"%string|]. split; [exact (int_minus _ _ num30)|vm_compute; split; discriminate].
      * split; [reflexivity|]. apply small_comment. reflexivity.
      * exists "4"%string. split; [reflexivity|]. split; [exact (num_one 4 ltac:(lia))|vm_compute; discriminate].
    + constructor.
Qed.
Lemma some_record : record_text startArray someRecord someLines.
Proof.
  exists ["V2.2"; "N+Ann"; "N-Bo"; "$EVENT:x"; "'hello"]%string, ["PI"; "+"]%string, ["+7776FU,'first"; "T12"; "T15"; "-3334FU"; "'** -30 3334FU"; "'well"; "T4"]%string, ["%TORYO,x"; "T9"]%string.
  split; [|split; [exact start_block|]]; [|split; [|split; [exact some_entries|]]; [|split; [|split; [reflexivity|]]]].
  - repeat constructor; [now exists "2.2"%string|now exists "EVENT:x"%string|apply small_comment; reflexivity..].
  - cbn [c_between someRecord]. constructor; [now left|]. constructor; [|constructor]. right. apply small_comment. reflexivity.
  - cbn [c_ending someRecord ending_text word_ after_comma e_after]. split; [now exists "TORYO"%string|]. split; [intros I; cbn in I; intuition discriminate|]. split; [intros x n s [<-|[]]; discriminate|]. exists ["T9"%string]. split; [|reflexivity].
    constructor; [|constructor]. exists "9"%string. split; [reflexivity|]. split; [exact (num_one 9 ltac:(lia))|vm_compute; discriminate].
  - unfold someLines. repeat (constructor; [apply one_small; reflexivity|]). constructor.
Qed.
Definition someGood : Prop := record_text startArray someRecord someLines /\ well_formed startArray /\ legal_moves startArray (map e_move (c_entries someRecord)).
Lemma some_good : someGood. Proof. exact (conj some_record (conj start_array_wf start_array_legal)). Qed.
Lemma some_says : time_of entry1 = 15%Z /\ comment_of entry2 = "-30 3334FU"%string /\
  all_comments someRecord = ["'hello"; "'go"; "'well"]%string /\ end_winner (side (play_all startArray (map e_move (c_entries someRecord)))) (c_ending someRecord) = Some Gote.
Proof. repeat split; reflexivity. Qed.

(* two records in one text *)
Lemma two_matches : Forall match_text [joined someLines; joined ["PI"; "+"]%string].
Proof.
  constructor; [|constructor; [|constructor]].
  - exists someLines. split; [discriminate|]. split; [unfold someLines; repeat (constructor; [apply one_small; reflexivity|]); constructor|]. split; [|reflexivity]. intros I. cbn [someLines In] in I. intuition discriminate.
  - exists ["PI"; "+"]%string. split; [discriminate|]. split; [repeat (constructor; [apply one_small; reflexivity|]); constructor|]. split; [|reflexivity]. intros I. cbn [In] in I. intuition discriminate.
Qed.
Lemma second_match z stof : okZob z -> exists g, parseCsa z stof (joined ["PI"; "+"]%string) = Done g.
Proof.
  intros Z. destruct (record_read z stof startArray (mkCsaRecord [] [] [] None) ["PI"; "+"]%string Z) as (g & b0 & b & E & _); [|exact start_array_wf|exact I|now exists g].
  exists [], ["PI"; "+"]%string, [], []. split; [constructor|]. split; [exact start_block|]. split; [constructor|]. split; [constructor|]. split; [reflexivity|]. split; [reflexivity|]. repeat (constructor; [apply one_small; reflexivity|]). constructor.
Qed.
Lemma both_matches z stof : okZob z -> exists gs, Forall2 (fun t g => parseCsa z stof t = Done g) [joined someLines; joined ["PI"; "+"]%string] gs.
Proof.
  intros Z. destruct (record_read z stof startArray someRecord someLines Z some_record start_array_wf start_array_legal) as (g & b0 & b & E & _). destruct (second_match z stof Z) as (g' & E'). exists [g; g']. constructor; [exact E|]. constructor; [exact E'|constructor].
Qed.

(* pieces by "P+" *)
Definition kingsArray : position := array_position (sparse [(36, 24); (44, 8)]) noHands 0.
Definition onePlaced : list (square * kind) := [((2, 7)%Z, FU)].
Definition kingsPawn : position := array_position (sparse [(36, 24); (44, 8); (19, 1)]) noHands 0.
Lemma kings_ok : properB (sparse [(36, 24); (44, 8)]) noHands 0 = true. Proof. vm_compute. reflexivity. Qed.
Lemma kingsPawn_ok : properB (sparse [(36, 24); (44, 8); (19, 1)]) noHands 0 = true. Proof. vm_compute. reflexivity. Qed.
Lemma kings_proper : proper kingsArray. Proof. exact (proj2 (proj2 (proj2 (properB_ok _ _ _ kings_ok)))). Qed.
Lemma kingsPawn_proper : proper kingsPawn. Proof. exact (proj2 (proj2 (proj2 (properB_ok _ _ _ kingsPawn_ok)))). Qed.
Lemma kings_hand c k : in_hand kingsArray c k = 0%Z. Proof. destruct c, k; reflexivity. Qed.
Lemma one_run : forallb (fun s => pieceSame (at_square kingsPawn s) (at_square (with_pieces swapped kingsArray Sente onePlaced) s)) all_squares = true. Proof. vm_compute. reflexivity. Qed.
Lemma one_board : Forall (fun x => on_board (fst x)) onePlaced. Proof. constructor; [|constructor]. unfold on_board. cbn [fst snd]. lia. Qed.
Lemma one_proper : proper (with_pieces swapped kingsArray Sente onePlaced).
Proof.
  eapply proper_same; [|exact kingsPawn_proper]. split; [|split; [intros c k; destruct c, k; reflexivity|reflexivity]].
  apply at_same; [intros t; apply proper_off, kingsPawn_proper| |exact one_run]. intros t N. cbn [with_pieces at_square onePlaced fold_left fst snd]. unfold put. rewrite sq_eqb_neq; [now apply proper_off; [exact kings_proper|]|]. intros ->. apply N. unfold on_board, swapped. cbn [fst snd]. lia.
Qed.
Lemma swapped_center s : swapped s = s -> s = (5, 5)%Z. Proof. destruct s as [f r]. unfold swapped. cbn [fst snd]. intros E. pose proof (f_equal fst E) as A. pose proof (f_equal snd E) as B. cbn [fst snd] in A, B. assert (f = 5 /\ r = 5)%Z as [-> ->] by lia. reflexivity. Qed.
(* wherever it is written but on 5e, the piece is not put there *)
Theorem placed_elsewhere z stof P c s k : okZob z -> (forall d k, in_hand P d k = 0%Z) -> on_board s -> s <> (5, 5)%Z -> at_square P s = None -> proper (with_pieces swapped P c [(s, k)]) ->
  exists g b, parseCsa z stof (ended (map (csa_rank P) [1; 2; 3; 4; 5; 6; 7; 8; 9]%Z ++ [csa_placed c [(s, k)]; csa_sign (side P)])) = Done g /\ setSfen z (gSfen g) = Done b /\ at_square (abs (bpos b)) s = None.
Proof.
  intros Z H B N E Pr. destruct (placed_read z stof P c [(s, k)] Z H) as (g & Eg & D & _); [constructor; [exact B|constructor]|exact Pr|]. destruct (sfen_denoted z _ _ 1 Z D Pr) as (b & Eb & (A & _) & _); [vm_compute; discriminate|].
  exists g, b. split; [exact Eg|]. split; [exact Eb|]. rewrite A. cbn [with_pieces at_square fold_left fst snd]. unfold put. rewrite sq_eqb_neq; [exact E|]. intros X. apply N, swapped_center. now symmetry.
Qed.
Lemma one_elsewhere : on_board (2, 7)%Z /\ at_square kingsArray (2, 7)%Z = None. Proof. split; [unfold on_board; cbn [fst snd]; lia|vm_compute; reflexivity]. Qed.
(* on 5e it is *)
Lemma center_board : on_board (5, 5)%Z. Proof. unfold on_board. cbn [fst snd]. lia. Qed.
Theorem placed_center z stof P c k : okZob z -> (forall d k, in_hand P d k = 0%Z) -> proper (with_pieces (fun s => s) P c [((5, 5)%Z, k)]) ->
  exists g, parseCsa z stof (ended (map (csa_rank P) [1; 2; 3; 4; 5; 6; 7; 8; 9]%Z ++ [csa_placed c [((5, 5)%Z, k)]; csa_sign (side P)])) = Done g /\ sfen_denotes (gSfen g) (with_pieces (fun s => s) P c [((5, 5)%Z, k)]) 1 /\ gMoves g = [].
Proof.
  intros Z H Pr. apply (placed_read z stof P c [((5, 5)%Z, k)] Z H); [|exact Pr]. constructor; [exact center_board|constructor].
Qed.

(* ---- what is not checked ---- *)
Lemma illegal_recorded stof : exists g, parseCsa z0 stof (joined ["PI"; "+"; "+7775FU"; "-3334FU"]%string) = Done g /\ gMoves g = [0; 68117] /\ gEndgame g = ""%string.
Proof. eexists. split; [vm_compute; reflexivity|split; reflexivity]. Qed.
Lemma crlf_thrown stof : parseCsa z0 stof (joined ["PI"; String "+" (String (ascii_of_nat 13) "")]%string) = Thrown. Proof. vm_compute. reflexivity. Qed.
Lemma score_undefined stof : parseCsa z0 stof (joined ["PI"; "+"; "'** 5"]%string) = Undefined. Proof. vm_compute. reflexivity. Qed.
Lemma cells_undefined stof : parseCsa z0 stof (joined ["P+59OU"; "P-51OU"; "+"]%string) = Undefined. Proof. vm_compute. reflexivity. Qed.
Lemma name_undefined stof : parseCsa z0 stof (joined ["PI82XX"; "+"]%string) = Undefined. Proof. vm_compute. reflexivity. Qed.
Lemma zero_undefined stof : parseCsa z0 stof (joined ["PI"; "P+05FU"; "+"]%string) = Undefined. Proof. vm_compute. reflexivity. Qed.
Lemma summary_undefined stof : parseCsa z0 stof "'summary:illegal move:x" = Undefined. Proof. vm_compute. reflexivity. Qed.
