(* The CSA notation of positions and game records, written for the abstract positions of Spec.v.  No proofs. *)
From Verif Require Export SfenSpec TextSpec.
Local Open Scope string_scope.
Local Open Scope bool_scope.
Local Open Scope Z_scope.

Definition line_feed : ascii := ascii_of_nat 10.
(* "+" is black, "-" is white *)
Definition csa_sign (c : color) : string := match c with Sente => "+" | Gote => "-" end.
(* ---- positions ---- *)
Definition csa_cell (x : option (color * kind)) : string := match x with Some (c, k) => csa_sign c ++ csa_name k | None => " * " end.
(* "P1" ... "P9": the squares of a rank, file 9 first *)
Definition csa_rank (P : position) (r : Z) : string := "P" ++ String (digit r) (String.concat "" (map csa_cell (row_of P r))).
(* "P+" or "P-" and pieces in hand as "00FU" *)
Definition csa_hand (x : color * list kind) : string := "P" ++ csa_sign (fst x) ++ String.concat "" (map (fun k => "00" ++ csa_name k) (snd x)).
Definition hand_count (hs : list (color * list kind)) (c : color) (k : kind) : Z :=
  Z.of_nat (List.length (filter (fun y => color_eqb (fst y) c && kind_eqb (snd y) k) (flat_map (fun x => map (pair (fst x)) (snd x)) hs)))%bool.
(* the initial array *)
Definition first_rank : list kind := [KY; KE; GI; KI; OU; KI; GI; KE; KY].
Definition initial_at (s : square) : option (color * kind) :=
  let (f, r) := s in
  if (1 <=? f) && (f <=? 9) then
    if r =? 1 then Some (Gote, nth (Z.to_nat (f - 1)) first_rank OU)
    else if r =? 2 then (if f =? 8 then Some (Gote, HI) else if f =? 2 then Some (Gote, KA) else None)
    else if r =? 3 then Some (Gote, FU)
    else if r =? 7 then Some (Sente, FU)
    else if r =? 8 then (if f =? 8 then Some (Sente, KA) else if f =? 2 then Some (Sente, HI) else None)
    else if r =? 9 then Some (Sente, nth (Z.to_nat (f - 1)) first_rank OU)
    else None
  else None.
(* "PI" and the pieces taken away from the initial array, as "82HI" *)
Definition csa_initial (gone : list (square * kind)) : string := "PI" ++ String.concat "" (map (fun x => csa_square (fst x) ++ csa_name (snd x)) gone).
(* "the lines ls give the position P": nine ranks, the pieces in hand in any order and grouping, and the side to
   move; or the initial array without some pieces, and the side to move *)
Inductive csa_block (P : position) : list string -> Prop :=
| block_ranks hs :
    Forall (fun x => Forall (fun k => In k hand_kinds) (snd x)) hs ->
    (forall c k, In k hand_kinds -> in_hand P c k = hand_count hs c k) ->
    csa_block P (map (csa_rank P) [1; 2; 3; 4; 5; 6; 7; 8; 9] ++ map csa_hand hs ++ [csa_sign (side P)])%list
| block_initial gone :
    NoDup (map fst gone) ->
    Forall (fun x => exists c, initial_at (fst x) = Some (c, snd x)) gone ->
    (forall s, In s (map fst gone) -> at_square P s = None) ->
    (forall s, ~ In s (map fst gone) -> at_square P s = initial_at s) ->
    (forall c k, in_hand P c k = 0) ->
    csa_block P [csa_initial gone; csa_sign (side P)].
(* the lines csa_pos writes: one line for each kind of piece in hand *)
Definition csa_hand_order : list kind := [FU; KY; KE; GI; KI; KA; HI].
Definition csa_hands (P : position) : list (color * list kind) :=
  flat_map (fun c => flat_map (fun k => if in_hand P c k =? 0 then [] else [(c, repeat k (Z.to_nat (in_hand P c k)))]) csa_hand_order) [Sente; Gote].
Definition csa_position (P : position) : list string :=
  (map (csa_rank P) [1; 2; 3; 4; 5; 6; 7; 8; 9] ++ map csa_hand (csa_hands P) ++ [csa_sign (side P)])%list.
(* lines, each followed by a line feed *)
Definition ended (ls : list string) : string := String.concat "" (map (fun l => l ++ String line_feed "") ls).
(* lines with line feeds between them *)
Definition joined (ls : list string) : string := String.concat (String line_feed "") ls.
Definition one_line (s : string) : Prop := ~ In line_feed (list_ascii_of_string s).

(* ---- game records ---- *)
(* a comment without a special meaning *)
Definition begins (p s : string) : Prop := exists t, s = p ++ t.
Definition comment_line (s : string) : Prop :=
  begins "'" s /\ ~ begins "'black_rate:" s /\ ~ begins "'white_rate:" s /\ ~ begins "'** " s /\ ~ begins "'summary:" s.
Inductive integer : string -> Z -> Prop :=
| int_plus s n : numeral s n -> integer s n
| int_minus s n : numeral s n -> integer ("-" ++ s) (- n).
Definition int_max : Z := 2147483647.
(* lines before the position *)
Inductive header := Version (s : string) | Name (c : color) (s : string) | Information (s : string) | Said (s : string) | Blank.
Definition header_text (h : header) (s : string) : Prop :=
  match h with
  | Version v => s = v /\ begins "V" v
  | Name c n => s = "N" ++ csa_sign c ++ n
  | Information i => s = i /\ begins "$" i
  | Said c => s = c /\ comment_line c
  | Blank => s = ""
  end.
(* lines after a move: the time it took, a score with a remark, comments *)
Inductive extra := Spent (t : Z) | Score (n : Z) (s : string) | Remark (s : string) | Nothing.
Definition extra_text (x : extra) (s : string) : Prop :=
  match x with
  | Spent t => exists u, s = "T" ++ u /\ numeral u t /\ t <= int_max
  | Score n t => s = "'** " ++ t /\ exists u rest, t = u ++ rest /\ (rest = "" \/ begins " " rest) /\ integer u n /\ - int_max <= n <= int_max
  | Remark c => s = c /\ comment_line c
  | Nothing => s = ""
  end.
(* a move, with what stands after it on its line, and the lines that follow *)
Record entry := mkEntry { e_move : move; e_comment : option string; e_extras : list extra }.
Definition move_text (P : position) (e : entry) : string :=
  csa_sign (side P) ++ csa_text P (e_move e) ++ match e_comment e with Some c => ",'" ++ c | None => "" end.
Inductive entries_text : position -> list entry -> list string -> Prop :=
| entries_none P : entries_text P [] []
| entries_next P e es xs ls : Forall2 extra_text (e_extras e) xs -> entries_text (play P (e_move e)) es ls ->
    entries_text P (e :: es) (move_text P e :: xs ++ ls)%list.
(* the end: "%TORYO" and so on, perhaps with a comma and more, and lines that follow *)
Record ending := mkEnding { word_ : string; after_comma : option string; e_after : list extra }.
Definition no_comma (s : string) : Prop := ~ In ","%char (list_ascii_of_string s).
Definition ending_text (e : option ending) (ls : list string) : Prop :=
  match e with
  | None => ls = []
  | Some e => begins "%" (word_ e) /\ no_comma (word_ e) /\ (forall x n s, In x (e_after e) -> x <> Score n s) /\
              exists xs, Forall2 extra_text (e_after e) xs /\ ls = (word_ e ++ match after_comma e with Some c => "," ++ c | None => "" end) :: xs
  end.
(* the whole record *)
Record csa_record := mkCsaRecord { c_headers : list header; c_between : list string; c_entries : list entry; c_ending : option ending }.
Definition between_line (s : string) : Prop := s = "" \/ comment_line s.
Definition record_text (P : position) (r : csa_record) (ls : list string) : Prop :=
  exists hs block es en, Forall2 header_text (c_headers r) hs /\ csa_block P block /\ Forall between_line (c_between r) /\
    entries_text P (c_entries r) es /\ ending_text (c_ending r) en /\ ls = (hs ++ block ++ c_between r ++ es ++ en)%list /\ Forall one_line ls.

(* ---- what the record says ---- *)
Definition versions (h : header) : list string := match h with Version v => [v] | _ => [] end.
Definition names_of (c : color) (h : header) : list string := match h with Name c' n => if color_eqb c' c then [n] else [] | _ => [] end.
Definition informations (h : header) : list string := match h with Information i => [i] | _ => [] end.
Definition header_comments (h : header) : list string := match h with Said c => [c] | _ => [] end.
Definition spent (x : extra) : list Z := match x with Spent t => [t] | _ => [] end.
Definition scored (x : extra) : list Z := match x with Score n _ => [n] | _ => [] end.
Definition noted (x : extra) : list string := match x with Score _ t => [t] | _ => [] end.
Definition remarks (x : extra) : list string := match x with Remark c => [c] | _ => [] end.
(* the last one counts *)
Definition time_of (e : entry) : Z := last (flat_map spent (e_extras e)) 0.
Definition score_of (e : entry) : Z := last (flat_map scored (e_extras e)) 0.
Definition comment_of (e : entry) : string := last (flat_map noted (e_extras e)) (match e_comment e with Some c => c | None => "" end).
Definition after_end (en : option ending) : list extra := match en with Some e => e_after e | None => [] end.
(* all comments of the record, in the order of the text *)
Definition all_comments (r : csa_record) : list string :=
  (flat_map header_comments (c_headers r) ++ filter (fun s => negb (String.eqb s "")) (c_between r) ++ flat_map (fun e => flat_map remarks (e_extras e)) (c_entries r) ++
  flat_map remarks (after_end (c_ending r)))%list.
(* who has won when the game ends with c to move *)
Definition winner (c : color) (w : string) : option color :=
  if String.eqb w "%TORYO" || String.eqb w "%TIME_UP" || String.eqb w "%ILLEGAL_MOVE" then Some (other c)
  else if String.eqb w "%KACHI" then Some c
  else if String.eqb w "%+ILLEGAL_ACTION" then Some Gote
  else if String.eqb w "%-ILLEGAL_ACTION" then Some Sente
  else None.
Definition end_word (en : option ending) : string := match en with Some e => word_ e | None => "" end.
Definition end_winner (c : color) (en : option ending) : option color := match en with Some e => winner c (word_ e) | None => None end.
(* cshogi.BLACK_WIN is 1, WHITE_WIN is 2, DRAW is 0 *)
Definition win_code (c : option color) : N := match c with Some Sente => 1%N | Some Gote => 2%N | None => 0%N end.

(* ---- pieces placed by "P+27FU": file, rank and kind ---- *)
Definition csa_placed (c : color) (l : list (square * kind)) : string := "P" ++ csa_sign c ++ String.concat "" (map (fun x => csa_square (fst x) ++ csa_name (snd x)) l).
(* the position with these pieces as well, each on the square g of the one written *)
Definition with_pieces (g : square -> square) (P : position) (c : color) (l : list (square * kind)) : position :=
  mkPosition (fold_left (fun f x => put f (g (fst x)) (Some (c, snd x))) l (at_square P)) (in_hand P) (side P).

(* ---- several records in one text ---- *)
Definition match_mark : string := String line_feed (String "/" (String line_feed "")).
Definition match_text (t : string) : Prop := exists ls, ls <> [] /\ Forall one_line ls /\ ~ In "/" ls /\ t = joined ls.
