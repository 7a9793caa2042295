(* What the theorem on MultiPVListener says, apart from the model. *)
From Coq Require Export Sorted.
From Verif Require Export Multi EngineSpec.

(* the number after the last "multipv" of a report *)
Fixpoint named_rank (xs : list (txt * Z)) : option Z :=
  match xs with [] => None | x :: xs => match named_rank xs with Some k => Some k | None => if list_eq_dec ascii_dec (fst x) (tx "multipv") then Some (snd x) else None end end.
Definition rank (r : report) : option Z := named_rank (rFirst r ++ rThen r).
(* ranks are not negative, and no move is called multipv; other lines do not begin with "info" *)
Definition proper_rank (x : said) : Prop :=
  match x with
  | Report r => proper_report r /\ Forall (fun y => fst y = tx "multipv" -> (0 <= snd y)%Z) (rFirst r ++ rThen r) /\ Forall (fun w => w <> tx "multipv") (rMove r :: rRest r)
  | Other l => forall t, l <> tx "info" ++ t
  end.
(* the last report of a rank *)
Definition has_rank (k : Z) (x : said) : option report :=
  match x with Report r => match rank r with Some k' => if Z.eq_dec k' k then Some r else None | None => None end | Other _ => None end.
Fixpoint last_ranked (k : Z) (xs : list said) : option report :=
  match xs with [] => None | x :: xs => match last_ranked k xs with Some r => Some r | None => has_rank k x end end.
(* what the listener tells of a report: its rank, its score and the moves expected *)
Definition tells (x : Z * report) (y : dict * list txt) : Prop :=
  dictGet (tx "multipv") (fst y) = Some (Number (fst x)) /\
  match rScore (snd x) with Cp n => dictGet (tx "cp") (fst y) = Some (Number n) | Mate n => dictGet (tx "mate") (fst y) = Some (Number n) end /\
  snd y = rMove (snd x) :: rRest (snd x).
