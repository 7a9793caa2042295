(* Model of usi/Engine.py: MultiPVListener.  No proofs. *)
From Verif Require Export Engine.

(* " pv " somewhere in a text *)
Fixpoint hasPv (l : txt) : bool := match l with [] => false | c :: r => match tailOf (tx " pv ") l with Some _ => true | None => hasPv r end end.
Fixpoint spanDigits (l : txt) : txt * txt := match l with [] => ([], []) | c :: r => if isDigit c then (c :: fst (spanDigits r), snd (spanDigits r)) else ([], l) end.
(* re_multipv.match and int of its group, Engine.py:151 and 160-162: the last " multipv " before a number after which " pv " comes *)
Fixpoint lastMulti (l : txt) : option Z :=
  match l with
  | [] => None
  | c :: r =>
      match lastMulti r with
      | Some n => Some n
      | None =>
          match tailOf (tx " multipv ") l with
          | Some t => match spanDigits t with ([], _) => None | (ds, u) => if hasPv u then Some (Z.of_N (readDigits ds 0)) else None end
          | None => None
          end
      end
  end.
Definition matchMulti (line : txt) : option Z := match tailOf (tx "info") line with Some l => lastMulti l | None => None end.
(* a dict in the order of insertion; d[k] = v *)
Definition lines := list (Z * txt).
Fixpoint setLine (k : Z) (v : txt) (d : lines) : lines := match d with [] => [(k, v)] | (k', v') :: d => if (k =? k')%Z then (k, v) :: d else (k', v') :: setLine k v d end.
(* MultiPVListener.__call__, Engine.py:157-163; listen, Engine.py:165-171, starts with the empty dict *)
Definition hearMulti (d : lines) (line : txt) : lines := match matchMulti line with Some k => setLine k line d | None => d end.
(* sorted(d.items()): the keys differ, so that only they are compared *)
Fixpoint insertItem (x : Z * txt) (d : lines) : lines := match d with [] => [x] | y :: r => if (fst x <=? fst y)%Z then x :: d else y :: insertItem x r end.
Definition sortItems (d : lines) : lines := fold_right insertItem [] d.
(* info, Engine.py:173-179: for each line the numbers and the moves; re_info.match gives None for a line that is no report, and None[1] raises TypeError *)
Fixpoint splitLines (d : lines) : outcome (list (dict * list txt)) :=
  match d with
  | [] => Done []
  | (_, line) :: d => match matchInfo line with None => Thrown | Some i => obind (splitInfo i) (fun x => obind (splitLines d) (fun xs => Done ((x, split1 (iPv i)) :: xs))) end
  end.
Definition multiInfo (d : lines) : outcome (list (dict * list txt)) := splitLines (sortItems d).
