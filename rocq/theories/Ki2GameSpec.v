(* What the theorems on whole KI2 games say, apart from the model. *)
From Verif Require Export Ki2Game Ki2Spec KifSpec.

Definition played (ms : list noted) : list N := map nMove ms.
(* an empty comment is no comment *)
Definition comment_of (m : noted) : option Text := match nComment m with Some [] => None | c => c end.
