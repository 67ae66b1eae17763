(** Specification vocabulary for the numbers equations without a name get. *)
From Verif Require Import Base Num UnitModel Sympy Node Build EquationModel SpecExpr SpecModel.
Notation num := Verif.Num.num.

(** Numbers a creation uses up: one if no name is given, and one for the quantity
    made of a plain number on the right of ==. *)
Definition uses_up (c : creation) : nat :=
  ((if String.eqb (c_name c) "" then 1 else 0) + match c_arg c with Some (EATuple _ (ONum _)) => 1 | _ => 0 end)%nat.
(** Numbers used up by thread [t]. *)
Fixpoint used_up (t : nat) (cs : list creation) : nat :=
  match cs with [] => 0 | c :: r => ((if Nat.eqb t (c_thread c) then uses_up c else 0) + used_up t r)%nat end.
