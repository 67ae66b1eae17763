(** Specification vocabulary: the units written in a program (C61). *)
From Verif Require Import Base Num UnitModel Sympy Node Build EquationModel ModelModel ProblemModel SpecUnits SpecProblem.
Notation num := Verif.Num.num.

(** The unit a statement creates a quantity with. *)
Definition cmd_unit (c : cmd) : list unit :=
  match c with
  | CVar _ _ u _ _ _ | CPar _ _ u _ | CCon _ _ u _ => [u]
  | _ => []
  end.
Definition written_units (acts : list act) : list unit :=
  flat_map (fun a => match a with
                     | ANew _ d => flat_map cmd_unit (d_cons d ++ d_pars d ++ d_vars d ++ d_eqs d)
                     | AStmt _ c => cmd_unit c
                     | _ => []
                     end) acts.
