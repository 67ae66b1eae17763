(** What the check of the degrees of freedom says.  Source:
    /repo/src/sloth/analysis.py lines 41-105. *)
From Verif Require Import Base Num UnitModel Sympy Node Build EquationModel ModelModel ProblemModel InfoModel ErrorModel.
Notation num := Verif.Num.num.

(** str of an integer ([format], lines 88 and 94). *)
Definition int_text (z : Z) : string :=
  if z <? 0 then ("-" ++ str_nat (Z.to_nat (- z)))%string else str_nat (Z.to_nat z).

(** What [_dofTest] hands to [format]: the branch taken (line 86 or 92), n_dof,
    var_names_, unspec_param_names, n_eqs and eq_reps, lines 45-55 and 82-84.
    n_vars and n_unspec_params are the lengths of the two lists. *)
Record dof_refusal := mkDof {
  df_over : bool; df_free : Z; df_vars : list string; df_pars : list string; df_eqs : nat; df_reps : list sx }.

(** Names of the parameters that are not specified, line 47. *)
Fixpoint unspecified_names (h : heap) (d : dict loc) : res (list string) :=
  match d with
  | [] => Ok []
  | (_, l) :: r => match hget h l with
                   | None => Raise EName
                   | Some q => let* ns := unspecified_names h r in Ok (if q_spec q then ns else q_name q :: ns)
                   end
  end.

(** [_dofTest], lines 41-105: None when it returns True. *)
Definition dof_analysis (pn : num -> string) (h : heap) (p : problem) : res (option dof_refusal) :=
  match pr_block p with
  | None => Raise EAttribute
  | Some b =>
      let* ns := unspecified_names h (b_pars b) in
      let* t := has_var pn (pr_time p) (b_diff b) in
      let n_eqs := (List.length (b_exprs b) + (if t then 1 else 0))%nat in
      let n_dof := Z.of_nat (List.length (b_varlist b)) + Z.of_nat (List.length ns) - Z.of_nat n_eqs in
      if n_dof <? 0 then Ok (Some (mkDof true n_dof (b_varlist b) ns n_eqs (b_exprs b)))
      else if 0 <? n_dof then Ok (Some (mkDof false n_dof (b_varlist b) ns n_eqs (b_exprs b)))
      else Ok None
  end.

(** The text of the exception, lines 88 and 94; [pe]: str of an expression. *)
Definition dof_text (pe : sx -> string) (c : dof_refusal) : string :=
  (nl ++ "The system is " ++ (if df_over c then "OVER" else "UNDER") ++ "-specified (Nb. Degrees of Freedom = " ++ int_text (df_free c) ++ ")" ++ nl ++
   "    Number of variables:" ++ int_text (Z.of_nat (List.length (df_vars c))) ++ " (" ++ names_text (df_vars c) ++ ") " ++ nl ++
   " Number of unspecified params:" ++ int_text (Z.of_nat (List.length (df_pars c))) ++ " (" ++ names_text (df_pars c) ++ ") " ++ nl ++
   " Number of equations:" ++ int_text (Z.of_nat (df_eqs c)) ++ " " ++ nl ++ " Equations:[" ++ join ", " (map pe (df_reps c)) ++ "]")%string.
