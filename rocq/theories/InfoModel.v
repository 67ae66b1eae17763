(** What a model says about itself: model.py lines 217-328. *)
From Verif Require Import Base Num UnitModel Sympy Node Build EquationModel ModelModel.
Notation num := Verif.Num.num.

(** [i_var.name] for the variables of a list, lines 265, 267. *)
Definition var_names_of (h : heap) (ls : list loc) : list string :=
  map (fun l => match hget h l with Some q => q_name q | None => "" end) ls.

(** _infoInputOutputVariables, lines 249-273 (printing left out). *)
Definition info_in_out (h : heap) (m : mstate) : list string * list string :=
  (var_names_of h (m_in m), var_names_of h (m_out m)).

(** objects_info, lines 223-235. *)
Record objects := mkObjs {
  ob_eqs : list string; ob_cons : list string; ob_pars : list string; ob_vars : list string;
  ob_conns : list string; ob_in : list loc; ob_out : list loc
}.

(** _gatherObjectsInfo_, lines 217-235.  [self.connections] is set to an empty
    dictionary in line 191 and to nothing else in the package. *)
Definition gather_objects (m : mstate) : objects :=
  mkObjs (dkeys (m_eqs m)) (dkeys (m_cons m)) (dkeys (m_pars m)) (dkeys (m_vars m)) [] (m_in m) (m_out m).

(** A line break. *)
Definition nl : string := String (ascii_of_nat 10) EmptyString.

(** _getModelOverviewForGraph, lines 237-247. *)
Definition model_overview (h : heap) (m : mstate) : string :=
  let '(i, o) := info_in_out h m in
  (m_name m ++ nl ++ nl ++ " ->input: " ++ join ", " i ++ nl ++ nl ++ " ->output: " ++ join ", " o ++
   nl ++ nl ++ " ->parameters: " ++ join ", " (ob_pars (gather_objects m)))%string.

(** _infoDegreesOfFreedom_, lines 279-328: the numbers in the printed tables and the
    triple returned. *)
Definition info_dof (m : mstate) : list (list Z) * (Z * Z * Z) :=
  let ne := Z.of_nat (List.length (m_eqs m)) in
  let nv := Z.of_nat (List.length (m_vars m)) in
  let np := Z.of_nat (List.length (m_pars m)) in
  let design := (ne - (nv + np))%Z in
  ([[ne; nv; np]; [0; 0]; [0]; [design; 0; 0]]%Z, (design, 0%Z, 0%Z)).
