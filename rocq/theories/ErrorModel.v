(** What refusals say: /repo/src/sloth/core/error_definitions.py, and the
    operations that raise its errors, with what they hand to the constructors of
    the errors.  The other model files keep only the class of an exception;
    C93_same says that both agree. *)
From Verif Require Import Base Num UnitModel Sympy Node Build EquationModel ModelModel ProblemModel InfoModel.
Notation num := Verif.Num.num.

(** An error with the attributes its constructor sets: DimensionalCoherenceError
    lines 147-157 ([None] stands for the dictionary that replaces None),
    UnexpectedObjectDeclarationError lines 33-37, ExposedVariableError lines 11-19,
    UnexpectedValueError lines 75-77; the built-in ones carry nothing of interest. *)
Inductive failure :=
| FCoherence (a b : option unit)
| FUndeclared (used : list string) (info : objects)
| FExposed (outs ins : list string) (o i : string)
| FExpected (what : string)
| FOther (e : exn).

(** The class of the error. *)
Definition failure_kind (f : failure) : exn :=
  match f with
  | FCoherence _ _ => EDimCoherence
  | FUndeclared _ _ => EUnexpectedObject
  | FExposed _ _ _ _ => EExposedVariable
  | FExpected _ => EUnexpectedValue
  | FOther e => e
  end.

(** The outcome of an operation, with the error. *)
Inductive outcome (A : Type) := Done (a : A) | Failed (f : failure).
Arguments Done {A} a.
Arguments Failed {A} f.
Definition erase {A} (o : outcome A) : res A :=
  match o with Done a => Ok a | Failed f => Raise (failure_kind f) end.
Definition lift {A} (r : res A) : outcome A := match r with Ok a => Done a | Raise e => Failed (FOther e) end.

(** ** The texts *)
(** str of a dictionary of dimensions.  Simplification: repr of a text puts it
    between apostrophes, which is so for texts without apostrophes and backslashes. *)
Definition dim_text (pn : num -> string) (u : unit) : string :=
  ("{" ++ join ", " (map (fun kv => "'" ++ fst kv ++ "': " ++ pn (snd kv))%string (u_dim u)) ++ "}")%string.
(** str of a list of texts, same simplification. *)
Definition names_text (l : list string) : string :=
  ("[" ++ join ", " (map (fun x => "'" ++ x ++ "'")%string l) ++ "]")%string.
(** str of objects_info (model.py lines 223-235); [ex]: that of the exposed
    variables, which shows addresses. *)
Definition info_text (ex : string) (o : objects) : string :=
  ("{'equations': " ++ names_text (ob_eqs o) ++ ", 'constants': " ++ names_text (ob_cons o) ++ ", 'parameters': " ++ names_text (ob_pars o) ++
   ", 'variables': " ++ names_text (ob_vars o) ++ ", 'connections': " ++ names_text (ob_conns o) ++ ", 'exposed_vars': " ++ ex ++ "}")%string.

(** __str__ of the errors: lines 159-167, 39-43, 21-25, 79-83.  A dictionary in
    place of a unit has no attribute [dimension]. *)
Definition failure_text (pn : num -> string) (ex : string) (f : failure) : res string :=
  match f with
  | FCoherence (Some u) (Some v) =>
      Ok ("Dimensions are incoherent " ++ nl ++ "(" ++ dim_text pn u ++ nl ++ " != " ++ nl ++ dim_text pn v ++ ").")%string
  | FCoherence _ _ => Raise EAttribute
  | FUndeclared used info =>
      Ok ("Unexpected object declaration error. " ++ nl ++ " The following objects were used: " ++ names_text used ++ " " ++ nl ++
          " But the following objects were declared for the current model. " ++ nl ++ " " ++ info_text ex info)%string
  | FExposed outs ins o i =>
      Ok ("Non-exposed variable declaration in the output model(1) " ++ nl ++ " " ++ names_text outs ++ " " ++ nl ++ " and/or input model(2) " ++ nl ++
          " " ++ names_text ins ++ ". " ++ nl ++ " The declared output variable name is " ++ o ++ ", and the input variable name is " ++ i ++ ".")%string
  | FExpected what => Ok ("Unexpected value error. A " ++ what ++ " was expected, but one divergent type was supplied.")%string
  | FOther _ => Ok ""
  end.

(** ** The operations *)
(** Unit.__add__ and __sub__, unit.py lines 120-164. *)
Definition unit_sum (u v : unit) : outcome unit :=
  match coherent u v with
  | Raise e => Failed (FOther e)
  | Ok true => Done u
  | Ok false => Failed (FCoherence (Some u) (Some v))
  end.

(** EquationNode.__add__, expression_evaluation.py lines 150-203. *)
Definition node_add_said (a : node) (o : opd) : outcome node :=
  match o with
  | ONode b => match unit_sum (nd_unit a) (nd_unit b) with
               | Failed f => Failed f
               | Done _ => lift (node_add a o)
               end
  | ONum _ => lift (node_add a o)
  | OOther => Failed (FExpected "(int, float, EquationNode)")
  end.
(** EquationNode.__sub__, lines 221-273. *)
Definition node_sub_said (a : node) (o : opd) : outcome node :=
  match o with
  | ONode b => match unit_sum (nd_unit a) (nd_unit b) with
               | Failed f => Failed f
               | Done _ => lift (node_sub a o)
               end
  | ONum _ => lift (node_sub a o)
  | OOther => Failed (FExpected "(int, float, EquationNode)")
  end.
(** EquationNode.__pow__, lines 521-580; line 560 gives None as the second unit. *)
Definition node_pow_said (a : node) (o : opd) : outcome node :=
  match o with
  | ONode b => if is_dimensionless (nd_unit b) then lift (node_pow a o) else Failed (FCoherence (Some (nd_unit b)) None)
  | ONum _ => lift (node_pow a o)
  | OOther => Failed (FExpected "(int, float, EquationNode)")
  end.

(** Quantity.setValue, quantity.py lines 73-105. *)
Definition set_value_said (q : qty) (a : svarg) (u : option unit) : outcome qty :=
  match a with
  | SVQty p =>
      if isinstance_of p q then
        match u with
        | None => match coherent (q_units p) (q_units q) with
                  | Raise e => Failed (FOther e)
                  | Ok true => Done (set_qvalue q (q_value p))
                  | Ok false => Failed (FCoherence (Some (q_units q)) (Some (q_units p)))
                  end
        | Some _ => Failed (FCoherence (Some (q_units q)) (Some (q_units p)))
        end
      else Failed (FExpected "(Quantity, float, int)")
  | SVNum (PFloat f) => Done (set_qvalue q (PFloat f))
  | SVNum (PInt z) =>
      match u with
      | None => Done (set_qvalue q (PInt z))
      | Some v => match coherent v (q_units q) with
                  | Raise e => Failed (FOther e)
                  | Ok true => Done (set_qvalue q (PInt z))
                  | Ok false => Failed (FExpected "(Quantity, float, int)")
                  end
      end
  | SVOther => Failed (FExpected "(Quantity, float, int)")
  end.

(** Model.createEquation, model.py lines 822-866, with _checkEquation_, lines
    330-350: the names of the objects of the equation and objects_info. *)
Definition create_equation_said (w : mworld) (name : string) (a : earg) : outcome eqn :=
  let m := w_mod w in
  match snd (equation_init (w_uids w) main_thread name (Some a) (m_name m)) with
  | Raise e => Failed (FOther e)
  | Ok e0 =>
      match sweep_objects (with_ename e0 (full_name (eq_name e0) (m_name m))) with
      | (_, Raise e) => Failed (FOther e)
      | (e2, Ok _) =>
          match eq_objs e2 with
          | None => Failed (FOther EAttribute)
          | Some d => if forallb (fun k => mem_str k (declared m)) (dkeys d) then Done e2
                      else Failed (FUndeclared (dkeys d) (gather_objects m))
          end
      end
  end.

(** The name of an object; dangling references do not occur. *)
Definition object_name (h : heap) (l : loc) : string := match hget h l with Some q => q_name q | None => "" end.
(** Problem.createConnection of one variable with another, problem.py lines
    217-269: the exposed variables of both models and the two variables. *)
Definition connect_said (w : pworld) (p : problem) (m1 m2 : nat) (o i : loc) (expr : option earg) : outcome Datatypes.unit :=
  match get_model w m1, get_model w m2 with
  | Some (s1, _), Some (s2, _) =>
      if mem_loc i (m_in s2) && mem_loc o (m_out s1) then lift (snd (connect_vars w p (CMModel m1) m2 (CVOne o) (CVOne i) expr))
      else Failed (FExposed (map (object_name (pw_heap w)) (m_out s1)) (map (object_name (pw_heap w)) (m_in s2))
                            (object_name (pw_heap w) o) (object_name (pw_heap w) i))
  | _, _ => Failed (FOther EName)
  end.
