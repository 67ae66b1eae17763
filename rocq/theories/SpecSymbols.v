(** Specification vocabulary: which symbols the equations of a problem contain
    (C57). *)
From Verif Require Import Base Num UnitModel Sympy Node Build EquationModel ModelModel ProblemModel SpecExpr SpecModel SpecProblem.
Notation num := Verif.Num.num.

(** The quantities a written expression uses all satisfy [p] (the name of the
    differentiation variable is not used as a symbol). *)
Fixpoint all_atoms {A} (p : A -> bool) (e : uexpr A) : bool :=
  match e with
  | UQty a | UDiff a _ => p a
  | UBin _ a b => all_atoms p a && all_atoms p b
  | UNumR _ a _ | UNumL _ _ a | UFun _ a => all_atoms p a
  | UFunN _ _ => true
  | UMinMax _ r => all_atoms_args p r
  end
with all_atoms_args {A} (p : A -> bool) (r : uargs A) : bool :=
  match r with
  | ANil => true
  | AExpr e r => all_atoms p e && all_atoms_args p r
  | ANum _ r => all_atoms_args p r
  end.
Definition all_atoms_eq {A} (p : A -> bool) (q : ueq A) : bool :=
  match q with
  | UResid e | UElemN e _ => all_atoms p e
  | UElem a b => all_atoms p a && all_atoms p b
  end.

Definition drop (a : string) (l : list string) : list string := filter (fun b => negb (String.eqb a b)) l.
Definition among (l : list string) (a : string) : bool := existsb (String.eqb a) l.

(** Reading a declaration script: [ready] are the attributes that hold a variable
    or a parameter or constant whose value was set, [given] those that hold a
    parameter or constant.  [fix_vars]: variables may be given values too. *)
Record reading := mkReading { ready : list string; given : list string }.
Definition read_cmd (fix_vars : bool) (r : reading) (c : cmd) : option reading :=
  match c with
  | CVar a _ _ _ _ _ => Some (mkReading (a :: ready r) (drop a (given r)))
  | CPar a _ _ _ | CCon a _ _ _ => Some (mkReading (drop a (ready r)) (a :: given r))
  | CSet a _ _ => if among (given r) a then Some (mkReading (a :: ready r) (given r))
                  else if fix_vars && among (ready r) a then Some r else None
  | CDist _ => Some r
  | CEq a _ q _ => if all_atoms_eq (among (ready r)) q
                   then Some (mkReading (drop a (ready r)) (drop a (given r))) else None
  end.
Fixpoint read_cmds (fix_vars : bool) (r : reading) (cs : list cmd) : option reading :=
  match cs with
  | [] => Some r
  | c :: s => match read_cmd fix_vars r c with Some r' => read_cmds fix_vars r' s | None => None end
  end.

Definition var_names_of (cs : list cmd) : list string :=
  flat_map (fun c => match c with CVar _ n _ _ _ _ => [n] | _ => [] end) cs.
Definition other_names_of (cs : list cmd) : list string :=
  flat_map (fun c => match c with CPar _ n _ _ | CCon _ n _ _ => [n] | _ => [] end) cs.

(** The declarations set every parameter and constant before an equation uses it,
    and no parameter or constant has the name of a variable. *)
Definition prepared (fix_vars : bool) (d : decls) : bool :=
  let cs := d_cons d ++ d_pars d ++ d_vars d ++ d_eqs d in
  match read_cmds fix_vars (mkReading [] []) cs with None => false | Some _ => true end &&
  forallb (fun n => negb (among (var_names_of cs) n)) (other_names_of cs).

(** Sessions made of such models and of connections between variables; with
    [fix_vars] values may also be set from outside. *)
Definition ordinary (fix_vars : bool) (a : act) : bool :=
  match a with
  | ANew _ d => prepared fix_vars d
  | ACall _ | AAdd _ | ATime _ | AInit _ | AResolve => true
  | AConn _ _ _ _ None => true
  | AStmt _ (CSet _ _ _) => fix_vars
  | AStmt _ (CDist _) => true
  | _ => false
  end.

(** A symbol of an equation: of its residual or of one of its sides. *)
Definition has_symbol (e : eqn) (x : string) : Prop :=
  (exists n, eq_expr e = Some n /\ In x (fsyms (nd_sym n))) \/
  (exists a b, eq_elem e = Some (a, b) /\ (In x (fsyms (nd_sym a)) \/ In x (fsyms (nd_sym b)))).

(** How many equations the model [i] has (C27). *)
Definition equation_count (s : session) (i : nat) : nat := match model_of s i with Some m => List.length (m_eqs m) | None => 0%nat end.

(** ** Values given at creation (C58) *)
(** The same statement, up to the value a quantity is created with. *)
Definition revalued (c c' : cmd) : Prop :=
  match c with
  | CVar a n u ex ty _ => exists v, c' = CVar a n u ex ty v
  | CPar a n u _ => exists v, c' = CPar a n u v
  | CCon a n u _ => exists v, c' = CCon a n u v
  | CSet _ (SAAttr _) _ => False
  | _ => c' = c
  end.

(** The same quantity, up to its value while none was set. *)
Definition same_set (q q' : qty) : Prop :=
  q_kind q = q_kind q' /\ q_name q = q_name q' /\ q_units q = q_units q' /\ q_spec q = q_spec q' /\ q_owner q = q_owner q' /\
  q_exposed q = q_exposed q' /\ q_type q = q_type q' /\ q_domain q = q_domain q' /\ (q_spec q = true -> q_value q = q_value q').

(** The statement assigns a new parameter or constant to the attribute. *)
Definition declares (c : cmd) (a : string) : Prop :=
  (exists n u v, c = CPar a n u v) \/ (exists n u v, c = CCon a n u v).
