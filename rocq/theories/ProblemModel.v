(** Model of /repo/src/sloth/problem.py, core/equation_block.py, the connection
    part of model.py and the degree-of-freedom check of analysis.py. *)
From Verif Require Export ModelModel.

(** ** Equation blocks *)

(** class EquationBlock, equation_block.py lines 16-55 ([owner_model] and [_fs]
    are not used). *)
Record block := mkB {
  b_eqs : list eqn;        (* equations *)
  b_vars : dict loc;       (* variable_dict *)
  b_pars : dict loc;       (* parameter_dict *)
  b_varlist : list string; (* _var_list *)
  b_parlist : list string; (* _param_list *)
  b_exprs : list sx;       (* _equations_list *)
  b_lin : list eqn;        (* _equation_groups *)
  b_nonlin : list eqn;
  b_diff : list eqn
}.

Definition has_type (t : eclass) (e : eqn) : bool :=
  match eq_type e, t with
  | Some CLinear, CLinear | Some CNonlinear, CNonlinear | Some CDifferential, CDifferential => true
  | _, _ => false
  end.

(** _assignEquationGroups, lines 57-75. *)
Definition assign_groups (b : block) : block :=
  mkB (b_eqs b) (b_vars b) (b_pars b) (b_varlist b) (b_parlist b) (b_exprs b)
      (filter (has_type CLinear) (b_eqs b)) (filter (has_type CNonlinear) (b_eqs b))
      (filter (has_type CDifferential) (b_eqs b)).

(** EquationBlock.__init__, lines 16-55. *)
Definition block_init (eqs : list eqn) (vars pars : dict loc) : block :=
  assign_groups (mkB eqs vars pars [] [] [] [] [] []).

Fixpoint map_res {A B} (f : A -> res B) (l : list A) : res (list B) :=
  match l with
  | [] => Ok []
  | x :: r => let* y := f x in let* s := map_res f r in Ok (y :: s)
  end.

(** _getEquationList, lines 231-249. *)
Definition equation_list (b : block) (form : option bool) (s : eside) : res (list sx) :=
  map_res (fun e => get_symbolic e form s) (b_eqs b).

(** EquationBlock.__call__, lines 303-317, with _getParamList (131-135) and
    _getVarList (137-150). *)
Definition block_call (b : block) : block * res Datatypes.unit :=
  let b1 := mkB (b_eqs b) (b_vars b) (b_pars b) (dkeys (b_vars b)) (dkeys (b_pars b)) (b_exprs b)
                (b_lin b) (b_nonlin b) (b_diff b) in
  match equation_list b1 None SRhs with
  | Raise x => (b1, Raise x)
  | Ok es => (assign_groups (mkB (b_eqs b1) (b_vars b1) (b_pars b1) (b_varlist b1) (b_parlist b1) es
                                 (b_lin b1) (b_nonlin b1) (b_diff b1)), Ok tt)
  end.

(** ** Printed members of an expression *)

(** [expr.args] of a symbolic object.  Simplification: sympy's automatic
    simplification is not modelled, so these are the terms of the sum, factors of
    the product, ... as written; [x - y] is [x + (-1)*y] and [x/y] is
    [x*y**(-1)] as in sympy. *)
Fixpoint terms (e : sx) : list sx :=
  match e with
  | SAdd a b => terms a ++ terms b
  | SSub a b => terms a ++ map (SMul (SNum (PInt (-1)))) (terms b)
  | _ => [e]
  end.
Fixpoint factors (e : sx) : list sx :=
  match e with
  | SMul a b => factors a ++ factors b
  | SDiv a b => factors a ++ map (fun x => SPow x (SNum (PInt (-1)))) (factors b)
  | _ => [e]
  end.
Definition sx_args (e : sx) : list sx :=
  match e with
  | SNum _ | SSym _ => []
  | SAdd _ _ | SSub _ _ => terms e
  | SMul _ _ | SDiv _ _ => factors e
  | SPow a b | SMin a b | SMax a b => [a; b]
  | SFun _ a => [a]
  | SDer x t => [SSym x; SSym t]
  end.

Definition fn_name (f : fn) : string :=
  match f with
  | FLog | FLog10 => "log" | FSqrt => "Pow" | FAbs => "Abs" | FExp => "exp" | FSin => "sin" | FCos => "cos" | FTan => "tan"
  end.

Definition call1 (f a : string) : string := (f ++ "(" ++ a ++ ")")%string.
Definition call2 (f a b : string) : string := (f ++ "(" ++ a ++ ", " ++ b ++ ")")%string.

(** [sp.srepr]; [pn] prints numbers. *)
Fixpoint srepr (pn : num -> string) (e : sx) : string :=
  match e with
  | SNum n => pn n
  | SSym x => call1 "Symbol" ("'" ++ x ++ "'")
  | SAdd a b => call2 "Add" (srepr pn a) (srepr pn b)
  | SSub a b => call2 "Add" (srepr pn a) (call2 "Mul" (pn (PInt (-1))) (srepr pn b))
  | SMul a b => call2 "Mul" (srepr pn a) (srepr pn b)
  | SDiv a b => call2 "Mul" (srepr pn a) (call2 "Pow" (srepr pn b) (pn (PInt (-1))))
  | SPow a b => call2 "Pow" (srepr pn a) (srepr pn b)
  | SFun f a => call1 (fn_name f) (srepr pn a)
  | SMin a b => call2 "Min" (srepr pn a) (srepr pn b)
  | SMax a b => call2 "Max" (srepr pn a) (srepr pn b)
  | SDer x t => call2 "Derivative" (call1 "Symbol" ("'" ++ x ++ "'"))
                      (call2 "Tuple" (call1 "Symbol" ("'" ++ t ++ "'")) (pn (PInt 1)))
  end.

(** The test of equation_block.py line 289 for one member.  [names = None]: the
    list [[None]], on which [in] raises TypeError. *)
Definition member_has (pn : num -> string) (names : option (list string)) (a : sx) : res bool :=
  match names with
  | None => Raise EType
  | Some l => Ok (existsb (fun x => str_contains x (srepr pn a) && negb (str_contains "Derivative" (srepr pn a))) l)
  end.
Fixpoint any_res {A} (f : A -> res bool) (l : list A) : res bool :=
  match l with
  | [] => Ok false
  | x :: r => let* b := f x in if b then Ok true else any_res f r
  end.
(** _hasVarBeenDeclared, lines 251-301, on a list of equations (a group); the
    [try] of lines 273-279 makes equations without symbolic object empty. *)
Definition has_var (pn : num -> string) (names : option (list string)) (eqs : list eqn) : res bool :=
  any_res (fun e => any_res (member_has pn names)
                            (match get_symbolic e None SRhs with Ok s => sx_args s | Raise _ => [] end)) eqs.

(** ** Problems *)

(** Everything that exists: quantities, counters of equation.py and problem.py,
    models (with the functions their classes define), identified by position. *)
Record pworld := mkPW {
  pw_heap : heap; pw_uids : uids; pw_puids : uids; pw_models : list (mstate * decls) }.

(** class Problem, lines 36-70. *)
Record problem := mkP {
  pr_models : dict nat;        (* models *)
  pr_conns : dict eqn;         (* connections *)
  pr_vars : dict loc;          (* variable_dict *)
  pr_pars : dict loc;          (* parameter_dict *)
  pr_block : option block;     (* equation_block *)
  pr_time : option (list string);  (* time_variable_name *)
  pr_init : dict num           (* initial_conditions *)
}.

(** Problem(name), lines 36-70. *)
Definition new_problem : problem := mkP [] [] [] [] None None [].

(** setTimeVariableName, lines 78-84. *)
Definition set_time (p : problem) (names : list string) : problem :=
  mkP (pr_models p) (pr_conns p) (pr_vars p) (pr_pars p) (pr_block p) (Some names) (pr_init p).
(** setInitialConditions, lines 86-95. *)
Definition set_init (p : problem) (c : dict num) : problem :=
  mkP (pr_models p) (pr_conns p) (pr_vars p) (pr_pars p) (pr_block p) (pr_time p) (dupdate (pr_init p) c).
Definition with_block (p : problem) (b : block) : problem :=
  mkP (pr_models p) (pr_conns p) (pr_vars p) (pr_pars p) (Some b) (pr_time p) (pr_init p).
Definition with_conns (p : problem) (c : dict eqn) : problem :=
  mkP (pr_models p) c (pr_vars p) (pr_pars p) (pr_block p) (pr_time p) (pr_init p).

Definition get_model (w : pworld) (i : nat) : option (mstate * decls) := nth_error (pw_models w) i.
Fixpoint set_nth {A} (l : list A) (i : nat) (x : A) : list A :=
  match l, i with
  | [], _ => []
  | _ :: r, O => x :: r
  | y :: r, S i' => y :: set_nth r i' x
  end.
(** Run something on model [i]. *)
Definition on_model {A} (w : pworld) (i : nat) (f : decls -> mworld -> mworld * res A) : pworld * res A :=
  match get_model w i with
  | None => (w, Raise EName)
  | Some (m, d) =>
      let '(w', r) := f d (mkW (pw_heap w) (pw_uids w) m) in
      (mkPW (w_heap w') (w_uids w') (pw_puids w) (set_nth (pw_models w) i (w_mod w', d)), r)
  end.

(** addModels for one model, lines 353-378 (a list: one after the other). *)
Definition add_model (w : pworld) (p : problem) (i : nat) : problem :=
  match get_model w i with
  | None => p
  | Some (m, _) =>
      mkP (dset (m_name m) i (pr_models p)) (pr_conns p) (dupdate (pr_vars p) (m_vars m))
          (dupdate (pr_pars p) (m_pars m)) (pr_block p) (pr_time p) (pr_init p)
  end.

(** _reloadModels, lines 307-319, without names. *)
Fixpoint reload (w : pworld) (is : list nat) : pworld * res Datatypes.unit :=
  match is with
  | [] => (w, Ok tt)
  | i :: r => match on_model w i model_call with
              | (w', Ok _) => reload w' r
              | bad => bad
              end
  end.

(** Equations of the models in order, lines 160-164. *)
Fixpoint all_equations (w : pworld) (is : list nat) : res (list eqn) :=
  match is with
  | [] => Ok []
  | i :: r => match get_model w i with
              | None => Raise EName
              | Some (m, _) => let* l := all_equations w r in Ok (dvals (m_eqs m) ++ l)
              end
  end.

(** Names of the objects of one class an equation refers to, lines 166-181.  The
    lists of the code skip an object met before; they are only used to test
    whether a name occurs. *)
Fixpoint names_of (h : heap) (k : qkind) (ls : list loc) : res (list string) :=
  match ls with
  | [] => Ok []
  | l :: r => match hget h l with
              | None => Raise EName
              | Some q => let* s := names_of h k r in
                          Ok (if qkind_eqb (q_kind q) k then q_name q :: s else s)
              end
  end.
Definition eq_names (h : heap) (k : qkind) (e : eqn) : res (list string) :=
  match eq_objs e with None => Raise EAttribute | Some d => names_of h k (dvals d) end.
Fixpoint used_names (h : heap) (k : qkind) (es : list eqn) : res (list string) :=
  match es with
  | [] => Ok []
  | e :: r => let* a := eq_names h k e in let* b := used_names h k r in Ok (a ++ b)
  end.

(** Entries with a name in the list, lines 186-192. *)
Definition restrict (d : dict loc) (names : list string) : dict loc :=
  filter (fun kv => mem_str (fst kv) names) d.

(** _buildEquationBlock, lines 132-194. *)
Definition build_block (w : pworld) (p : problem) : res block :=
  let* es := all_equations w (dvals (pr_models p)) in
  let* vs := used_names (pw_heap w) KVariable es in
  let* ps := used_names (pw_heap w) KParameter es in
  Ok (block_init es (restrict (pr_vars p) vs) (restrict (pr_pars p) ps)).

(** resolve, lines 380-390. *)
Definition presolve (w : pworld) (p : problem) : pworld * problem * res Datatypes.unit :=
  match reload w (dvals (pr_models p)) with
  | (w', Raise x) => (w', p, Raise x)
  | (w', Ok _) =>
      match build_block w' p with
      | Raise x => (w', p, Raise x)
      | Ok b => let '(b', r) := block_call b in (w', with_block p b', r)
      end
  end.

(** ** Problem type and solver choice *)

Inductive ptype := PTLinear | PTNonlinear | PTDiff | PTDae.

(** _getProblemType, lines 97-130. *)
Definition problem_type (b : block) : option ptype :=
  let lin := negb (is_empty (b_lin b)) in
  let nl := negb (is_empty (b_nonlin b)) in
  let df := negb (is_empty (b_diff b)) in
  if df && (negb lin && negb nl) then Some PTDiff
  else if df && (lin || nl) then Some PTDae
  else if negb df && nl then Some PTNonlinear
  else if negb df && (negb nl && lin) then Some PTLinear
  else None.

Inductive solver := LASolver | NLASolver | DSolver | DaeSolver.

(** _createSolver, solvers.py lines 27-76, up to which class is instantiated. *)
Definition create_solver (b : block) : res solver :=
  match problem_type b with
  | Some PTLinear => Ok LASolver
  | Some PTNonlinear => Ok NLASolver
  | Some PTDiff => Ok DSolver
  | Some PTDae => Ok DaeSolver
  | None => Raise EUnexpectedValue
  end.

(** The strings of problem.py lines 112-126. *)
Definition ptype_name (t : ptype) : string :=
  match t with
  | PTLinear => "linear" | PTNonlinear => "nonlinear" | PTDiff => "differential"
  | PTDae => "differential-algebraic"
  end.

(** Solver choice in Simulation.runSimulation, simulation.py lines 206-233;
    [conf]: the configured problem type. *)
Definition choose_solver (conf : option string) (b : block) : res solver :=
  let t := match conf with
           | Some s => Some s
           | None => option_map ptype_name (problem_type b)
           end in
  match t with
  | Some s => if String.eqb s "linear" || String.eqb s "nonlinear" || String.eqb s "differential" ||
                 String.eqb s "differential-algebraic"
              then create_solver b else Raise EUnexpectedValue
  | None => Raise EUnexpectedValue
  end.

(** ** Degrees of freedom *)

(** Parameters of the block that are not specified, analysis.py line 47. *)
Fixpoint unspecified (h : heap) (d : dict loc) : res nat :=
  match d with
  | [] => Ok 0%nat
  | (_, l) :: r => match hget h l with
                   | None => Raise EName
                   | Some q => let* n := unspecified h r in Ok (if q_spec q then n else S n)
                   end
  end.

(** DOF_Analysis._dofTest, analysis.py lines 41-105. *)
Definition dof_test (pn : num -> string) (h : heap) (p : problem) : res bool :=
  match pr_block p with
  | None => Raise EAttribute
  | Some b =>
      let* np := unspecified h (b_pars b) in
      let* t := has_var pn (pr_time p) (b_diff b) in
      let n_eqs := (List.length (b_exprs b) + (if t then 1 else 0))%nat in
      if Nat.eqb (List.length (b_varlist b) + np) n_eqs then Ok true else Raise EException
  end.

(** ** Connections *)

(** Arguments [output_vars] and [input_vars]: one variable or a list; two
    EquationNodes (mixing a node with variables is not modelled). *)
Inductive cvars := CVOne (l : loc) | CVList (ls : list loc).
Definition cv_list (c : cvars) : list loc := match c with CVOne l => [l] | CVList ls => ls end.

Definition mem_loc (l : loc) (ls : list loc) : bool := existsb (Nat.eqb l) ls.

(** [sum([v() for v in vs])], line 256: 0 + v1() + v2() ...  An empty list gives
    the number 0. *)
Fixpoint sum_from (h : heap) (acc : node) (ls : list loc) : res node :=
  match ls with
  | [] => Ok acc
  | l :: r => let* n := build_qty h l in let* s := node_add acc (ONode n) in sum_from h s r
  end.
Definition sum_calls (h : heap) (ls : list loc) : res (option node) :=
  match ls with
  | [] => Ok None
  | l :: r => let* n := build_qty h l in
              let* z := node_add n (ONum (PInt 0)) in
              let* s := sum_from h z r in Ok (Some s)
  end.
(** The default connection expression, line 256: inputs minus outputs.  Both
    empty: the number 0, which setResidual refuses. *)
Definition balance (h : heap) (ins outs : list loc) : res earg :=
  let* a := sum_calls h ins in
  let* b := sum_calls h outs in
  match a, b with
  | Some x, Some y => let* d := node_sub x (ONode y) in Ok (EANode d)
  | Some x, None => let* d := node_sub x (ONum (PInt 0)) in Ok (EANode d)
  | None, Some y => let* d := node_rsub y (ONum (PInt 0)) in Ok (EANode d)
  | None, None => Ok EAOther
  end.

(** Names joined by commas, lines 295-297; model.py lines 625-627. *)
Fixpoint qty_names (h : heap) (ls : list loc) : res (list string) :=
  match ls with
  | [] => Ok []
  | l :: r => match hget h l with
              | None => Raise EName
              | Some q => let* s := qty_names h r in Ok (q_name q :: s)
              end
  end.

Definition is_variable (h : heap) (l : loc) : bool :=
  match hget h l with Some q => qkind_eqb (q_kind q) KVariable | None => false end.

(** Connection(...) of connection.py, then setResidual again and _sweepObjects
    (model.py lines 633-637): the second setResidual sees the fields of the first. *)
Definition connection_init (u : uids) (name : string) (a : earg) : uids * res eqn :=
  let '(u1, r) := equation_init u main_thread name (Some a) "" in
  match r with
  | Raise x => (u1, Raise x)
  | Ok e =>
      let u2 := match residual_draws a with O => u1 | S _ => fst (gen_rnd_str u1 main_thread) end in
      match set_residual e a with
      | (_, Raise x) => (u2, Raise x)
      | (e', Ok _) => match sweep_objects e' with
                      | (_, Raise x) => (u2, Raise x)
                      | (e'', Ok _) => (u2, Ok e'')
                      end
      end
  end.

Definition conn_name (outs ins : list string) : string :=
  (join "," outs ++ "--->" ++ join "," ins)%string.

(** Model._createConnection, model.py lines 594-645. *)
Definition model_connection (w : mworld) (outs ins : list loc) (a : earg) : mworld * res eqn :=
  let h := w_heap w in
  if forallb (is_variable h) ins && forallb (is_variable h) outs then
    match (let* o := qty_names h outs in let* i := qty_names h ins in Ok (conn_name o i)) with
    | Raise x => (w, Raise x)
    | Ok name =>
        let '(u, r) := connection_init (w_uids w) name a in
        match r with
        | Raise x => (mkW h u (w_mod w), Raise x)
        | Ok e => (mkW h u (with_eqs (w_mod w) (dset name e (m_eqs (w_mod w)))), Ok e)
        end
    end
  else (w, Raise EUnexpectedValue).

(** The key of Problem.connections, line 303. *)
Definition conn_key (outs : list string) (m1 : string) (ins : list string) (m2 : string) : string :=
  (join "," outs ++ "@" ++ m1 ++ " ---> " ++ join "," ins ++ "@" ++ m2)%string.

(** The first argument: a Model or a string. *)
Inductive cmodel := CMModel (i : nat) | CMName (s : string).

(** createConnection with variables, lines 196-266; [expr]: the given expression,
    already evaluated.  ExposedVariableError's constructor (error_definitions.py
    lines 11-19) reads [.name] of both arguments, which lists do not have. *)
Definition connect_vars (w : pworld) (p : problem) (m1 : cmodel) (m2 : nat) (outs ins : cvars) (expr : option earg)
  : pworld * problem * res Datatypes.unit :=
  match get_model w m2 with
  | None => (w, p, Raise EName)
  | Some (s2, _) =>
      match (match m1 with CMName _ => Raise EAttribute
                         | CMModel i => match get_model w i with Some (s1, _) => Ok s1 | None => Raise EName end end) with
      | Raise x => (w, p, Raise x)
      | Ok s1 =>
          if forallb (fun l => mem_loc l (m_in s2)) (cv_list ins) &&
             forallb (fun l => mem_loc l (m_out s1)) (cv_list outs)
          then
            match (match expr with Some a => Ok a | None => balance (pw_heap w) (cv_list ins) (cv_list outs) end) with
            | Raise x => (w, p, Raise x)
            | Ok a =>
                match (let* o := qty_names (pw_heap w) (cv_list outs) in
                       let* i := qty_names (pw_heap w) (cv_list ins) in Ok (o, i)) with
                | Raise x => (w, p, Raise x)
                | Ok (o, i) =>
                    let '(w', r) := on_model w m2 (fun _ mw => model_connection mw (cv_list outs) (cv_list ins) a) in
                    match r with
                    | Raise x => (w', p, Raise x)
                    | Ok e => (w', with_conns p (dset (conn_key o (m_name s1) i (m_name s2)) e (pr_conns p)), Ok tt)
                    end
                end
            end
          else match ins, outs with
               | CVOne _, CVOne _ => (w, p, Raise EExposedVariable)
               | _, _ => (w, p, Raise EAttribute)
               end
      end
  end.

(** createConnection with nodes, lines 268-286. *)
Definition connect_nodes (w : pworld) (p : problem) (m1 : cmodel) (m2 : nat) (out inp : node)
  : pworld * problem * res Datatypes.unit :=
  match get_model w m2 with
  | None => (w, p, Raise EName)
  | Some (s2, _) =>
      let '(pu, r) := match m1 with
                      | CMName s => if String.eqb s "" then let '(u, n) := gen_rnd_str (pw_puids w) main_thread in (u, Ok n)
                                    else (pw_puids w, Ok s)
                      | CMModel i => (pw_puids w, match get_model w i with Some (s1, _) => Ok (m_name s1) | None => Raise EName end)
                      end in
      let w0 := mkPW (pw_heap w) (pw_uids w) pu (pw_models w) in
      match r with
      | Raise x => (w0, p, Raise x)
      | Ok n1 =>
          match node_sub inp (ONode out) with
          | Raise x => (w0, p, Raise x)
          | Ok d =>
              let '(w', r') := on_model w0 m2
                (fun _ mw => create_equation mw ("conn_" ++ n1 ++ "-->" ++ m_name s2)%string (Some (EANode d)) false) in
              match r' with Raise x => (w', p, Raise x) | Ok _ => (w', p, Ok tt) end
          end
      end
  end.
