(** Model of the data handling of /repo/src/sloth/solvers.py and of the function
    building part of core/equation_block.py.  Numeric routines of scipy, sympy,
    pyneqsys and assimulo are parameters. *)
From Verif Require Export ProblemModel.
From Coq Require Import Reals.
Notation num := Verif.Num.num.

(** ** Algebraic solvers *)

Inductive mechanism := MSympy | MScipy | MSymbolicSys.

(** LASolver.lookUpForSolver, solvers.py lines 164-180: no mechanism for other
    names. *)
Definition la_lookup (name : option string) : option mechanism :=
  match name with
  | None => Some MSympy
  | Some s => if String.eqb s "sympy" then Some MSympy
              else if String.eqb s "scipy" then Some MScipy
              else if String.eqb s "symbolicsys" then Some MSymbolicSys
              else None
  end.
(** NLASolver.lookUpForSolver, lines 268-285: the message of the exception is
    built with a wrong format, which raises TypeError. *)
Definition nla_lookup (name : option string) : res mechanism :=
  match name with
  | None => Ok MSymbolicSys
  | Some s => if String.eqb s "*" || String.eqb s "symbolicsys" then Ok MSymbolicSys
              else if String.eqb s "sympy" then Ok MSympy
              else Raise EType
  end.

(** The numeric routines: sympy.solve(dict=True) lines 186, 294; linear_eq_to_matrix
    with scipy.linalg.solve lines 190-196, 238-246; SymbolicSys.solve lines 220-222,
    330-334 (success flag and vector); scipy.optimize.root lines 117-149. *)
Record engines (V : Type) := mkEng {
  sympy_solve : list sx -> list string -> list (dict V);
  dense_solve : list sx -> list string -> res (list V);
  root_find : list string -> list sx -> list V -> bool * list V;
  polish : string -> list string -> list sx -> list V -> option (list V)
}.
Arguments sympy_solve {V}. Arguments dense_solve {V}. Arguments root_find {V}. Arguments polish {V}.

Section Algebraic.
Context {V : Type}.
Variable one : V.            (* 1. *)
Variable eng : engines V.

(** [d[k] for k in ks] *)
Fixpoint lookup_all {A} (d : dict A) (ks : list string) : res (list A) :=
  match ks with
  | [] => Ok []
  | k :: r => match dget k d with
              | None => Raise EKey
              | Some v => let* s := lookup_all d r in Ok (v :: s)
              end
  end.

(** Lines 212-218 and 311-317. *)
Definition first_guess (guess : dict V) (vars : list string) : res (list V) :=
  if is_empty guess then Ok (repeat one (List.length vars)) else lookup_all guess vars.

(** [{var_i: val_i for var_i, val_i in zip(var_names, x_out)}], lines 198, 228, 340. *)
Definition by_name (vars : list string) (x : list V) : dict V := dof (List.combine vars x).

(** [x_out[-1]] *)
Definition last_of {A} (l : list A) : res A :=
  match rev l with [] => Raise EIndex | x :: _ => Ok x end.

(** _symbolicSysSolveMechanism, lines 202-236; with [ps = Some s] the guess is
    polished first, lines 319-328. *)
Definition symbolicsys (ps : option string) (guess : dict V) (b : block) : res (dict V) :=
  let* g := first_guess guess (b_varlist b) in
  let g' := match ps with
            | None => g
            | Some s => match polish eng s (b_varlist b) (b_exprs b) g with Some q => q | None => g end
            end in
  let '(success, x) := root_find eng (b_varlist b) (b_exprs b) g' in
  if success then Ok (by_name (b_varlist b) x) else Raise ENumerical.

(** LASolver.solve, lines 182-252; calling None raises TypeError. *)
Definition la_solve (name : option string) (guess : dict V) (b : block) : res (dict V) :=
  match la_lookup name with
  | None => Raise EType
  | Some MSympy => last_of (sympy_solve eng (b_exprs b) (b_varlist b))
  | Some MScipy => let* x := dense_solve eng (b_exprs b) (b_varlist b) in Ok (by_name (b_varlist b) x)
  | Some MSymbolicSys => symbolicsys None guess b
  end.

(** NLASolver.__init__ and solve, lines 260-360. *)
Definition nla_solve (name : option string) (ps : option string) (guess : dict V) (b : block) : res (dict V) :=
  let* m := nla_lookup name in
  match m with
  | MSympy => last_of (sympy_solve eng (b_exprs b) (b_varlist b))
  | _ => symbolicsys ps guess b
  end.

(** Simulation.getResults of an algebraic problem, simulation.py lines 379-408:
    as a list, and as a dictionary sorted by name. *)
Definition results_list (out : dict V) : list V := dvals out.
Definition results_dict (out : dict V) : dict V := dof (sort_items out).
End Algebraic.

(** ** Ordinary differential equations *)

(** Value of an expression when the symbols of [m] are bound (Equation.eval,
    equation.py lines 436-450, and calls of lambdified functions): none when a
    symbol or a derivative is left. *)
Definition bind_env (m : dict R) : env :=
  mkEnv (fun x => match dget x m with Some r => r | None => 0%R end) (fun _ _ => 0%R).
Definition closed (names : list string) (e : sx) : bool :=
  forallb (fun x => existsb (String.eqb x) names) (fsyms e) && negb (has_der e).
Definition eval_at (m : dict R) (e : sx) : option R :=
  if closed (dkeys m) e then den e (bind_env m) else None.

(** A lambdified list of expressions called with a list of values: wrong number of
    arguments raises TypeError, an unknown symbol NameError. *)
Definition call_function (params : list string) (es : list sx) (args : list R) : res (list (option R)) :=
  if Nat.eqb (List.length params) (List.length args) then
    map_res (fun e => if closed params e then Ok (den e (bind_env (List.combine params args))) else Raise EName) es
  else Raise EType.

(** Sides of an elementary equation; [None[0]] raises TypeError. *)
Definition sides (e : eqn) : res (node * node) :=
  match eq_elem e with None => Raise EType | Some ab => Ok ab end.

(** setUpDiffY, lines 562-585. *)
Fixpoint diff_y (acc : dict loc) (es : list eqn) : res (dict loc) :=
  match es with
  | [] => Ok acc
  | e :: r => let* ab := sides e in diff_y (dupdate acc (nd_smap (fst ab))) r
  end.

(** _getDiffYinOrder, lines 528-548: the printed first argument of the left side;
    [ps] prints expressions that are not symbols. *)
Definition first_member (ps : sx -> string) (s : sx) : res string :=
  match sx_args s with
  | [] => Raise EIndex
  | SSym x :: _ => Ok x
  | a :: _ => Ok (ps a)
  end.
Definition first_arg (ps : sx -> string) (s : sx) : res string :=
  if is_raw s then Raise EAttribute else first_member ps s.
Definition diff_y_order (ps : sx -> string) (es : list eqn) : res (list string) :=
  map_res (fun e => let* ab := sides e in first_arg ps (nd_sym (fst ab))) es.

(** The configured time variable name: a string or a list. *)
Inductive tname := TName (s : string) | TNames (l : list string) | TNone.

Record dsolver := mkDS {
  ds_eqs : list eqn;                           (* diffSystem *)
  ds_y : dict loc;                             (* diffY *)
  ds_fun : option (list string * list sx)      (* compiled_equations: parameters and expressions *)
}.

(** DSolver.__init__, lines 371-417 (its effect on [arg_names] is in SimModel).
    None in a dictionary: not there. *)
Definition dsolver_init (b : block) (init : dict num) (t : tname) (compile : bool) : res dsolver :=
  let known := match t with
               | TName s => dmem s init
               | TNames l => forallb (fun s => dmem s init) l
               | TNone => false
               end in
  if known then
    let* y := diff_y [] (b_diff b) in
    if compile then
      (* _getEquationBlockAsFunction('elementary', 'rhs'), equation_block.py lines 173-182;
         without differential equation the other branch, lines 208-217 *)
      let* es := (if is_empty (b_diff b) then Ok (b_exprs b) else equation_list b (Some true) SRhs) in
      Ok (mkDS (b_diff b) y (Some (b_varlist b, es)))
    else Ok (mkDS (b_diff b) y None)
  else Raise EAbsentRequired.

(** [Y_.update({t_i: t})] for every time name found in the differential equations,
    lines 607-617. *)
Fixpoint bind_times (pn : num -> string) (b : block) (t : R) (names : list string) (m : dict R) : res (dict R) :=
  match names with
  | [] => Ok m
  | x :: r => let* f := has_var pn (Some [x]) (b_diff b) in
              bind_times pn b t r (if f then dset x t m else m)
  end.

Definition with_varlist (b : block) (l : list string) : block :=
  mkB (b_eqs b) (b_vars b) (b_pars b) l (b_parlist b) (b_exprs b) (b_lin b) (b_nonlin b) (b_diff b).

(** diffYinterfaceForScipySolvers and diffYinterfaceForAssimuloSolvers, lines
    603-702, without extra arguments ([args] is never passed by [solve]).  Extends
    [_var_list] in place (line 633). *)
Definition ode_interface (pn : num -> string) (p : problem) (b : block) (s : dsolver) (Y : list R) (t : R)
  : block * res (list (option R)) :=
  match pr_time p with
  | None => (b, Raise EType)
  | Some names =>
      match bind_times pn b t names (dof (List.combine (dkeys (ds_y s)) Y)) with
      | Raise x => (b, Raise x)
      | Ok m =>
          match ds_fun s with
          | None => (b, map_res (fun e => match eval_target e (Some SRhs) with
                                          | Raise x => Raise x
                                          | Ok None => Raise EAttribute
                                          | Ok (Some n) => Ok (eval_at m (nd_sym n))
                                          end) (ds_eqs s))
          | Some (params, es) =>
              let keys := b_varlist b ++ filter (fun k => negb (mem_str k (b_varlist b))) (dkeys m) in
              (with_varlist b keys,
               let* vals := lookup_all m keys in
               call_function params es (dvals (dof (List.combine keys vals))))
          end
      end
  end.

(** The initial state, lines 712-716. *)
Definition initial_state (ps : sx -> string) (s : dsolver) (init : dict num) : res (list num) :=
  let* names := diff_y_order ps (ds_eqs s) in lookup_all init names.

(** ** Differential-algebraic equations *)

(** [abs(i).args[0]], equation_block.py line 127: the absolute value of a product
    with a number takes the number out (1 and -1 disappear), and the number is its
    first member.  Simplification: several numbers are not multiplied, and a divisor
    stands for its inverse; what is done with the number is the same. *)
Definition coefficient (e : sx) : list num :=
  match e with
  | SNum (PInt 1) | SNum (PInt (-1)) => []
  | SNum n | SPow (SNum n) (SNum (PInt (-1))) => [n]
  | _ => []
  end.
Definition is_number (e : sx) : bool := match e with SNum _ => true | _ => false end.
Definition abs_arg (e : sx) : sx :=
  match flat_map coefficient (factors e) with
  | n :: _ => SNum n
  | [] => match filter (fun a => negb (is_number a)) (factors e) with [a] => a | _ => e end
  end.

(** _getDiffList, equation_block.py lines 111-129. *)
Fixpoint diff_list (pn : num -> string) (es : list eqn) : res (list sx) :=
  match es with
  | [] => Ok []
  | e :: r =>
      let* s := get_symbolic e (Some false) SRhs in
      if is_raw s then Raise EAttribute
      else let* l := diff_list pn r in
           Ok (map abs_arg (filter (fun a => str_contains "Derivative" (srepr pn a)) (sx_args s)) ++ l)
  end.

(** Position of a name in a list. *)
Fixpoint index_of (x : string) (l : list string) : option nat :=
  match l with
  | [] => None
  | y :: r => if String.eqb x y then Some 0%nat else option_map S (index_of x r)
  end.
(** Position of the derivative in the list: of two equal keys the later value is
    kept, lines 103-105. *)
Fixpoint der_index (x t : string) (l : list sx) : option nat :=
  match l with
  | [] => None
  | a :: r => match der_index x t r with
              | Some k => Some (S k)
              | None => match a with
                        | SDer y u => if String.eqb x y && String.eqb t u then Some 0%nat else None
                        | _ => None
                        end
              end
  end.

(** [eq.subs(yd_map)] followed by lambdify over (t, y, yd), lines 185-206: symbols
    become components of [y], derivatives components of [yd].  Simplification:
    keys that are not plain derivatives replace nothing. *)
Definition state_env (vars : list string) (ds : list sx) (y yd : list R) : env :=
  mkEnv (fun x => match index_of x vars with Some i => nth i y 0%R | None => 0%R end)
        (fun x t => match der_index x t ds with Some i => nth i yd 0%R | None => 0%R end).
Fixpoint ders (e : sx) : list (string * string) :=
  match e with
  | SNum _ | SSym _ => []
  | SAdd a b | SSub a b | SMul a b | SDiv a b | SPow a b | SMin a b | SMax a b => ders a ++ ders b
  | SFun _ a => ders a
  | SDer x t => [(x, t)]
  end.
(** Symbols outside derivatives. *)
Fixpoint plain_syms (e : sx) : list string :=
  match e with
  | SNum _ => []
  | SSym x => [x]
  | SAdd a b | SSub a b | SMul a b | SDiv a b | SPow a b | SMin a b | SMax a b => plain_syms a ++ plain_syms b
  | SFun _ a => plain_syms a
  | SDer _ _ => []
  end.
Definition residual_at (vars : list string) (ds : list sx) (y yd : list R) (e : sx) : res (option R) :=
  if forallb (fun x => match index_of x vars with Some _ => true | None => false end) (plain_syms e) &&
     forallb (fun xt => match der_index (fst xt) (snd xt) ds with Some _ => true | None => false end) (ders e)
  then
    if forallb (fun x => match index_of x vars with Some i => Nat.ltb i (List.length y) | None => false end) (plain_syms e) &&
       forallb (fun xt => match der_index (fst xt) (snd xt) ds with Some i => Nat.ltb i (List.length yd) | None => false end) (ders e)
    then Ok (den e (state_env vars ds y yd))
    else Raise EIndex
  else Raise EName.

(** The compiled residual function of DaeSolver, solvers.py lines 847-857. *)
Definition dae_function (pn : num -> string) (b : block) (y yd : list R) : res (list (option R)) :=
  if is_empty (b_diff b) then Raise EType
  else
    let* ds := diff_list pn (b_diff b) in
    let* es := equation_list b (Some false) SRhs in
    map_res (residual_at (b_varlist b) ds y yd) es.

(** Keys of [yd_map]: repetitions once. *)
Fixpoint sx_mem (a : sx) (l : list sx) : bool :=
  match l with
  | [] => false
  | b :: r => match a, b with
              | SDer x t, SDer y u => (String.eqb x y && String.eqb t u) || sx_mem a r
              | _, _ => sx_mem a r
              end
  end.
Fixpoint distinct_ders (seen l : list sx) : list sx :=
  match l with
  | [] => []
  | a :: r => if sx_mem a seen then distinct_ders seen r else a :: distinct_ders (seen ++ [a]) r
  end.

(** Initial vectors, solvers.py lines 917-927: states by the order of [_var_list],
    derivatives from the entries named [x_d] in the order of [yd_map], and 0. *)
Definition dae_initial (ps : sx -> string) (pn : num -> string) (b : block) (init : dict num)
  : res (list num * list num) :=
  let* ds := diff_list pn (b_diff b) in
  let* y0 := lookup_all init (b_varlist b) in
  let* names := map_res (first_member ps) (distinct_ders [] ds) in
  let* yd0 := lookup_all init (map (fun x => (x ++ "_d")%string) names) in
  Ok (y0, yd0 ++ [PFloat (SpecFloat.S754_zero false)]).

(** DaeSolver.__init__, lines 813-845: a list of names cannot be looked up in a
    dictionary (TypeError). *)
Definition daesolver_init (init : dict num) (t : tname) : res Datatypes.unit :=
  match t with
  | TNames _ => Raise EType
  | TName s => if dmem s init then Ok tt else Raise EAbsentRequired
  | TNone => Raise EAbsentRequired
  end.
