(** Model of Simulation.runSimulation with the solvers it makes, from the options to
    the results: /repo/src/sloth/simulation.py lines 206-286 and 366-443,
    solvers.py lines 27-76, 151-252, 256-360, 371-417, 587-812 and 813-990.  Values
    are exact real numbers.  Printing (messages, [print_output], the table of final
    residuals, C62) is left out. *)
From Verif Require Import Base Num UnitModel Sympy Node EquationModel ModelModel ProblemModel SolverModel SimModel RunModel.
From Verif Require DomainModel.
From Coq Require Import Reals.
Notation num := Verif.Num.num.

(** ** Reading options *)
(** A name of a mechanism: what is no text equals no name. *)
Definition name_option (v : cval) : option string := match v with VNone => None | VStr s => Some s | _ => Some "" end.
(** [v == True] *)
Definition holds_true (v : cval) : bool := match v with VBool b => b | VNum n => neqb n (PInt 1) | _ => false end.
(** A number; other values end in some TypeError. *)
Definition number_option (v : cval) : res R := match v with VNum n => real_of n | _ => Raise EType end.
(** [initial_guess]: a dictionary of numbers. *)
Definition guess_option (v : cval) : res (dict R) :=
  match v with
  | VDict d => map_res (fun kv => let* r := number_option (snd kv) in Ok (fst kv, r)) d
  | _ => Raise EType
  end.
(** [end_time]: None is allowed as long as it is not used. *)
Definition end_option (v : cval) : res (option R) :=
  match v with VNone => Ok None | _ => let* r := number_option v in Ok (Some r) end.
(** [number_of_time_steps].  Simplification: whole numbers only. *)
Definition steps_option (v : cval) : res (option Z) :=
  match v with VNone => Ok None | VNum (PInt n) => Ok (Some n) | _ => Raise EType end.
(** [variable_name_map] *)
Definition names_option (v : cval) : res (dict string) :=
  match v with
  | VDict d => map_res (fun kv => match snd kv with VStr s => Ok (fst kv, s) | _ => Raise EType end) d
  | _ => Raise EType
  end.
(** [times_for_solution]: an array ([arrays]: the contents of array objects), solvers.py
    lines 722-728.  A list has no [reshape] (line 766); CVODE gives an array back. *)
Definition times_option (arrays : nat -> option (list R)) (solver : option string) (v : cval) : res (option (list R)) :=
  match v with
  | VNone => Ok None
  | VObj o => match arrays o with Some l => Ok (Some l) | None => Raise EAttribute end
  | VList l => match solver with
               | Some "CVODE" => let* r := map_res number_option l in Ok (Some r)
               | _ => Raise EAttribute
               end
  | _ => Raise EAttribute
  end.

(** The options DSolver.solve and DaeSolver.solve read, lines 589-601, 785, 796 and
    897-905, 957, 969, 983; [k]: the option with the name of the mechanism. *)
Definition run_options (arrays : nat -> option (list R)) (c : dict cval) (k : string) (with_times : bool) : res ode_options :=
  let* m := opt c k in
  let* t0 := opt c "initial_time" in
  let* t0 := number_option t0 in
  let* e := opt c "end_time" in
  let* e := end_option e in
  let* _ := opt c "args" in
  let* n := opt c "number_of_time_steps" in
  let* n := steps_option n in
  let* ts := (if with_times then let* v := opt c "times_for_solution" in times_option arrays (name_option m) v else Ok None) in
  let* _ := opt c "configuration_args" in
  let* _ := opt c "print_output" in
  let* names := opt c "variable_name_map" in
  let* names := names_option names in
  Ok (mkOO (name_option m) t0 e n ts names).

(** ** Algebraic problems *)
(** LASolver: the guess is read by one mechanism only, solvers.py lines 212-218. *)
Definition la_run (eng : engines R) (b : block) (c : dict cval) : res (dict R) :=
  let* m := opt c "linear_solver" in
  match la_lookup (name_option m) with
  | Some MSymbolicSys => let* g := opt c "initial_guess" in
                         let* g := guess_option g in la_solve 1%R eng (name_option m) g b
  | _ => la_solve 1%R eng (name_option m) [] b
  end.
(** NLASolver, lines 311-328. *)
Definition nla_run (eng : engines R) (b : block) (c : dict cval) : res (dict R) :=
  let* m := opt c "nonlinear_solver" in
  let* k := nla_lookup (name_option m) in
  match k with
  | MSympy => nla_solve 1%R eng (name_option m) None [] b
  | _ => let* g := opt c "initial_guess" in
         let* g := guess_option g in
         let* p := opt c "initial_guess_solver" in
         nla_solve 1%R eng (name_option m) (name_option p) g b
  end.

(** ** All problems *)
(** The routines of the libraries. *)
Record library := mkLib {
  lib_roots : engines R;
  lib_odeint : rhs -> list R -> list R -> res (list (list R));
  lib_cvode : rhs -> list R -> R -> R -> list R -> res (list R * list (list R));
  lib_ida : residual -> list R -> list R -> list bool -> R -> R -> list R -> res (list R * list (list R))
}.

(** What a solver returns. *)
Inductive wout := WDict (d : dict R) | WRun (times : list R) (rows : list (list R)).

(** [self.domain], an object of its own; None and other objects have no [_register]
    (in Python raised after the integration). *)
Definition domain_option (doms : list (DomainModel.domain R)) (v : cval) : res (nat * DomainModel.domain R) :=
  match v with
  | VObj o => match nth_error doms o with Some d => Ok (o, d) | None => Raise EAttribute end
  | _ => Raise EAttribute
  end.

(** The solver made and used: the constructors of the dynamic solvers need
    [compilation_mechanism] (lines 411-417 and 841-845), DSolver is completed by
    [dsolver_init], then come the check of the degrees of freedom and [solve]. *)
Definition run_solver (lib : library) (arrays : nat -> option (list R)) (pn : num -> string) (ps : sx -> string) (h : heap) (p : problem) (b : block)
    (c : dict cval) (sv : solver) (sanity : bool) (doms : list (DomainModel.domain R)) : list (DomainModel.domain R) * res wout :=
  let check := if sanity then let* _ := dof_test pn h p in Ok tt else Ok tt in
  match sv with
  | LASolver => (doms, let* _ := check in let* d := la_run (lib_roots lib) b c in Ok (WDict d))
  | NLASolver => (doms, let* _ := check in let* d := nla_run (lib_roots lib) b c in Ok (WDict d))
  | DSolver =>
      match (let* t := opt c "time_variable_name" in
             let* _ := opt c "compilation_mechanism" in
             let* k := opt c "compile_equations" in
             let* ds := dsolver_init b (pr_init p) (tname_of t) (holds_true k) in
             let* _ := check in
             let* o := run_options arrays c "differential_solver" true in
             let* v := opt c "domain" in
             let* d := domain_option doms v in Ok (ds, o, d)) with
      | Raise x => (doms, Raise x)
      | Ok (ds, o, (i, d)) =>
          match ode_solve (lib_odeint lib) (lib_cvode lib) pn ps p b ds o d with
          | (d', Raise x) => (set_nth doms i d', Raise x)
          | (d', Ok (ts, rows)) => (set_nth doms i d', Ok (WRun ts rows))
          end
      end
  | DaeSolver =>
      match (let* _ := opt c "compilation_mechanism" in
             let* _ := check in
             let* o := run_options arrays c "differential_algebraic_solver" false in
             let* v := opt c "domain" in
             let* d := domain_option doms v in Ok (o, d)) with
      | Raise x => (doms, Raise x)
      | Ok (o, (i, d)) =>
          match dae_solve (lib_ida lib) pn ps p b o d with
          | (d', Raise x) => (set_nth doms i d', Raise x)
          | (d', Ok (ts, rows)) => (set_nth doms i d', Ok (WRun ts rows))
          end
      end
  end.

(** runSimulation: the shared lists and the domains afterwards, and the output. *)
Definition whole_run (lib : library) (arrays : nat -> option (list R)) (pn : num -> string) (ps : sx -> string) (h : heap)
    (st : store) (doms : list (DomainModel.domain R)) (s : sim) (sanity : bool) : store * list (DomainModel.domain R) * res wout :=
  match prepare st s false (Ok true) with
  | (st', Raise x) => (st', doms, Raise x)
  | (st', Ok (c, sv)) =>
      match sm_problem s with
      | None => (st', doms, Raise EAttribute)
      | Some p =>
          match pr_block p with
          | None => (st', doms, Raise EAttribute)
          | Some b => let '(doms', r) := run_solver lib arrays pn ps h p b c sv sanity doms in (st', doms', r)
          end
      end
  end.

(** getResults, lines 366-443, after a run. *)
Inductive wresults := WValues (l : list R) | WByName (d : dict R) | WTables (t : dict (DomainModel.frame R)).
Definition whole_results (doms : list (DomainModel.domain R)) (s : sim) (out : wout) (t : rtype) : res wresults :=
  match t with
  | ROther => Raise EUnexpectedValue
  | _ =>
    match out with
    | WDict d => Ok (match t with RList => WValues (results_list d) | _ => WByName (results_dict d) end)
    | WRun _ _ =>
        match sm_conf s with
        | None => Raise EType
        | Some c => let* v := opt c "domain" in
                    let* d := domain_option doms v in
                    match DomainModel.d_values (snd d) with Some t => Ok (WTables t) | None => Raise EAttribute end
        end
    end
  end.
