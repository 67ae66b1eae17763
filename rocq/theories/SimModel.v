(** Model of /repo/src/sloth/simulation.py. *)
From Verif Require Export SolverModel.
From Verif Require Import DomainModel.
Notation num := Verif.Num.num.

(** ** Values of options *)

(** Values of options.  [VRef]: a list that exists as an object of its own and
    may be shared; [VList], [VDict]: lists and dictionaries nobody changes;
    [VObj]: any other object (a Domain). *)
Inductive cval :=
| VNone | VBool (b : bool) | VNum (n : num) | VStr (s : string)
| VList (l : list cval) | VDict (d : list (string * cval)) | VRef (r : nat) | VObj (o : nat).

(** Contents of all shared lists. *)
Definition store := list (list cval).
Definition store_set (s : store) (r : nat) (l : list cval) : store := set_nth s r l.

(** The list objects made once when the function is defined, lines 109-110. *)
Definition arg_names_default : nat := 0.
Definition args_default : nat := 1.
Definition store0 : store := [[]; []].

(** Keyword defaults, lines 95-120, in the order of the dictionary (lines
    129-153). *)
Definition conf_defaults : dict cval :=
  [("compile_equations", VBool true); ("domain", VNone); ("time_variable_name", VNone);
   ("initial_time", VNum (PFloat (SpecFloat.S754_zero false))); ("end_time", VNone); ("is_dynamic", VBool false);
   ("arg_names", VRef arg_names_default); ("initial_guess", VDict []); ("initial_guess_solver", VNone);
   ("linear_solver", VStr "symbolicsys"); ("nonlinear_solver", VStr "*"); ("differential_solver", VStr "ODEINT");
   ("differential_algebraic_solver", VStr "IDA"); ("problem_type", VNone); ("args", VRef args_default);
   ("verbosity_solver", VNum (PInt 0)); ("number_of_time_steps", VNum (PInt 100)); ("configuration_args", VDict []);
   ("print_output", VBool false); ("output_headers", VNone); ("variable_name_map", VDict []);
   ("compilation_mechanism", VStr "numpy"); ("number_parameters_to_optimize", VNum (PInt 0));
   ("times_for_solution", VNone)].

(** [x == 0] and [x != y] on the values of number_parameters_to_optimize (line
    200).  Simplification: objects of different kinds are different; lists and
    dictionaries are not compared (they count as different). *)
Definition cval_eqb (a b : cval) : bool :=
  match a, b with
  | VNone, VNone => true
  | VBool x, VBool y => Bool.eqb x y
  | VNum x, VNum y => neqb x y
  | VStr x, VStr y => String.eqb x y
  | VRef x, VRef y => Nat.eqb x y
  | VObj x, VObj y => Nat.eqb x y
  | _, _ => false
  end.

(** ** Simulations *)

(** Output of a solver: a dictionary (algebraic problems) or the time points with
    the states. *)
Inductive sout := OutDict (d : dict num) | OutRun (times : list num) (y : list (list num)).

(** class Simulation, lines 22-55 (name, description and plotter left out). *)
Record sim := mkSim {
  sm_problem : option problem;
  sm_conf : option (dict cval);
  sm_output : option sout;
  sm_domain : cval;
  sm_status : option nat
}.
Definition new_sim : sim := mkSim None None None VNone None.
(** setProblem, lines 82-90. *)
Definition with_problem (s : sim) (p : problem) : sim :=
  mkSim (Some p) (sm_conf s) (sm_output s) (sm_domain s) (sm_status s).
Definition with_conf (s : sim) (c : dict cval) : sim :=
  mkSim (sm_problem s) (Some c) (sm_output s) (sm_domain s) (sm_status s).

(** Third possible origin of a configuration: [configurations_file] holds the
    contents of the JSON file (or what reading it raises). *)
Record confargs := mkConf {
  ca_kwargs : dict cval;                  (* keyword arguments given *)
  ca_dict : cval;                         (* definition_dict, VNone by default *)
  ca_file : option (res (dict cval))      (* configurations_file *)
}.

Definition kw (a : confargs) (k : string) : cval :=
  match dget k (ca_kwargs a) with
  | Some v => v
  | None => match dget k conf_defaults with Some v => v | None => VNone end
  end.

(** The dictionary of lines 129-153. *)
Definition kw_dict (a : confargs) : dict cval := map (fun kv => (fst kv, kw a (fst kv))) conf_defaults.

(** [is_dynamic is True] *)
Definition is_true (v : cval) : bool := match v with VBool b => b | _ => false end.

(** The name of the problem's time variable as an option value. *)
Definition time_value (p : problem) : cval :=
  match pr_time p with None => VNone | Some l => VList (map VStr l) end.

(** setConfigurations, lines 95-204.  An unknown keyword raises TypeError. *)
Definition set_configurations (s : sim) (a : confargs) : res sim :=
  if forallb (fun k => dmem k conf_defaults) (dkeys (ca_kwargs a)) then
    let* c := match ca_file a with
              | Some r => r
              | None =>
                  match ca_dict a with
                  | VDict d => Ok (dupdate (kw_dict a) d)
                  | _ =>
                      let* t := match kw a "time_variable_name" with
                                | VNone => if is_true (kw a "is_dynamic")
                                           then match sm_problem s with
                                                | None => Raise EAttribute
                                                | Some p => Ok (time_value p)
                                                end
                                           else Ok VNone
                                | v => Ok v
                                end in
                      Ok (dset "time_variable_name" t (kw_dict a))
                  end
              end in
    let n := kw a "number_parameters_to_optimize" in
    if cval_eqb n (VNum (PInt 0)) then Ok (with_conf s c)
    else match dget "number_parameters_to_optimize" c with
         | None => Raise EKey
         | Some m => Ok (with_conf s (if cval_eqb m n then c else dset "number_parameters_to_optimize" n c))
         end
  else Raise EType.

(** ** Running *)

Definition opt (c : dict cval) (k : string) : res cval :=
  match dget k c with None => Raise EKey | Some v => Ok v end.

(** The configured time variable name as the constructors of the solvers see it,
    solvers.py lines 383-393 and 823-825.  Simplification: a list with something else
    than names counts as something without an initial condition. *)
Definition tname_of (v : cval) : tname :=
  match v with
  | VStr s => TName s
  | VList l => if forallb (fun x => match x with VStr _ => true | _ => false end) l
               then TNames (flat_map (fun x => match x with VStr s => [s] | _ => [] end) l) else TNone
  | _ => TNone
  end.

(** [time_variable_name in arg_names]. *)
Definition same_name (a b : cval) : bool :=
  match a, b with
  | VStr x, VStr y => String.eqb x y
  | VList l, VList m =>
      Nat.eqb (List.length l) (List.length m) &&
      forallb (fun xy => match xy with (VStr x, VStr y) => String.eqb x y | _ => false end) (List.combine l m)
  | _, _ => false
  end.

(** [arg_names.append(time_variable_name)] unless it is there, solvers.py lines
    395-397 and 827-829.  A text or dictionary that contains the name is left alone, another
    has no [append]; numbers and None contain nothing. *)
Definition add_time_name (st : store) (args : cval) (t : cval) : store * res Datatypes.unit :=
  match args with
  | VRef r => match nth_error st r with
              | None => (st, Raise EName)
              | Some l => (if existsb (same_name t) l then st else store_set st r (l ++ [t]), Ok tt)
              end
  | VList l => (st, Ok tt)   (* a list nobody else can see *)
  | VStr s => (st, match t with VStr x => if str_contains x s then Ok tt else Raise EAttribute | _ => Raise EType end)
  | VDict d => (st, match t with VStr x => if dmem x d then Ok tt else Raise EAttribute | _ => Raise EType end)
  | _ => (st, Raise EType)
  end.

(** _createSolver, solvers.py lines 27-76, with the constructors of the solvers
    (dynamic ones: lines 371-417 and 813-845) up to their use of the options. *)
Definition make_solver (st : store) (p : problem) (b : block) (c : dict cval) : store * res solver :=
  match (let* _ := opt c "linear_solver" in let* _ := opt c "nonlinear_solver" in
         let* _ := opt c "differential_solver" in let* _ := opt c "differential_algebraic_solver" in
         create_solver b) with
  | Raise x => (st, Raise x)
  | Ok LASolver => (st, Ok LASolver)
  | Ok NLASolver =>
      (st, match opt c "nonlinear_solver" with
           | Ok (VStr s) => let* _ := nla_lookup (Some s) in Ok NLASolver
           | Ok VNone => Ok NLASolver
           | _ => Raise EType
           end)
  | Ok sv =>
      match (let* _ := opt c "domain" in
             let* _ := match sv with DSolver => opt c "times_for_solution" | _ => Ok VNone end in
             let* t := opt c "time_variable_name" in
             let* a := opt c "arg_names" in
             let* _ := match sv with
                       | DSolver => match tname_of t with
                                    | TName s => if dmem s (pr_init p) then Ok tt else Raise EAbsentRequired
                                    | TNames l => if forallb (fun s => dmem s (pr_init p)) l then Ok tt else Raise EAbsentRequired
                                    | TNone => Raise EAbsentRequired
                                    end
                       | _ => daesolver_init (pr_init p) (tname_of t)
                       end in
             Ok (t, a)) with
      | Raise x => (st, Raise x)
      | Ok (t, a) => match add_time_name st a t with
                     | (st', Raise x) => (st', Raise x)
                     | (st', Ok _) => (st', Ok sv)
                     end
      end
  end.

(** Simulation.getResults, lines 366-443, as far as it can raise: [tables] gives
    the tables of a Domain object ([None]: not set up). *)
Inductive rtype := RList | RDict | ROther.
Inductive results := RValues (l : list num) | RByName (d : dict num) | RTables (t : dict (frame num)).

Definition get_results (tables : nat -> option (dict (frame num))) (s : sim) (t : rtype) : res results :=
  match sm_problem s with
  | None => Raise EAttribute
  | Some p =>
      match pr_block p with
      | None => Raise EAttribute
      | Some b =>
          match problem_type b with
          | Some PTLinear | Some PTNonlinear =>
              match t, sm_output s with
              | RList, Some (OutDict d) => Ok (RValues (dvals d))
              | RList, _ => Raise EType
              | RDict, Some (OutDict d) => Ok (RByName (results_dict d))
              | RDict, _ => Raise EAttribute
              | ROther, _ => Raise EUnexpectedValue
              end
          | Some PTDiff | Some PTDae =>
              match sm_conf s with
              | None => Raise EType
              | Some c =>
                  let* d := opt c "domain" in
                  match t with
                  | ROther => Raise EUnexpectedValue
                  | _ => match d with
                         | VObj o => match tables o with Some t => Ok (RTables t) | None => Raise EAttribute end
                         | _ => Raise EAttribute
                         end
                  end
              end
          | None => Raise EException   (* UnresolvedPanicError *)
          end
      end
  end.

(** getStatus, lines 289-303: [x is not []] is true for every [x]. *)
Definition get_status (tables : nat -> option (dict (frame num))) (s : sim) : res nat :=
  let* _ := get_results tables s RList in Ok 0%nat.

(** The part of runSimulation before solving, lines 206-246; [sanity]: the check
    of degrees of freedom is asked for (line 240), [dof]: its outcome. *)
Definition prepare (st : store) (s : sim) (sanity : bool) (dof : res bool) : store * res (dict cval * solver) :=
  match sm_conf s with
  | None => (st, Raise EType)
  | Some c =>
      match (let* t := opt c "problem_type" in
             let* _ := opt c "number_parameters_to_optimize" in
             match sm_problem s with
             | None => Raise EAttribute
             | Some p => match pr_block p with
                         | None => Raise EAttribute
                         | Some b =>
                             let* _ := choose_solver (match t with VStr x => Some x | VNone => None | _ => Some "" end) b in
                             Ok (p, b)
                         end
             end) with
      | Raise x => (st, Raise x)
      | Ok (p, b) =>
          match make_solver st p b c with
          | (st', Raise x) => (st', Raise x)
          | (st', Ok sv) => (st', if sanity then let* _ := dof in Ok (c, sv) else Ok (c, sv))
          end
      end
  end.

(** runSimulation, lines 206-286, without the messages; [out]: what the solver
    returns or raises.  The domain of the configuration becomes the domain of the
    simulation; the status is taken when the messages are asked for. *)
Definition run_sim (tables : nat -> option (dict (frame num))) (st : store) (s : sim)
    (sanity show : bool) (dof : res bool) (out : res sout) : store * sim * res Datatypes.unit :=
  match prepare st s sanity dof with
  | (st', Raise x) => (st', s, Raise x)
  | (st', Ok (c, _)) =>
      match out with
      | Raise x => (st', s, Raise x)
      | Ok o =>
          let s1 := mkSim (sm_problem s) (sm_conf s) (Some o) (sm_domain s) (sm_status s) in
          match opt c "domain" with
          | Raise x => (st', s1, Raise x)
          | Ok d =>
              let s2 := mkSim (sm_problem s) (sm_conf s) (Some o) d (sm_status s) in
              if show then
                match get_status tables s2 with
                | Raise x => (st', s2, Raise x)
                | Ok n => (st', mkSim (sm_problem s) (sm_conf s) (Some o) d (Some n), Ok tt)
                end
              else (st', s2, Ok tt)
          end
      end
  end.

(** Simulation.__getitem__, lines 473-495. *)
Inductive skey := KStr (s : string) | KQty (q : qty) | KOther.
Definition sim_getitem (s : sim) (k : skey) : res loc :=
  match sm_problem s with
  | None => match k with KOther => Raise EUnexpectedValue | _ => Raise EAttribute end
  | Some p =>
      match k, pr_block p with
      | KOther, _ => Raise EUnexpectedValue
      | _, None => Raise EAttribute
      | KStr x, Some b => match dget x (b_pars b) with Some l => Ok l | None => Raise EKey end
      | KQty q, Some b => match dget (q_name q) (b_pars b) with Some l => Ok l | None => Raise EKey end
      end
  end.

(** dumpConfigurations, lines 445-462, and reading the text back (line 159): what
    json gives for a value.  Other objects cannot be written.  Shared lists become
    lists of their own; simplification: they hold no further shared lists. *)
Fixpoint json_value (v : cval) : res cval :=
  match v with
  | VObj _ | VRef _ => Raise EType
  | VList l =>
      let* l' := (fix go (l : list cval) : res (list cval) :=
                    match l with [] => Ok [] | x :: r => let* y := json_value x in let* s := go r in Ok (y :: s) end) l in
      Ok (VList l')
  | VDict d =>
      let* d' := (fix go (l : list (string * cval)) : res (list (string * cval)) :=
                    match l with [] => Ok [] | (k, x) :: r => let* y := json_value x in let* s := go r in Ok ((k, y) :: s) end) d in
      Ok (VDict d')
  | _ => Ok v
  end.
Definition json_option (st : store) (v : cval) : res cval :=
  match v with
  | VRef r => match nth_error st r with None => Raise EName | Some l => json_value (VList l) end
  | _ => json_value v
  end.
Definition dump (st : store) (c : dict cval) : res (dict cval) :=
  map_res (fun kv => let* x := json_option st (snd kv) in Ok (fst kv, x)) c.

(** ** Histories *)

(** What a user does with any number of simulations.  Shared lists are made by
    [ANewList]; [AConf] may pass them in the arguments. *)
Inductive saction :=
| ANewSim
| ANewList (l : list cval)
| AProblem (i : nat) (p : problem)
| AConf (i : nat) (a : confargs)
| ARun (i : nat) (sanity show : bool) (dof : res bool) (out : res sout).

Record sworld := mkSW { sw_store : store; sw_sims : list sim }.
Definition sworld0 : sworld := mkSW store0 [].

Definition sstep (tables : nat -> option (dict (frame num))) (w : sworld) (a : saction) : sworld * res Datatypes.unit :=
  match a with
  | ANewSim => (mkSW (sw_store w) (sw_sims w ++ [new_sim]), Ok tt)
  | ANewList l => (mkSW (sw_store w ++ [l]) (sw_sims w), Ok tt)
  | AProblem i p =>
      match nth_error (sw_sims w) i with
      | None => (w, Raise EName)
      | Some s => (mkSW (sw_store w) (set_nth (sw_sims w) i (with_problem s p)), Ok tt)
      end
  | AConf i a =>
      match nth_error (sw_sims w) i with
      | None => (w, Raise EName)
      | Some s => match set_configurations s a with
                  | Raise x => (w, Raise x)
                  | Ok s' => (mkSW (sw_store w) (set_nth (sw_sims w) i s'), Ok tt)
                  end
      end
  | ARun i sanity show dof out =>
      match nth_error (sw_sims w) i with
      | None => (w, Raise EName)
      | Some s => let '(st', s', r) := run_sim tables (sw_store w) s sanity show dof out in
                  (mkSW st' (set_nth (sw_sims w) i s'), r)
      end
  end.
(** A history: every action is tried (the user may catch exceptions). *)
Fixpoint shist (tables : nat -> option (dict (frame num))) (w : sworld) (l : list saction) : sworld :=
  match l with
  | [] => w
  | a :: r => shist tables (fst (sstep tables w a)) r
  end.
