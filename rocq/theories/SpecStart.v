(** Specification vocabulary: when a simulation can be started (C86). *)
From Verif Require Import Base Num SimModel.
From Verif Require SpecSim.

(** The kind of a problem, from the equations of its block. *)
Inductive kind (b : block) : string -> Prop :=
| kind_linear : b_diff b = [] -> b_nonlin b = [] -> b_lin b <> [] -> kind b "linear"
| kind_nonlinear : b_diff b = [] -> b_nonlin b <> [] -> kind b "nonlinear"
| kind_diff : b_diff b <> [] -> b_lin b = [] -> b_nonlin b = [] -> kind b "differential"
| kind_dae : b_diff b <> [] -> b_lin b <> [] \/ b_nonlin b <> [] -> kind b "differential-algebraic".

Definition kinds : list string := ["linear"; "nonlinear"; "differential"; "differential-algebraic"].

(** All documented options are there. *)
Definition complete (c : dict cval) : Prop := forall k, SpecSim.documented k -> dget k c <> None.

(** An initial condition for the name was given. *)
Definition begins (p : problem) (t : string) : Prop := In t (dkeys (pr_init p)).

(** The time variable of the configuration can be used by the solver of the kind. *)
Definition time_given (p : problem) (c : dict cval) (k : string) : Prop :=
  (k = "differential" -> exists v, dget "time_variable_name" c = Some v /\
     ((exists t, v = VStr t /\ begins p t) \/ (exists ts, v = VList (map VStr ts) /\ forall t, In t ts -> begins p t))) /\
  (k = "differential-algebraic" -> exists t, dget "time_variable_name" c = Some (VStr t) /\ begins p t).

(** The argument names are a list, or a text or dictionary in which the time variable is. *)
Definition args_listed (st : store) (c : dict cval) (k : string) : Prop :=
  k = "differential" \/ k = "differential-algebraic" ->
  (exists l, dget "arg_names" c = Some (VList l)) \/ (exists r, dget "arg_names" c = Some (VRef r) /\ (r < List.length st)%nat) \/
  exists t, dget "time_variable_name" c = Some (VStr t) /\
    ((exists u w, dget "arg_names" c = Some (VStr (u ++ t ++ w)%string)) \/ exists d, dget "arg_names" c = Some (VDict d) /\ In t (dkeys d)).

(** A simulation that can be started. *)
Definition ready (st : store) (s : sim) (sanity : bool) (dof : res bool) : Prop :=
  exists c p b k, sm_conf s = Some c /\ sm_problem s = Some p /\ pr_block p = Some b /\ kind b k /\
    (dget "problem_type" c = Some VNone \/ exists x, dget "problem_type" c = Some (VStr x) /\ In x kinds) /\
    (k = "nonlinear" -> dget "nonlinear_solver" c = Some VNone \/
       exists x, dget "nonlinear_solver" c = Some (VStr x) /\ In x ["*"; "symbolicsys"; "sympy"]) /\
    time_given p c k /\ args_listed st c k /\
    (sanity = true -> exists v, dof = Ok v).

(** What is wrong with the options of a problem of the kind [k], and how it is reported. *)
Inductive unusable (st : store) (p : problem) (c : dict cval) (k : string) : exn -> Prop :=
| un_solver v : k = "nonlinear" -> dget "nonlinear_solver" c = Some v -> v <> VNone ->
    (forall x, v = VStr x -> ~ In x ["*"; "symbolicsys"; "sympy"]) -> unusable st p c k EType
| un_time : k = "differential" -> ~ time_given p c k -> unusable st p c k EAbsentRequired
| un_time_dae : k = "differential-algebraic" -> ~ time_given p c k -> (forall ts, dget "time_variable_name" c <> Some (VList (map VStr ts))) ->
    unusable st p c k EAbsentRequired
| un_times ts : k = "differential-algebraic" -> dget "time_variable_name" c = Some (VList (map VStr ts)) -> unusable st p c k EType
| un_text v t : k = "differential" \/ k = "differential-algebraic" -> time_given p c k -> ~ args_listed st c k -> dget "arg_names" c = Some v ->
    dget "time_variable_name" c = Some (VStr t) -> (exists x, v = VStr x) \/ (exists d, v = VDict d) -> unusable st p c k EAttribute
| un_args v : k = "differential" \/ k = "differential-algebraic" -> time_given p c k -> ~ args_listed st c k -> dget "arg_names" c = Some v ->
    (forall r, v <> VRef r) -> ((exists x, v = VStr x) \/ (exists d, v = VDict d) -> forall t, dget "time_variable_name" c <> Some (VStr t)) ->
    unusable st p c k EType
| un_lost r : k = "differential" \/ k = "differential-algebraic" -> time_given p c k -> dget "arg_names" c = Some (VRef r) -> (List.length st <= r)%nat ->
    unusable st p c k EName.

(** How a simulation that cannot be started reports it. *)
Inductive reported (st : store) (s : sim) (sanity : bool) (dof : res bool) : exn -> Prop :=
| rp_options : sm_conf s = None -> reported st s sanity dof EType
| rp_resolved : sm_conf s <> None -> (forall p b, sm_problem s = Some p -> pr_block p <> Some b) -> reported st s sanity dof EAttribute
| rp_equations p b : sm_conf s <> None -> sm_problem s = Some p -> pr_block p = Some b -> (forall k, ~ kind b k) -> reported st s sanity dof EUnexpectedValue
| rp_type c p b v : sm_conf s = Some c -> sm_problem s = Some p -> pr_block p = Some b -> dget "problem_type" c = Some v -> v <> VNone ->
    (forall x, v = VStr x -> ~ In x kinds) -> reported st s sanity dof EUnexpectedValue
| rp_options_of c p b k e : sm_conf s = Some c -> sm_problem s = Some p -> pr_block p = Some b -> kind b k ->
    dget "problem_type" c = Some VNone \/ (exists x, dget "problem_type" c = Some (VStr x) /\ In x kinds) -> unusable st p c k e -> reported st s sanity dof e
| rp_freedom e : ready st s false dof -> sanity = true -> dof = Raise e -> reported st s sanity dof e.
