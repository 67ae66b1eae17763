(** Model of DSolver.solve and DaeSolver.solve, /repo/src/sloth/solvers.py lines 587-802 and 895-990, around the
    integrators.  Simplification: times and states are exact real numbers. *)
From Verif Require Import Base Num UnitModel Sympy Node EquationModel ModelModel ProblemModel SolverModel.
From Verif Require DomainModel.
From Coq Require Import Reals.
Notation num := Verif.Num.num.

(** The options the solver reads, lines 589-601 and 796, and the name of the
    mechanism, line 375.  [oo_times]: times_for_solution, a numpy array. *)
Record ode_options := mkOO {
  oo_solver : option string; oo_initial : R; oo_end : option R; oo_steps : option Z;
  oo_times : option (list R); oo_names : dict string }.

(** [np.linspace(a, b, n)]. *)
Definition linspace (a b : R) (n : Z) : res (list R) :=
  if (n <? 0)%Z then Raise EValue
  else Ok (map (fun k => if (n =? 1)%Z then a else (a + INR k * ((b - a) / IZR (n - 1)))%R) (seq 0 (Z.to_nat n))).

(** Lines 718-728.  [self.end_time] is not an attribute of the solver. *)
Definition time_points (o : ode_options) : res (list R) :=
  match oo_steps o with
  | None => Raise EAttribute
  | Some n =>
      match oo_times o with
      | Some l => Ok l
      | None => match oo_end o with
                | None => Raise EType
                | Some e => linspace (oo_initial o) e (n + 1)
                end
      end
  end.

(** Infinities and nan are not real numbers: as if refused. *)
Definition real_of (n : num) : res R := match num_value n with Some r => Ok r | None => Raise EValue end.

(** A function of the state and the time, as the integrators get it. *)
Definition rhs := list R -> R -> res (list (option R)).
(** diffYinterfaceForScipySolvers and diffYinterfaceForAssimuloSolvers, lines
    603-702.  Calls leave a longer [_var_list]; later calls give the same
    ([RunFacts.rates_again]). *)
Definition rates (pn : num -> string) (p : problem) (b : block) (s : dsolver) : rhs :=
  fun Y t => snd (ode_interface pn p b s Y t).

Section Solve.
(** [scipy.integrate.odeint], line 736: right-hand side, initial state, time points. *)
Variable odeint : rhs -> list R -> list R -> res (list (list R)).
(** [CVode(Explicit_Problem(...)).simulate], lines 743-752: right-hand side, initial
    state, initial time, end time, time points; returns times and states. *)
Variable cvode : rhs -> list R -> R -> R -> list R -> res (list R * list (list R)).

(** Lines 732-757.  Explicit_Problem is given no initial time: assimulo takes 0.  For
    other names [Y] is not assigned (UnboundLocalError, line 803). *)
Definition integrate (o : ode_options) (f : rhs) (y0 times : list R) : res (list R * list (list R)) :=
  match oo_solver o with
  | None | Some "ODEINT" => let* rows := odeint f y0 times in Ok (times, rows)
  | Some "CVODE" => match oo_end o with None => Raise EType | Some e => cvode f y0 0%R e times end
  | Some _ => Raise EName
  end.

(** DSolver.solve.  The arrays of the integrators have a column for each component
    of the state. *)
Definition ode_solve (pn : num -> string) (ps : sx -> string) (p : problem) (b : block) (s : dsolver) (o : ode_options)
    (d : DomainModel.domain R) : DomainModel.domain R * res (list R * list (list R)) :=
  match (let* k := initial_state ps s (pr_init p) in
         let* times := time_points o in
         let* y0 := map_res real_of k in
         let* out := integrate o (rates pn p b s) y0 times in Ok (y0, out)) with
  | Raise x => (d, Raise x)
  | Ok (y0, (times, rows)) =>
      match DomainModel.record_run d times (DomainModel.mkM (List.length y0) rows) (oo_names o) with
      | (d', Raise x) => (d', Raise x)
      | (d', Ok _) => (d', Ok (times, rows))
      end
  end.
End Solve.

(** ** DaeSolver.solve, lines 895-990 *)
(** [oo_times] is not an option here. *)
Definition dae_points (o : ode_options) : res (list R) :=
  match oo_steps o with
  | None => Raise EAttribute   (* line 911 *)
  | Some n => match oo_end o with
              | None => Raise EType
              | Some e => linspace (oo_initial o) e (n + 1)
              end
  end.

(** A residual function of the state and its derivative, as the integrator gets it
    (it is also given the time, which the expressions do not use). *)
Definition residual := list R -> list R -> res (list (option R)).

(** _getBooleanDiffFlagsForEquations, equation_block.py lines 219-229. *)
Definition diff_flags (b : block) : list bool := map (has_type CDifferential) (b_eqs b).

Section SolveDae.
(** [IDA(Implicit_Problem(...))], make_consistent and simulate, lines 933-960: residual
    function, initial state and derivative, marks of the differential components,
    initial time, end time, time points; returns times and states. *)
Variable ida : residual -> list R -> list R -> list bool -> R -> R -> list R -> res (list R * list (list R)).

(** The function is called once before (line 950).  For names other than IDA [Y] is
    not assigned (UnboundLocalError).  Simplification: the verbosity is a known one. *)
Definition dae_solve (pn : num -> string) (ps : sx -> string) (p : problem) (b : block) (o : ode_options) (d : DomainModel.domain R)
    : DomainModel.domain R * res (list R * list (list R)) :=
  match (let* times := dae_points o in
         let* k := dae_initial ps pn b (pr_init p) in
         let* y0 := map_res real_of (fst k) in
         let* yd0 := map_res real_of (snd k) in
         match oo_solver o with
         | None | Some "IDA" =>
             let* _ := dae_function pn b y0 yd0 in
             match oo_end o with
             | None => Raise EType
             | Some e => let* out := ida (dae_function pn b) y0 yd0 (diff_flags b) (oo_initial o) e times in Ok (times, y0, out)
             end
         | Some _ => Raise EName
         end) with
  | Raise x => (d, Raise x)
  | Ok (times, y0, (ts, rows)) =>
      match DomainModel.record_run d times (DomainModel.mkM (List.length y0) rows) (oo_names o) with
      | (d', Raise x) => (d', Raise x)
      | (d', Ok _) => (d', Ok (ts, rows))
      end
  end.
End SolveDae.
