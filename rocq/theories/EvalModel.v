(** Evaluating candidates with one simulation, as the objective functions of
    /repo/tests/test_optimization.py (lines 108-134) do for optimization.py. *)
From Verif Require Import Base Num UnitModel Sympy Node EquationModel ModelModel ProblemModel SolverModel SimModel.
From Verif Require DomainModel.
Notation num := Verif.Num.num.

(** The objects an evaluation works on.  Simplification: one domain, the object
    [VObj 0]; the simulation holds the problem. *)
Record study := mkStudy {
  sy_world : pworld; sy_problem : problem; sy_store : store; sy_sim : sim; sy_domain : DomainModel.domain num }.

(** [m.a.setValue(x)] for every parameter to find, tests/test_optimization.py line
    114 ([simulation[m.a]] is [m.a], C71). *)
Fixpoint set_targets (w : pworld) (ts : list (nat * string)) (x : list num) : pworld * res Datatypes.unit :=
  match ts, x with
  | (i, a) :: ts', k :: x' =>
      match on_model w i (fun _ mw => run_cmd mw (CSet a (SANum k) None)) with
      | (w', Ok _) => set_targets w' ts' x'
      | bad => bad
      end
  | _, _ => (w, Ok tt)
  end.

(** A two-dimensional array of its rows (solvers.py lines 766, 776). *)
Definition matrix_of (y : list (list num)) : DomainModel.matrix num :=
  DomainModel.mkM (match y with [] => 0%nat | r :: _ => List.length r end) y.
(** The option variable_name_map, solvers.py lines 796-800, 982-986. *)
Definition name_map (c : dict cval) : dict string :=
  match dget "variable_name_map" c with
  | Some (VDict d) => flat_map (fun kv => match snd kv with VStr s => [(fst kv, s)] | _ => [] end) d
  | _ => []
  end.
(** A solver returns, recording its trajectory in the domain it is given, solvers.py
    lines 792, 978. *)
Definition recorded (d : DomainModel.domain num) (c : dict cval) (out : res sout) : DomainModel.domain num * res sout :=
  match out with
  | Ok (OutRun times y) =>
      match dget "domain" c with
      | Some (VObj O) =>
          match DomainModel.record_run d times (matrix_of y) (name_map c) with
          | (d', Ok _) => (d', out)
          | (d', Raise x) => (d', Raise x)
          end
      | Some (VObj _) => (d, out)
      | _ => (d, Raise EAttribute)
      end
  | _ => (d, out)
  end.
Definition tables_of (d : DomainModel.domain num) (o : nat) : option (dict (DomainModel.frame num)) :=
  match o with O => DomainModel.d_values d | _ => None end.

(** Simulation.reset, simulation.py lines 464-471. *)
Definition sim_reset (s : sim) (d : DomainModel.domain num) : DomainModel.domain num * res Datatypes.unit :=
  match sm_domain s with
  | VNone => (d, Ok tt)
  | VObj O => (DomainModel.reset d, Ok tt)
  | VObj _ => (d, Ok tt)
  | _ => (d, Raise EAttribute)
  end.

Section Evaluate.
(** The solver (given the quantities, the problem and the configuration), the check
    of degrees of freedom, and what the user makes of the results. *)
Context {A : Type} (solve : heap -> problem -> dict cval -> res sout) (dof : heap -> problem -> res bool)
  (objective : results -> res A).

(** runSimulation, simulation.py lines 206-286, with the solver. *)
Definition run_candidate (y : study) (s : sim) (w : pworld) (p : problem) (sanity show : bool) : study * res Datatypes.unit :=
  match prepare (sy_store y) s sanity (dof (pw_heap w) p) with
  | (st, Raise x) => (mkStudy w p st s (sy_domain y), Raise x)
  | (st, Ok (c, _)) =>
      let '(d, out) := recorded (sy_domain y) c (solve (pw_heap w) p c) in
      let '(st', s', r) := run_sim (tables_of d) (sy_store y) s sanity show (dof (pw_heap w) p) out in
      (mkStudy w p st' s' d, r)
  end.

(** One evaluation, tests/test_optimization.py lines 108-134: set, resolve,
    setConfigurations(definition_dict=...), runSimulation, getResults('dict'), reset. *)
Definition evaluate (ts : list (nat * string)) (cfg : confargs) (sanity show : bool) (y : study) (x : list num) : study * res A :=
  match set_targets (sy_world y) ts x with
  | (w, Raise e) => (mkStudy w (sy_problem y) (sy_store y) (sy_sim y) (sy_domain y), Raise e)
  | (w, Ok _) =>
      match presolve w (sy_problem y) with
      | (w', p, Raise e) => (mkStudy w' p (sy_store y) (sy_sim y) (sy_domain y), Raise e)
      | (w', p, Ok _) =>
          match set_configurations (with_problem (sy_sim y) p) cfg with
          | Raise e => (mkStudy w' p (sy_store y) (sy_sim y) (sy_domain y), Raise e)
          | Ok s =>
              match run_candidate y s w' p sanity show with
              | (y', Raise e) => (y', Raise e)
              | (y', Ok _) =>
                  match (let* t := get_results (tables_of (sy_domain y')) (sy_sim y') RDict in objective t) with
                  | Raise e => (y', Raise e)
                  | Ok v =>
                      let '(d, r) := sim_reset (sy_sim y') (sy_domain y') in
                      (mkStudy (sy_world y') (sy_problem y') (sy_store y') (sy_sim y') d,
                       match r with Ok _ => Ok v | Raise e => Raise e end)
                  end
              end
          end
      end
  end.

(** Candidates one after the other. *)
Fixpoint evaluate_all (ts : list (nat * string)) (cfg : confargs) (sanity show : bool) (y : study) (xs : list (list num)) : study * list (res A) :=
  match xs with
  | [] => (y, [])
  | x :: r => let '(y1, v) := evaluate ts cfg sanity show y x in
              let '(y2, vs) := evaluate_all ts cfg sanity show y1 r in (y2, v :: vs)
  end.
End Evaluate.
