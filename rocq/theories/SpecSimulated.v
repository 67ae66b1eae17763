(** Specification vocabulary: simulations of differential problems set up by any program
    (C83, C84). *)
From Verif Require Import Base Num UnitModel Sympy Node EquationModel ModelModel ProblemModel SpecProblem SolverModel SpecSolver SimModel RunModel SpecRun WholeModel SpecWhole SpecUnique.
From Verif Require SpecSim DomainModel.
From Coq Require Import Reals.
Notation num := Verif.Num.num.

(** The simulation [sm] of the problem of [s] writes to the domain [o], which is empty and
    has the time [t] and the variables of [ode]; its headers are [names]; the integrator it
    asks for is exact up to [eps] and takes the initial values for those at [t0 ts]. *)
Record simulates (s : SpecProblem.session) (b : block) (t : string) (pn : num -> string) (ode : list (string * sx))
    (lib : library) (doms : list (DomainModel.domain R)) (sm : sim) (o : nat) (names : dict string) (eps : R) (t0 : list R -> R) : Prop := mkSimulates {
  si_problem : sm_problem sm = Some (snd s);
  si_option : SpecSim.option_of sm "domain" = Some (VObj o);
  si_domain : exists d, nth_error doms o = Some d /\ cleared d /\ DomainModel.d_ind d = [t] /\ DomainModel.d_dep d = map fst ode /\
    NoDup (map (header names) (DomainModel.d_ind d ++ DomainModel.d_dep d));
  si_headers : headed sm names;
  si_engine : (uses sm "differential_solver" "ODEINT" /\ t0 = hd 0%R /\
      forall tn k ds, dsolver_init b (pr_init (snd s)) tn k = Ok ds -> odeint_solves (lib_odeint lib) (rates pn (snd s) b ds) eps) \/
    (SpecSim.option_of sm "differential_solver" = Some (VStr "CVODE") /\ t0 = (fun _ => 0%R) /\
      forall tn k ds, dsolver_init b (pr_init (snd s)) tn k = Ok ds -> cvode_solves (lib_cvode lib) (rates pn (snd s) b ds) eps) }.
