(** Specification vocabulary: differential-algebraic equations that determine one
    trajectory (C84). *)
From Verif Require Import Base Num UnitModel Sympy Node Build EquationModel ModelModel ProblemModel SpecExpr SpecProblem SolverModel SpecSolver SpecWritten SpecExact
  SpecOwn SpecSession SpecSaid SpecCompose SpecInit RunModel SpecRun SpecUnique SimModel WholeModel SpecWhole DaeFacts.
From Verif Require DomainModel SpecSim.
From Coq Require Import Reals.
Notation num := Verif.Num.num.

(** Wherever [g] has a value, it changes near there at most in proportion to [names]. *)
Definition even_tempered (names : list string) (g : env -> option R) : Prop :=
  forall en0 c, g en0 = Some c -> exists delta L, (0 < delta)%R /\ (0 <= L)%R /\ forall en en', near delta names en0 en -> near delta names en0 en' ->
    forall a b, g en = Some a -> g en' = Some b -> (Rabs (a - b) <= L * gap names en en')%R.

(** An equation says that [z] is worth [g]. *)
Definition equals_said (P : written -> Prop) (z : string) (g : env -> option R) : Prop :=
  exists w, P w /\ forall en, wr_value w en = Some 0%R -> g en = Some (e_sym en z).
(** Each of [zs] is said, by both sets of equations, to be worth the same function of the
    time, of [known] and of those before it. *)
Fixpoint follow (P P' : written -> Prop) (t : string) (known zs : list string) : Prop :=
  match zs with
  | [] => True
  | z :: r => (exists g g', equals_said P z g /\ equals_said P' z g' /\ (forall en, g en = g' en) /\ even_tempered (t :: known) g) /\ follow P P' t (z :: known) r
  end.
(** An equation says that the rate of [x] by [t] is [g]. *)
Definition change_said (P : written -> Prop) (x t : string) (g : env -> option R) : Prop :=
  exists w, P w /\ forall en, wr_value w en = Some 0%R -> g en = Some (e_der en x t).
(** Each of [diffs] has, by both, the same rate, a function of the time, of [diffs] and [zs]. *)
Definition same_dae_rates (P P' : written -> Prop) (t : string) (diffs zs : list string) : Prop :=
  forall x, In x diffs -> exists g g', change_said P x t g /\ change_said P' x t g' /\ (forall en, g en = g' en) /\ steady t (rev zs ++ diffs) g.

(** ** Runs *)
(** The problem of the program has rates and other equations (C80). *)
Definition dae_problem (acts : list act) (s : SpecProblem.session) (b : block) (P : written -> Prop) (t : string) (pn : num -> string) (dae : list (string * string * sx)) : Prop :=
  sets_up acts s b P /\ dictionaries acts /\ Forall2 (residual_ode pn) (b_diff b) dae /\ dae <> [] /\ closed_dae b dae /\ states_first (b_varlist b) dae /\
  (exists rest, b_eqs b = b_diff b ++ rest) /\ (forall x u r, In (x, u, r) dae -> u = t) /\ ~ In t (b_varlist b) /\
  (some_of CLinear (b_eqs b) \/ some_of CNonlinear (b_eqs b)).
(** The simulation [sm] of the problem of [s] writes to the domain [o], which is empty and
    has the time [t] and the variables of [b]; its headers are [names]; IDA is exact up to
    [eps]; [n] steps from [t0] to [e] are asked for. *)
Record dae_simulates (s : SpecProblem.session) (b : block) (t : string) (pn : num -> string) (lib : library) (doms : list (DomainModel.domain R)) (sm : sim)
    (o : nat) (names : dict string) (eps t0 e : R) (n : Z) : Prop := mkDaeSimulates {
  ds_problem : sm_problem sm = Some (snd s);
  ds_option : SpecSim.option_of sm "domain" = Some (VObj o);
  ds_domain : exists d, nth_error doms o = Some d /\ cleared d /\ DomainModel.d_ind d = [t] /\ DomainModel.d_dep d = b_varlist b /\
    NoDup (map (header names) (DomainModel.d_ind d ++ DomainModel.d_dep d));
  ds_headers : headed sm names;
  ds_engine : ida_solves (lib_ida lib) (dae_function pn b) eps;
  ds_times : timed sm t0 e n }.
