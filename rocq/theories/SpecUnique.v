(** Specification vocabulary: equations that determine one trajectory (C84). *)
From Verif Require Import Base Num UnitModel Sympy Node Build EquationModel ModelModel ProblemModel SpecExpr SpecProblem SolverModel SpecSolver SpecWritten SpecExact
  SpecOwn SpecSession SpecSaid SpecCompose SpecInit RunModel SpecRun.
From Verif Require DomainModel.
From Coq Require Import Reals.
Notation num := Verif.Num.num.

(** The values of the quantities [names]: how far two states are apart. *)
Definition gap (names : list string) (en en' : env) : R := fold_right (fun x r => Rabs (e_sym en x - e_sym en' x) + r)%R 0%R names.
Definition near (delta : R) (names : list string) (en0 en : env) : Prop := forall x, In x names -> (Rabs (e_sym en x - e_sym en0 x) < delta)%R.

(** Wherever [g] has a value, it changes near there at most in proportion to the
    quantities. *)
Definition steady (t : string) (names : list string) (g : env -> option R) : Prop :=
  forall en0 c, g en0 = Some c -> exists delta L, (0 < delta)%R /\ forall en en',
    near delta (t :: names) en0 en -> near delta (t :: names) en0 en' -> e_sym en t = e_sym en' t ->
    forall a b, g en = Some a -> g en' = Some b -> (Rabs (a - b) <= L * gap names en en')%R.

(** An equation says that the rate of [x] by [t] is [g].  Two sets of equations give
    each variable the same, steady rate. *)
Definition rate_said (P : written -> Prop) (x t : string) (g : env -> option R) : Prop :=
  exists w, P w /\ forall en, wr_value w en = Some 0%R -> g en = Some (e_der en x t).
Definition same_rates (P P' : written -> Prop) (t : string) (names : list string) : Prop :=
  forall x, In x names -> exists g g', rate_said P x t g /\ rate_said P' x t g' /\ (forall en, g en = g' en) /\ steady t names g.

(** ** Expressions whose values are steady *)
(** Sums, differences, products, quotients, whole powers, powers of positive numbers,
    all functions but the square root, minimum and maximum; no derivatives; of
    quantities with [ok]. *)
Definition whole (k : num) : bool := match k with PInt _ => true | PFloat _ => false end.
Definition above_zero (k : num) : bool := match k with PInt z => (0 <? z)%Z | PFloat _ => false end.
Fixpoint gentle {Q : Type} (ok : Q -> Prop) (e : uexpr Q) : Prop :=
  match e with
  | UQty a => ok a
  | UBin o a b => o <> BPow /\ gentle ok a /\ gentle ok b
  | UNumR o a k => (o = BPow -> whole k = true) /\ gentle ok a
  | UNumL o k a => (o = BPow -> above_zero k = true) /\ gentle ok a
  | UFun f a => f <> FSqrt /\ gentle ok a
  | UFunN _ _ => True
  | UDiff _ _ => False
  | UMinMax _ l => gentle_args ok l
  end
with gentle_args {Q : Type} (ok : Q -> Prop) (l : uargs Q) : Prop :=
  match l with
  | ANil => True
  | AExpr e r => gentle ok e /\ gentle_args ok r
  | ANum _ r => gentle_args ok r
  end.
(** The quantity was given a value or is one of [names]. *)
Definition of_names (D : dict thing) (names : list string) (a : string) : Prop :=
  forall x, dget a D = Some x -> th_set x = true \/ In (th_name x) names.
Definition of_names_at (h : heap) (names : list string) (l : loc) : Prop :=
  forall q, hget h l = Some q -> q_spec q = true \/ In (q_name q) names.

(** ** Runs *)
(** A program and the equations it says (C76, C82). *)
Inductive sets_up (acts : list act) (s : SpecProblem.session) (b : block) : (written -> Prop) -> Prop :=
| su_plain : resolved acts s b -> all_ok start_session acts -> distinct_models acts -> readable_program acts ->
    forallb tidy_act acts = true -> plain_origins acts -> known_statements acts -> sets_up acts s b (program_says acts)
| su_composed vs : resolved acts s b -> all_ok start_session acts -> distinct_models acts -> forallb neat_act acts = true -> plain_origins acts ->
    accounts (acts ++ [AResolve]) = Some vs -> sets_up acts s b (composed_says acts vs).
(** Its problem is a system of rates by the time [t] (C79). *)
Definition ode_problem (acts : list act) (s : SpecProblem.session) (b : block) (P : written -> Prop) (t : string) (pn : num -> string) (ode : list (string * sx)) : Prop :=
  sets_up acts s b P /\ dictionaries acts /\ prints_numbers pn /\ one_word t = true /\ str_contains "_" t = true /\ times_by acts [t] /\
  Forall2 (explicit t) (b_diff b) ode /\ closed_system t ode /\ b_eqs b = b_diff b /\ ode_unknowns t ode (b_varlist b) /\ ode <> [].
(** A run of it leaves the table [d'] with the headers [names]; the initial values are
    those of [t0], the integrator is exact up to [eps]. *)
Inductive recorded_run (s : SpecProblem.session) (b : block) (t : string) (pn : num -> string) (ode : list (string * sx)) :
    R -> list R -> DomainModel.domain R -> dict string -> R -> Prop :=
| rr_odeint ps tn compile ds odeint cvode eps o d d' ts rows :
    dsolver_init b (pr_init (snd s)) tn compile = Ok ds ->
    cleared d -> DomainModel.d_ind d = [t] -> DomainModel.d_dep d = map fst ode -> NoDup (map (header (oo_names o)) (DomainModel.d_ind d ++ DomainModel.d_dep d)) ->
    oo_solver o = None \/ oo_solver o = Some "ODEINT" -> odeint_solves odeint (rates pn (snd s) b ds) eps ->
    ode_solve odeint cvode pn ps (snd s) b ds o d = (d', Ok (ts, rows)) -> recorded_run s b t pn ode (hd 0%R ts) ts d' (oo_names o) eps
| rr_cvode ps tn compile ds odeint cvode eps o d d' ts rows :
    dsolver_init b (pr_init (snd s)) tn compile = Ok ds ->
    cleared d -> DomainModel.d_ind d = [t] -> DomainModel.d_dep d = map fst ode -> NoDup (map (header (oo_names o)) (DomainModel.d_ind d ++ DomainModel.d_dep d)) ->
    oo_solver o = Some "CVODE" -> cvode_solves cvode (rates pn (snd s) b ds) eps ->
    ode_solve odeint cvode pn ps (snd s) b ds o d = (d', Ok (ts, rows)) -> recorded_run s b t pn ode 0%R ts d' (oo_names o) eps.

(** The tables have a column of times and one for each variable; where both have the
    same time, the values differ by at most [eps]. *)
Definition agree_within (eps : R) (t : string) (vars : list string) (d : DomainModel.domain R) (names : dict string) (d' : DomainModel.domain R) (names' : dict string) : Prop :=
  exists ts ts', DomainModel.column d t (DomainModel.LName (header names t)) = Some ts /\ DomainModel.column d' t (DomainModel.LName (header names' t)) = Some ts' /\
  forall x, In x vars -> exists col col',
    DomainModel.column d t (DomainModel.LName (header names x)) = Some col /\ DomainModel.column d' t (DomainModel.LName (header names' x)) = Some col' /\
    List.length col = List.length ts /\ List.length col' = List.length ts' /\
    forall k k' tau v v', nth_error ts k = Some tau -> nth_error ts' k' = Some tau -> nth_error col k = Some v -> nth_error col' k' = Some v' ->
      (Rabs (v - v') <= eps)%R.
(** Two programs give the variables the same initial values. *)
Definition same_starts (acts acts' : list act) (vars : list string) : Prop :=
  forall x k k', In x vars -> starts_at acts x k -> starts_at acts' x k' -> num_value k = num_value k'.
