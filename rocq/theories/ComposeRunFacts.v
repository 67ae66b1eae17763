(** Rates, residuals and trajectories of programs whose models incorporate other
    models (C82). *)
From Verif Require Import Base BaseFacts Num UnitModel Sympy Node Build EquationModel ModelModel ProblemModel SpecUnits SpecExpr SpecModel SpecInc SpecCall SpecProblem
  ProblemFacts SessionFacts SpecLink SolverModel DomainModel SpecSolver SolverFacts SpecSymbols OdeFacts DaeFacts SpecWritten SpecExact SpecOwn SpecSession
  SpecSaid SaidFacts SpecInit InitFacts RunModel SpecRun RunFacts DaeRunFacts SpecCompose ComposeFacts.
From Coq Require Import Reals Lra.
Notation num := Verif.Num.num.

Lemma rates_composed acts s b vs t pn init tn compile ds ode Y tau en : resolved acts s b -> all_ok start_session acts -> distinct_models acts ->
  forallb neat_act acts = true -> plain_origins acts -> accounts (acts ++ [AResolve]) = Some vs ->
  prints_numbers pn -> one_word t = true -> str_contains "_" t = true -> pr_time (snd s) = Some [t] ->
  Forall2 (explicit t) (b_diff b) ode -> closed_system t ode -> b_eqs b = b_diff b -> ode_unknowns t ode (b_varlist b) -> ode <> [] ->
  dsolver_init b init tn compile = Ok ds -> state_of t ode Y tau en ->
  exists us, ode_interface pn (snd s) b ds Y tau = (b, Ok us) /\
    (forall j x r, nth_error ode j = Some (x, r) -> exists w g, composed_says acts vs w /\ rate w x t g /\ nth_error us j = Some (g en)) /\
    (forall w x g, composed_says acts vs w -> rate w x t g -> exists j r, nth_error ode j = Some (x, r) /\ nth_error us j = Some (g en)).
Proof. intros R O D P Pl A. apply rates_stated. exact (block_composed _ _ _ _ R O D P Pl A). Qed.

Lemma residuals_composed acts s b vs pn dae y yd en : resolved acts s b -> all_ok start_session acts -> distinct_models acts ->
  forallb neat_act acts = true -> plain_origins acts -> accounts (acts ++ [AResolve]) = Some vs ->
  Forall2 (residual_ode pn) (b_diff b) dae -> dae <> [] -> closed_dae b dae -> by_equation (b_varlist b) dae y yd en ->
  exists us, dae_function pn b y yd = Ok us /\
    Forall2 (fun e v => exists x, composed_says acts vs x /\ says x e /\ v = wr_value x en) (b_eqs b) us.
Proof. intros R O D P Pl A. apply residuals_stated. exact (block_composed _ _ _ _ R O D P Pl A). Qed.

Lemma odeint_composed acts s b vs t pn ps tn compile ds ode odeint cvode eps o d d' ts rows :
  resolved acts s b -> all_ok start_session acts -> distinct_models acts -> forallb neat_act acts = true -> plain_origins acts ->
  accounts (acts ++ [AResolve]) = Some vs -> dictionaries acts ->
  prints_numbers pn -> one_word t = true -> str_contains "_" t = true -> times_by acts [t] ->
  Forall2 (explicit t) (b_diff b) ode -> closed_system t ode -> b_eqs b = b_diff b -> ode_unknowns t ode (b_varlist b) -> ode <> [] ->
  dsolver_init b (pr_init (snd s)) tn compile = Ok ds ->
  cleared d -> d_ind d = [t] -> d_dep d = map fst ode -> NoDup (map (header (oo_names o)) (d_ind d ++ d_dep d)) ->
  oo_solver o = None \/ oo_solver o = Some "ODEINT" -> odeint_solves odeint (rates pn (snd s) b ds) eps ->
  ode_solve odeint cvode pn ps (snd s) b ds o d = (d', Ok (ts, rows)) ->
  time_points o = Ok ts /\ (forall x, In x (map fst ode) <-> rated_in (composed_says acts vs) t x) /\
  exists sol, starts_right acts (map fst ode) (hd 0%R ts) sol /\ obeys_all (composed_says acts vs) t (map fst ode) (hd 0%R ts) ts sol /\
    recorded_as d' t (oo_names o) (map fst ode) ts sol eps.
Proof.
  intros R O D P Pl A. exact (odeint_run_stated (composed_says acts vs) acts s b t pn ps tn compile ds ode odeint cvode eps o d d' ts rows R
    (block_composed _ _ _ _ R O D P Pl A)).
Qed.

Lemma cvode_composed acts s b vs t pn ps tn compile ds ode odeint cvode eps o d d' ts rows :
  resolved acts s b -> all_ok start_session acts -> distinct_models acts -> forallb neat_act acts = true -> plain_origins acts ->
  accounts (acts ++ [AResolve]) = Some vs -> dictionaries acts ->
  prints_numbers pn -> one_word t = true -> str_contains "_" t = true -> times_by acts [t] ->
  Forall2 (explicit t) (b_diff b) ode -> closed_system t ode -> b_eqs b = b_diff b -> ode_unknowns t ode (b_varlist b) -> ode <> [] ->
  dsolver_init b (pr_init (snd s)) tn compile = Ok ds ->
  cleared d -> d_ind d = [t] -> d_dep d = map fst ode -> NoDup (map (header (oo_names o)) (d_ind d ++ d_dep d)) ->
  oo_solver o = Some "CVODE" -> cvode_solves cvode (rates pn (snd s) b ds) eps ->
  ode_solve odeint cvode pn ps (snd s) b ds o d = (d', Ok (ts, rows)) ->
  exists sol, starts_right acts (map fst ode) 0%R sol /\ obeys_all (composed_says acts vs) t (map fst ode) 0%R ts sol /\
    recorded_as d' t (oo_names o) (map fst ode) ts sol eps.
Proof.
  intros R O D P Pl A. exact (cvode_run_stated (composed_says acts vs) acts s b t pn ps tn compile ds ode odeint cvode eps o d d' ts rows R
    (block_composed _ _ _ _ R O D P Pl A)).
Qed.

Lemma dae_composed acts s b vs t pn ps dae :
  resolved acts s b -> all_ok start_session acts -> distinct_models acts -> forallb neat_act acts = true -> plain_origins acts ->
  accounts (acts ++ [AResolve]) = Some vs -> dictionaries acts ->
  Forall2 (residual_ode pn) (b_diff b) dae -> dae <> [] -> closed_dae b dae -> states_first (b_varlist b) dae ->
  (exists rest, b_eqs b = b_diff b ++ rest) -> (forall x u r, In (x, u, r) dae -> u = t) -> ~ In t (b_varlist b) -> forall ida o d d' ts rows eps,
  ida_solves ida (dae_function pn b) eps ->
  cleared d -> d_ind d = [t] -> d_dep d = b_varlist b -> NoDup (map (header (oo_names o)) (d_ind d ++ d_dep d)) ->
  dae_solve ida pn ps (snd s) b o d = (d', Ok (ts, rows)) ->
  exists times sol, dae_points o = Ok times /\ starts_right acts (dnames dae) (oo_initial o) sol /\
    dae_obeys_all (composed_says acts vs) t (b_varlist b) (dnames dae) (oo_initial o) times sol /\
    recorded_as d' t (oo_names o) (b_varlist b) times sol eps.
Proof. intros R O D P Pl A. exact (dae_run_stated acts s b t pn ps dae (composed_says acts vs) R (block_composed _ _ _ _ R O D P Pl A)). Qed.
