(** C83, C84: simulations, from their options to their results, of differential problems
    set up by any program. *)
From Verif Require Import Base BaseFacts Num UnitModel Sympy Node Build EquationModel ModelModel ProblemModel SpecUnits SpecExpr SpecModel SpecInc SpecCall SpecProblem
  ProblemFacts SessionFacts SpecLink SolverModel DomainModel SpecSolver SolverFacts SpecSymbols OdeFacts DaeFacts SpecWritten SpecExact SpecOwn SpecSession StudyFacts
  SpecSaid SaidFacts SpecCompose ComposeFacts SpecInit InitFacts RunModel SpecRun RunFacts SimModel WholeModel SpecWhole WholeFacts SpecUnique TameFacts UniqueFacts
  SpecSimulated SimulatedFacts Demo
  Properties07Problems Properties08Solvers Properties16Written Properties19Sessions Properties22Links Properties24Said Properties29Run Properties30Dae Properties32Compose
  Properties33Whole Properties34Unique.
From Verif Require SpecSim.
From Coq Require Import Reals Lra.
Notation num := Verif.Num.num.

(** Simulations of problems put together from models which incorporate others write to
    their domain, and to no other, functions of which all equations are true.  Missing as
    in C79 and C82. *)
Theorem C83_composed_partial : forall acts s b P t pn ode lib arrays ps h st doms sm sanity st' doms' out o names eps t0,
  ode_problem acts s b P t pn ode -> simulates s b t pn ode lib doms sm o names eps t0 ->
  whole_run lib arrays pn ps h st doms sm sanity = (st', doms', Ok out) ->
  exists ts rows d', out = WRun ts rows /\ only_domain o d' doms doms' /\ (forall x, In x (map fst ode) <-> rated_in P t x) /\
    exists sol, starts_right acts (map fst ode) (t0 ts) sol /\ obeys_all P t (map fst ode) (t0 ts) ts sol /\ recorded_as d' t names (map fst ode) ts sol eps.
Proof. exact simulated_table. Qed.
Print Assumptions C83_composed_partial.

(** Two simulations of two programs with the same rates and initial values leave tables
    which agree, whatever the options, libraries, domains and states of the sessions. *)
Theorem C84_simulations_partial : forall acts s b P t pn ode lib arrays ps h st doms sm sanity st1 doms1 ts rows o names eps t0
    acts' s' b' P' pn' ode' lib' arrays' ps' h' st' doms' sm' sanity' st1' doms1' ts' rows' o' names' eps' t0',
  ode_problem acts s b P t pn ode -> ode_problem acts' s' b' P' t pn' ode' ->
  (forall x, In x (map fst ode) <-> In x (map fst ode')) -> same_rates P P' t (map fst ode) -> same_starts acts acts' (map fst ode) ->
  simulates s b t pn ode lib doms sm o names eps t0 -> simulates s' b' t pn' ode' lib' doms' sm' o' names' eps' t0' ->
  whole_run lib arrays pn ps h st doms sm sanity = (st1, doms1, Ok (WRun ts rows)) ->
  whole_run lib' arrays' pn' ps' h' st' doms' sm' sanity' = (st1', doms1', Ok (WRun ts' rows')) ->
  t0 ts = t0' ts' ->
  exists d d', nth_error doms1 o = Some d /\ nth_error doms1' o' = Some d' /\ agree_within (eps + eps') t (map fst ode) d names d' names'.
Proof. exact simulations_agree. Qed.
Print Assumptions C84_simulations_partial.

(** The same for one problem simulated twice. *)
Theorem C84_again_partial : forall acts s b P t pn ode lib arrays ps h st doms sm sanity st1 doms1 ts rows o names eps t0
    lib' arrays' ps' h' st' doms' sm' sanity' st1' doms1' ts' rows' o' names' eps' t0',
  ode_problem acts s b P t pn ode -> (forall x w g, P w -> rate w x t g -> steady t (map fst ode) g) ->
  simulates s b t pn ode lib doms sm o names eps t0 -> simulates s b t pn ode lib' doms' sm' o' names' eps' t0' ->
  whole_run lib arrays pn ps h st doms sm sanity = (st1, doms1, Ok (WRun ts rows)) ->
  whole_run lib' arrays' pn ps' h' st' doms' sm' sanity' = (st1', doms1', Ok (WRun ts' rows')) ->
  t0 ts = t0' ts' ->
  exists d d', nth_error doms1 o = Some d /\ nth_error doms1' o' = Some d' /\ agree_within (eps + eps') t (map fst ode) d names d' names'.
Proof. exact simulations_repeat. Qed.
Print Assumptions C84_again_partial.

(** ** Cases *)
(** The problem fall of C79 in one piece by CVODE, in two by ODEINT. *)
Lemma parts_all_rates tn k ds : dsolver_init (the_block fall_parts) (pr_init (snd (final fall_parts))) tn k = Ok ds ->
  fall_system (rates print_one (snd (final fall_parts)) (the_block fall_parts) ds).
Proof.
  intros Hd x y tau. set (en := mkEnv (fun z => if String.eqb z "t_M" then tau else nth (if String.eqb z "x_M" then 0 else 1) [x; y] 0%R) (fun _ _ => 0%R)).
  unfold rates.
  rewrite (ode_rhs "t_M" print_one (snd (final fall_parts)) (the_block fall_parts) parts_init tn k ds fall_ode [x; y] tau en);
    [reflexivity|exact print_one_ok|reflexivity|reflexivity|vm_compute; reflexivity|exact parts_explicit|exact fall_closed|
     intros _; split; [exact parts_one_kind|exact parts_unknowns]|discriminate|exact Hd|].
  split; [reflexivity|]. split; [|reflexivity]. intros [|[|j]] z r H; cbn in H; try (injection H as <- <-; reflexivity). destruct j; discriminate.
Qed.
Notation fall_by_lsoda := (configured (snd (final fall_parts)) (fall_conf "ODEINT")).
Lemma fall_simulates : simulates (final fall) (the_block fall) "t_M" print_one fall_ode test_library [fall_domain] fall_by_adams 0 [("y_M", "height")] 0%R (fun _ => 0%R).
Proof.
  constructor.
  - reflexivity.
  - apply fall_option; [reflexivity|discriminate].
  - exists fall_domain. split; [reflexivity|]. split; [exact fall_cleared|]. do 2 (split; [reflexivity|]). repeat constructor; cbn; intuition discriminate.
  - apply fall_option; [reflexivity|discriminate].
  - right. split; [apply fall_option; [reflexivity|discriminate]|]. split; [reflexivity|]. intros tn k ds Hd. exact (fall_cvode_solves _ (fall_all_rates _ _ _ Hd)).
Qed.
Lemma parts_simulates : simulates (final fall_parts) (the_block fall_parts) "t_M" print_one fall_ode test_library [fall_domain] fall_by_lsoda 0 [("y_M", "height")] 0%R (hd 0%R).
Proof.
  constructor.
  - reflexivity.
  - apply fall_option; [reflexivity|discriminate].
  - exists fall_domain. split; [reflexivity|]. split; [exact fall_cleared|]. do 2 (split; [reflexivity|]). repeat constructor; cbn; intuition discriminate.
  - apply fall_option; [reflexivity|discriminate].
  - left. split; [right; apply fall_option; [reflexivity|discriminate]|]. split; [reflexivity|]. intros tn k ds Hd. exact (fall_odeint_solves _ (parts_all_rates _ _ _ Hd)).
Qed.
(** Both run and start at time 0; the problem of each and what is the same of both is in
    [C84_programs_case] and [C84_runs_case]. *)
Example C84_simulations_case :
  simulates (final fall) (the_block fall) "t_M" print_one fall_ode test_library [fall_domain] fall_by_adams 0 [("y_M", "height")] 0%R (fun _ => 0%R) /\
  simulates (final fall_parts) (the_block fall_parts) "t_M" print_one fall_ode test_library [fall_domain] fall_by_lsoda 0 [("y_M", "height")] 0%R (hd 0%R) /\
  exists ts rows d ts' rows' d',
    whole_run test_library no_arrays print_one no_print (pw_heap (fst (final fall))) store0 [fall_domain] fall_by_adams true = (fall_store, [d], Ok (WRun ts rows)) /\
    whole_run test_library no_arrays print_one no_print (pw_heap (fst (final fall_parts))) store0 [fall_domain] fall_by_lsoda true =
      (fall_store, [d'], Ok (WRun ts' rows')) /\
    0%R = hd 0%R ts'.
Proof.
  split; [exact fall_simulates|]. split; [exact parts_simulates|].
  assert (T : time_points (fall_with "CVODE") = Ok fall_times) by reflexivity. assert (O := fall_by_cvode (fall_with "CVODE") fall_times 2%R eq_refl eq_refl T).
  assert (T' : time_points (fall_with "ODEINT") = Ok fall_times) by reflexivity. assert (O' := parts_run (fall_with "ODEINT") fall_times eq_refl T').
  eexists _, _, _, _, _, _. split; [refine (fall_runs _ _ (the_block fall) _ fall_solver fall_domain _ _ _ _ _ _ _ _ _ fall_made O); vm_compute; reflexivity|].
  split; [refine (fall_runs _ _ (the_block fall_parts) _ parts_solver fall_domain _ _ _ _ _ _ _ _ _ parts_made O'); vm_compute; reflexivity|]. cbn. lra.
Qed.
