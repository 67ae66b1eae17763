(** C83: a simulation, from its options to its results. *)
From Verif Require Import Base BaseFacts Num UnitModel Sympy Node Build EquationModel ModelModel ProblemModel SpecUnits SpecExpr SpecModel SpecInc SpecCall SpecProblem
  ProblemFacts SessionFacts SpecLink SolverModel DomainModel SpecSolver SolverFacts SpecSymbols OdeFacts DaeFacts SpecWritten SpecExact SpecOwn SpecSession StudyFacts
  SpecSaid SaidFacts SpecInit InitFacts RunModel SpecRun RunFacts DaeRunFacts SimModel WholeModel SpecWhole WholeFacts Demo
  Properties07Problems Properties08Solvers Properties16Written Properties19Sessions Properties22Links Properties24Said Properties29Run Properties30Dae.
From Verif Require SpecSim.
From Coq Require Import Reals Lra.
Notation num := Verif.Num.num.

(** Full statement: when runSimulation ends, getResults gives what the program and the
    options ask for: values of which all that the program says is true, or tables of
    functions of which it is true, over the interval of the options.  Missing: as in
    C76, C79 and C80; floating-point numbers. *)

(** ** Algebraic problems *)
Theorem C83_algebraic_partial : forall acts s b lib arrays pn ps st doms sm st' doms' out r,
  resolved acts s b -> all_ok start_session acts -> distinct_models acts -> readable_program acts ->
  forallb tidy_act acts = true -> plain_origins acts -> known_statements acts -> honest (lib_roots lib) -> proper_answers (lib_roots lib) ->
  sm_problem sm = Some (snd s) -> whole_run lib arrays pn ps (pw_heap (fst s)) st doms sm true = (st', doms', Ok out) ->
  whole_results doms' sm out RDict = Ok (WByName r) ->
  List.length (b_eqs b) = (List.length (b_varlist b) + unspecified_pars (pw_heap (fst s)) (b_pars b))%nat /\ NoDup (dkeys r) /\
  forall x, program_says acts x -> asks x (bind_env r).
Proof. exact whole_answer. Qed.
Print Assumptions C83_algebraic_partial.

(** Without options a problem with as many equations as unknowns is given to the root
    finder, all unknowns starting at 1. *)
Theorem C83_default : forall acts s b lib arrays pn ps st doms sm0 sm, resolved acts s b -> sm_problem sm0 = Some (snd s) ->
  set_configurations sm0 (mkConf [] VNone None) = Ok sm -> problem_type b = Some PTLinear \/ problem_type b = Some PTNonlinear ->
  List.length (b_eqs b) = (List.length (b_varlist b) + unspecified_pars (pw_heap (fst s)) (b_pars b))%nat ->
  whole_run lib arrays pn ps (pw_heap (fst s)) st doms sm true =
    (st, doms, let '(success, x) := root_find (lib_roots lib) (b_varlist b) (b_exprs b) (repeat 1%R (List.length (b_varlist b))) in
               if success then Ok (WDict (by_name (b_varlist b) x)) else Raise ENumerical).
Proof. exact whole_default. Qed.
Print Assumptions C83_default.

(** ** Differential problems *)
Theorem C83_ode_partial : forall acts s b t pn ps ode,
  resolved acts s b -> all_ok start_session acts -> distinct_models acts -> readable_program acts ->
  forallb tidy_act acts = true -> plain_origins acts -> known_statements acts -> dictionaries acts ->
  prints_numbers pn -> one_word t = true -> str_contains "_" t = true -> times_by acts [t] ->
  Forall2 (explicit t) (b_diff b) ode -> closed_system t ode -> b_eqs b = b_diff b -> ode_unknowns t ode (b_varlist b) -> ode <> [] ->
  forall lib arrays h st doms sm sanity st' doms' out o d names eps,
  sm_problem sm = Some (snd s) -> SpecSim.option_of sm "domain" = Some (VObj o) -> nth_error doms o = Some d ->
  cleared d -> d_ind d = [t] -> d_dep d = map fst ode -> headed sm names -> NoDup (map (header names) (d_ind d ++ d_dep d)) ->
  uses sm "differential_solver" "ODEINT" ->
  (forall tn k ds, dsolver_init b (pr_init (snd s)) tn k = Ok ds -> odeint_solves (lib_odeint lib) (rates pn (snd s) b ds) eps) ->
  whole_run lib arrays pn ps h st doms sm sanity = (st', doms', Ok out) ->
  exists ts rows d', out = WRun ts rows /\ only_domain o d' doms doms' /\
    (forall t0 e n, timed sm t0 e n -> SpecSim.option_of sm "times_for_solution" = Some VNone -> even_points ts t0 e n) /\
    (forall k l, SpecSim.option_of sm "times_for_solution" = Some (VObj k) -> arrays k = Some l -> ts = l) /\
    (forall x, In x (map fst ode) <-> rated acts t x) /\
    exists sol, starts_right acts (map fst ode) (hd 0%R ts) sol /\ obeys acts t (map fst ode) (hd 0%R ts) ts sol /\
      recorded_as d' t names (map fst ode) ts sol eps.
Proof. exact ode_simulated. Qed.
Print Assumptions C83_ode_partial.

(** With CVODE the initial values are those of time 0 (C79_cvode_start_refuted). *)
Theorem C83_cvode_partial : forall acts s b t pn ps ode,
  resolved acts s b -> all_ok start_session acts -> distinct_models acts -> readable_program acts ->
  forallb tidy_act acts = true -> plain_origins acts -> known_statements acts -> dictionaries acts ->
  prints_numbers pn -> one_word t = true -> str_contains "_" t = true -> times_by acts [t] ->
  Forall2 (explicit t) (b_diff b) ode -> closed_system t ode -> b_eqs b = b_diff b -> ode_unknowns t ode (b_varlist b) -> ode <> [] ->
  forall lib arrays h st doms sm sanity st' doms' out o d names eps,
  sm_problem sm = Some (snd s) -> SpecSim.option_of sm "domain" = Some (VObj o) -> nth_error doms o = Some d ->
  cleared d -> d_ind d = [t] -> d_dep d = map fst ode -> headed sm names -> NoDup (map (header names) (d_ind d ++ d_dep d)) ->
  SpecSim.option_of sm "differential_solver" = Some (VStr "CVODE") ->
  (forall tn k ds, dsolver_init b (pr_init (snd s)) tn k = Ok ds -> cvode_solves (lib_cvode lib) (rates pn (snd s) b ds) eps) ->
  whole_run lib arrays pn ps h st doms sm sanity = (st', doms', Ok out) ->
  exists ts rows d', out = WRun ts rows /\ only_domain o d' doms doms' /\
    exists sol, starts_right acts (map fst ode) 0%R sol /\ obeys acts t (map fst ode) 0%R ts sol /\
      recorded_as d' t names (map fst ode) ts sol eps.
Proof. exact cvode_simulated. Qed.
Print Assumptions C83_cvode_partial.

Theorem C83_dae_partial : forall acts s b t pn ps dae,
  resolved acts s b -> all_ok start_session acts -> distinct_models acts -> readable_program acts ->
  forallb tidy_act acts = true -> plain_origins acts -> known_statements acts -> dictionaries acts ->
  Forall2 (residual_ode pn) (b_diff b) dae -> dae <> [] -> closed_dae b dae -> states_first (b_varlist b) dae ->
  (exists rest, b_eqs b = b_diff b ++ rest) -> (forall x u r, In (x, u, r) dae -> u = t) -> ~ In t (b_varlist b) ->
  some_of CLinear (b_eqs b) \/ some_of CNonlinear (b_eqs b) ->
  forall lib arrays h st doms sm sanity st' doms' out o d names eps,
  sm_problem sm = Some (snd s) -> SpecSim.option_of sm "domain" = Some (VObj o) -> nth_error doms o = Some d ->
  cleared d -> d_ind d = [t] -> d_dep d = b_varlist b -> headed sm names -> NoDup (map (header names) (d_ind d ++ d_dep d)) ->
  ida_solves (lib_ida lib) (dae_function pn b) eps ->
  whole_run lib arrays pn ps h st doms sm sanity = (st', doms', Ok out) ->
  exists ts rows d' times, out = WRun ts rows /\ only_domain o d' doms doms' /\
    forall t0 e n, timed sm t0 e n -> even_points times t0 e n /\
    exists sol, starts_right acts (dnames dae) t0 sol /\ dae_obeys acts t (b_varlist b) (dnames dae) t0 times sol /\
      recorded_as d' t names (b_varlist b) times sol eps.
Proof. exact dae_simulated. Qed.
Print Assumptions C83_dae_partial.

(** A differential-algebraic problem cannot be run with the option [is_dynamic] when
    the time variable is left to the problem. *)
Theorem C83_dae_dynamic : forall lib arrays pn ps h st doms sm0 sm sanity a p b,
  set_configurations sm0 a = Ok sm -> ca_file a = None -> ca_dict a = VNone ->
  SpecSim.written (ca_kwargs a) "is_dynamic" (VBool true) -> SpecSim.written (ca_kwargs a) "time_variable_name" VNone ->
  sm_problem sm0 = Some p -> pr_block p = Some b -> problem_type b = Some PTDae ->
  exists x, snd (whole_run lib arrays pn ps h st doms sm sanity) = Raise x.
Proof. exact dae_dynamic. Qed.
Print Assumptions C83_dae_dynamic.

(** ** Simulations *)
Definition configured (p : problem) (a : confargs) : sim :=
  match set_configurations (with_problem new_sim p) a with Ok s => s | Raise _ => new_sim end.
Definition test_library : library := mkLib checker fall_odeint fall_cvode growth_ida.
Definition no_arrays (i : nat) : option (list R) := None.

Lemma run_as lib arrays pn ps h st st' doms sm sanity p b c sv0 sv doms' r : sm_problem sm = Some p -> pr_block p = Some b -> sm_conf sm = Some c ->
  opt c "problem_type" = Ok VNone -> opt c "number_parameters_to_optimize" = Ok (VNum (PInt 0)) -> choose_solver None b = Ok sv0 ->
  make_solver st p b c = (st', Ok sv) -> run_solver lib arrays pn ps h p b c sv sanity doms = (doms', r) ->
  whole_run lib arrays pn ps h st doms sm sanity = (st', doms', r).
Proof. intros A B C D E F G H. unfold whole_run, prepare. rewrite C, D, E, A, B. cbn [rbind]. rewrite F. cbn [rbind]. rewrite G, H. reflexivity. Qed.

(** The network of C76, guessed right. *)
Definition network_conf : confargs :=
  mkConf [("initial_guess", VDict [("w_R", VNum (PInt 3)); ("q_S", VNum (PInt 3)); ("u_R", VNum (PInt 1)); ("p_R", VNum (PInt 6)); ("z_R", VNum (PInt 3))])] VNone None.
Lemma network_runs p b h : pr_block p = Some b -> choose_solver None b = Ok LASolver -> create_solver b = Ok LASolver -> dof_test print_one h p = Ok true ->
  b_varlist b = ["q_S"; "p_R"; "z_R"; "w_R"; "u_R"] -> root_of (b_varlist b) (b_exprs b) [3; 6; 3; 3; 1]%R ->
  whole_run test_library no_arrays print_one no_print h store0 [] (configured p network_conf) true =
    (store0, [], Ok (WDict [("q_S", 3); ("p_R", 6); ("z_R", 3); ("w_R", 3); ("u_R", 1)]%R)).
Proof.
  intros Hb T K D V Ro. eapply run_as; [reflexivity|exact Hb|reflexivity|reflexivity|reflexivity|exact T| |].
  - unfold make_solver. rewrite K. reflexivity.
  - unfold run_solver. rewrite D. cbn [rbind]. unfold la_run.
    match goal with |- context [opt ?c "linear_solver"] => change (opt c "linear_solver") with (Ok (VStr "symbolicsys")) end.
    cbn [rbind name_option]. change (la_lookup (Some "symbolicsys")) with (Some MSymbolicSys).
    match goal with |- context [opt ?c "initial_guess"] => change (opt c "initial_guess") with (Ok (VDict [("w_R", VNum (PInt 3)); ("q_S", VNum (PInt 3)); ("u_R", VNum (PInt 1)); ("p_R", VNum (PInt 6)); ("z_R", VNum (PInt 3))])) end.
    cbn [rbind].
    match goal with |- context [guess_option ?v] => change (guess_option v) with (Ok [("w_R", 3); ("q_S", 3); ("u_R", 1); ("p_R", 6); ("z_R", 3)]%R) end.
    cbn [rbind test_library lib_roots]. unfold la_solve. change (la_lookup (Some "symbolicsys")) with (Some MSymbolicSys). unfold symbolicsys. rewrite V in *.
    match goal with |- context [first_guess ?u ?a ?b] => change (first_guess u a b) with (Ok [3; 6; 3; 3; 1]%R) end. cbn [rbind]. apply checker_spec in Ro.
    match goal with |- context [root_find checker ?v ?e ?g] => change (root_find checker v e g) with (fst (root_find checker v e g), g) end.
    rewrite Ro. reflexivity.
Qed.
Lemma checker_proper : proper_answers checker.
Proof. intros es vars sol []. Qed.

Example C83_algebraic_case : resolved network (final network) (the_block network) /\ all_ok start_session network /\ distinct_models network /\
  readable_program network /\ forallb tidy_act network = true /\ plain_origins network /\ known_statements network /\ honest checker /\ proper_answers checker /\
  whole_run test_library no_arrays print_one no_print (pw_heap (fst (final network))) store0 [] (configured (snd (final network)) network_conf) true =
    (store0, [], Ok (WDict [("q_S", 3); ("p_R", 6); ("z_R", 3); ("w_R", 3); ("u_R", 1)]%R)) /\
  whole_results [] (configured (snd (final network)) network_conf) (WDict [("q_S", 3); ("p_R", 6); ("z_R", 3); ("w_R", 3); ("u_R", 1)]%R) RDict =
    Ok (WByName [("p_R", 6); ("q_S", 3); ("u_R", 1); ("w_R", 3); ("z_R", 3)]%R).
Proof.
  destruct C76_case as (A & B & C & D & E & F & G & _ & _ & _ & X). repeat (split; [assumption|]). split; [exact checker_honest|]. split; [exact checker_proper|].
  assert (V : b_varlist (the_block network) = ["q_S"; "p_R"; "z_R"; "w_R"; "u_R"]) by (vm_compute; reflexivity). split; [|vm_compute; reflexivity].
  apply network_runs with (b := the_block network); [vm_compute; reflexivity..|exact V|]. rewrite V, X. split; [reflexivity|].
  intros e [<-|[<-|[<-|[<-|[<-|[]]]]]]; cbn; f_equal; lra.
Qed.

(** Two unknowns that are 1. *)
Definition ones : list act :=
  [ANew "M" (mkDecls [] [] [CVar "a" "a" u_m true "input" (PInt 0); CVar "b" "b" u_m true "input" (PInt 0)]
     [CEq "e" "e" (UResid (UNumR BSub (UQty "a") (PInt 1))) true; CEq "f" "f" (UResid (UBin BSub (UQty "a") (UQty "b"))) true]);
   ACall 0%nat; AAdd 0%nat].
Example C83_default_case : resolved ones (final ones) (the_block ones) /\ sm_problem (with_problem new_sim (snd (final ones))) = Some (snd (final ones)) /\
  (exists sm, set_configurations (with_problem new_sim (snd (final ones))) (mkConf [] VNone None) = Ok sm) /\
  problem_type (the_block ones) = Some PTLinear /\
  List.length (b_eqs (the_block ones)) = (List.length (b_varlist (the_block ones)) + unspecified_pars (pw_heap (fst (final ones))) (b_pars (the_block ones)))%nat /\
  List.length (b_eqs (the_block ones)) = 2%nat /\
  root_find checker (b_varlist (the_block ones)) (b_exprs (the_block ones)) (repeat 1%R (List.length (b_varlist (the_block ones)))) = (true, [1; 1]%R).
Proof.
  split; [apply run_resolved; vm_compute; reflexivity|]. split; [reflexivity|]. split; [eexists; reflexivity|]. split; [vm_compute; reflexivity|].
  split; [vm_compute; reflexivity|]. split; [vm_compute; reflexivity|].
  assert (V : b_varlist (the_block ones) = ["a_M"; "b_M"]) by (vm_compute; reflexivity). rewrite V.
  assert (X : b_exprs (the_block ones) = [SSub (SSym "a_M") (SNum (PInt 1)); SSub (SSym "a_M") (SSym "b_M")]) by (vm_compute; reflexivity). rewrite X.
  assert (Ro : root_of ["a_M"; "b_M"] [SSub (SSym "a_M") (SNum (PInt 1)); SSub (SSym "a_M") (SSym "b_M")] [1; 1]%R).
  { split; [reflexivity|]. intros e [<-|[<-|[]]]; cbn; f_equal; lra. }
  apply checker_spec in Ro. cbn [List.length repeat].
  match goal with |- root_find checker ?v ?e ?g = _ => change (root_find checker v e g) with (fst (root_find checker v e g), g) end. rewrite Ro. reflexivity.
Qed.

(** ** The falling body of C79 *)
Definition fall_conf (solver : string) : confargs :=
  mkConf [("domain", VObj 0); ("differential_solver", VStr solver); ("is_dynamic", VBool true); ("end_time", VNum (PInt 2)); ("number_of_time_steps", VNum (PInt 2));
          ("variable_name_map", VDict [("y_M", VStr "height")])] VNone None.
(** The default list of argument names gets the time variable. *)
Definition fall_store : store := [[VList [VStr "t_M"]]; []].
Definition fall_with (solver : string) : ode_options := mkOO (Some solver) 0%R (Some 2%R) (Some 2%Z) None [("y_M", "height")].
Lemma fall_runs k p b h ds d d' ts rows : pr_block p = Some b -> choose_solver None b = Ok DSolver -> create_solver b = Ok DSolver -> dof_test print_one h p = Ok true ->
  pr_time p = Some ["t_M"] -> dmem "t_M" (pr_init p) = true -> dsolver_init b (pr_init p) (TNames ["t_M"]) true = Ok ds ->
  ode_solve fall_odeint fall_cvode print_one no_print p b ds (fall_with k) d = (d', Ok (ts, rows)) ->
  whole_run test_library no_arrays print_one no_print h store0 [d] (configured p (fall_conf k)) true = (fall_store, [d'], Ok (WRun ts rows)).
Proof.
  intros Hb T K D Tm Hm Hd Hs.
  assert (C : sm_conf (configured p (fall_conf k)) = Some (dset "time_variable_name" (VList [VStr "t_M"]) (kw_dict (fall_conf k)))).
  { unfold configured, set_configurations. cbn -[time_value]. unfold time_value. rewrite Tm. reflexivity. }
  eapply run_as; [|exact Hb|exact C|reflexivity|reflexivity|exact T| |]; [reflexivity| |].
  - unfold make_solver. rewrite K. cbn -[dmem pr_init]. cbn -[pr_init] in Hm. rewrite Hm. reflexivity.
  - unfold run_solver. rewrite D.
    match goal with |- context [opt ?c "time_variable_name"] => change (opt c "time_variable_name") with (Ok (VList [VStr "t_M"])) end. cbn [rbind tname_of forallb andb flat_map app].
    match goal with |- context [opt ?c "compilation_mechanism"] => change (opt c "compilation_mechanism") with (Ok (VStr "numpy")) end. cbn [rbind].
    match goal with |- context [opt ?c "compile_equations"] => change (opt c "compile_equations") with (Ok (VBool true)) end. cbn [rbind holds_true]. rewrite Hd. cbn [rbind].
    match goal with |- context [run_options ?a ?c ?n ?w] => change (run_options a c n w) with (Ok (fall_with k)) end. cbn [rbind].
    match goal with |- context [opt ?c "domain"] => change (opt c "domain") with (Ok (VObj 0)) end. cbn [rbind domain_option nth_error]. cbn [test_library lib_odeint lib_cvode]. rewrite Hs. reflexivity.
Qed.
Lemma fall_all_rates tn k ds : dsolver_init (the_block fall) (pr_init (snd (final fall))) tn k = Ok ds -> fall_system (rates print_one (snd (final fall)) (the_block fall) ds).
Proof.
  intros Hd x y tau. set (en := mkEnv (fun z => if String.eqb z "t_M" then tau else nth (if String.eqb z "x_M" then 0 else 1) [x; y] 0%R) (fun _ _ => 0%R)).
  unfold rates.
  rewrite (ode_rhs "t_M" print_one (snd (final fall)) (the_block fall) fall_init tn k ds fall_ode [x; y] tau en);
    [reflexivity|exact print_one_ok|reflexivity|reflexivity|vm_compute; reflexivity|exact fall_explicit|exact fall_closed|
     intros _; split; [exact fall_one_kind|exact fall_unknowns]|discriminate|exact Hd|].
  split; [reflexivity|]. split; [|reflexivity]. intros [|[|j]] z r H; cbn in H; try (injection H as <- <-; reflexivity). destruct j; discriminate.
Qed.
Definition fall_times : list R := [0 + 0 * ((2 - 0) / 2); 0 + 1 * ((2 - 0) / 2); 0 + (1 + 1) * ((2 - 0) / 2)]%R.
Notation fall_simulation := (configured (snd (final fall)) (fall_conf "ODEINT")).
Lemma fall_option sv p k v : dget k (kw_dict (fall_conf sv)) = Some v -> k <> "time_variable_name" -> SpecSim.option_of (configured p (fall_conf sv)) k = Some v.
Proof.
  intros H N. unfold SpecSim.option_of, configured, set_configurations. cbn -[dget kw_dict dset time_value]. change (dget k (dset "time_variable_name" (time_value p) (kw_dict (fall_conf sv))) = Some v).
  rewrite dget_dset_neq; auto.
Qed.

Example C83_ode_case : resolved fall (final fall) (the_block fall) /\ all_ok start_session fall /\ distinct_models fall /\ readable_program fall /\
  forallb tidy_act fall = true /\ plain_origins fall /\ known_statements fall /\ dictionaries fall /\ times_by fall ["t_M"] /\
  Forall2 (explicit "t_M") (b_diff (the_block fall)) fall_ode /\ closed_system "t_M" fall_ode /\ b_eqs (the_block fall) = b_diff (the_block fall) /\
  ode_unknowns "t_M" fall_ode (b_varlist (the_block fall)) /\
  sm_problem fall_simulation = Some (snd (final fall)) /\ SpecSim.option_of fall_simulation "domain" = Some (VObj 0) /\
  cleared fall_domain /\ d_ind fall_domain = ["t_M"] /\ d_dep fall_domain = map fst fall_ode /\ headed fall_simulation [("y_M", "height")] /\
  NoDup (map (header [("y_M", "height")]) (d_ind fall_domain ++ d_dep fall_domain)) /\ uses fall_simulation "differential_solver" "ODEINT" /\
  (forall tn k ds, dsolver_init (the_block fall) (pr_init (snd (final fall))) tn k = Ok ds ->
     odeint_solves fall_odeint (rates print_one (snd (final fall)) (the_block fall) ds) 0%R) /\
  timed fall_simulation 0%R 2%R 2 /\ SpecSim.option_of fall_simulation "times_for_solution" = Some VNone /\
  exists ts rows d col, whole_run test_library no_arrays print_one no_print (pw_heap (fst (final fall))) store0 [fall_domain] fall_simulation true =
      (fall_store, [d], Ok (WRun ts rows)) /\
    column d "t_M" (LName "t_M") = Some ts /\ ts = [0; 1; 2]%R /\
    column d "t_M" (LName "height") = Some col /\ col = [5; 7 + 1 / 2; 13]%R.
Proof.
  destruct fall_program as (A & B & C & D & E & F & G & H & I).
  repeat (split; [assumption|]). split; [exact fall_explicit|]. split; [exact fall_closed|]. split; [exact fall_one_kind|]. split; [exact fall_unknowns|].
  split; [reflexivity|]. split; [apply fall_option; [reflexivity|discriminate]|]. split; [exact fall_cleared|]. split; [reflexivity|]. split; [reflexivity|].
  split; [apply fall_option; [reflexivity|discriminate]|].
  split; [repeat constructor; cbn; intuition discriminate|]. split; [right; apply fall_option; [reflexivity|discriminate]|].
  split; [intros tn k ds Hd; exact (fall_odeint_solves _ (fall_all_rates _ _ _ Hd))|].
  split. { split; [eexists; split; [apply fall_option; [reflexivity|discriminate]|reflexivity]|].
    split; [eexists; split; [apply fall_option; [reflexivity|discriminate]|reflexivity]|]. split; [apply fall_option; [reflexivity|discriminate]|reflexivity]. }
  split; [apply fall_option; [reflexivity|discriminate]|].
  assert (T : time_points (fall_with "ODEINT") = Ok fall_times) by reflexivity. assert (O := fall_by_odeint (fall_with "ODEINT") fall_times eq_refl T).
  eexists _, _, _, _. split; [refine (fall_runs _ _ (the_block fall) _ fall_solver fall_domain _ _ _ _ _ _ _ _ _ fall_made O); vm_compute; reflexivity|].
  split; [reflexivity|]. split; [unfold fall_times; repeat f_equal; field|]. split; [reflexivity|]. cbn. repeat f_equal; field.
Qed.

Notation fall_by_adams := (configured (snd (final fall)) (fall_conf "CVODE")).
Example C83_cvode_case : sm_problem fall_by_adams = Some (snd (final fall)) /\ SpecSim.option_of fall_by_adams "domain" = Some (VObj 0) /\
  headed fall_by_adams [("y_M", "height")] /\ SpecSim.option_of fall_by_adams "differential_solver" = Some (VStr "CVODE") /\
  (forall tn k ds, dsolver_init (the_block fall) (pr_init (snd (final fall))) tn k = Ok ds ->
     cvode_solves fall_cvode (rates print_one (snd (final fall)) (the_block fall) ds) 0%R) /\
  exists ts rows d col, whole_run test_library no_arrays print_one no_print (pw_heap (fst (final fall))) store0 [fall_domain] fall_by_adams true =
      (fall_store, [d], Ok (WRun ts rows)) /\
    column d "t_M" (LName "height") = Some col /\ col = [5; 7 + 1 / 2; 13]%R.
Proof.
  split; [reflexivity|]. split; [apply fall_option; [reflexivity|discriminate]|]. split; [apply fall_option; [reflexivity|discriminate]|].
  split; [apply fall_option; [reflexivity|discriminate]|].
  split; [intros tn k ds Hd; exact (fall_cvode_solves _ (fall_all_rates _ _ _ Hd))|].
  assert (T : time_points (fall_with "CVODE") = Ok fall_times) by reflexivity. assert (O := fall_by_cvode (fall_with "CVODE") fall_times 2%R eq_refl eq_refl T).
  eexists _, _, _, _. split; [refine (fall_runs _ _ (the_block fall) _ fall_solver fall_domain _ _ _ _ _ _ _ _ _ fall_made O); vm_compute; reflexivity|].
  split; [reflexivity|]. cbn. repeat f_equal; field.
Qed.

(** ** The growth of C80 *)
Definition growth_conf : confargs :=
  mkConf [("domain", VObj 0); ("time_variable_name", VStr "t_M"); ("initial_time", VNum (PInt 1)); ("end_time", VNum (PInt 3));
          ("number_of_time_steps", VNum (PInt 2)); ("variable_name_map", VDict [("z_M", VStr "rate")])] VNone None.
Definition growth_store : store := [[VStr "t_M"]; []].
Definition growth_with : ode_options := mkOO (Some "IDA") 1%R (Some 3%R) (Some 2%Z) None [("z_M", "rate")].
Lemma growth_runs p b h d d' ts rows : pr_block p = Some b -> choose_solver None b = Ok DaeSolver -> create_solver b = Ok DaeSolver -> dof_test print_one h p = Ok true ->
  daesolver_init (pr_init p) (TName "t_M") = Ok tt ->
  dae_solve growth_ida print_one no_print p b growth_with d = (d', Ok (ts, rows)) ->
  whole_run test_library no_arrays print_one no_print h store0 [d] (configured p growth_conf) true = (growth_store, [d'], Ok (WRun ts rows)).
Proof.
  intros Hb T K D Hm Hs.
  assert (C : sm_conf (configured p growth_conf) = Some (dset "time_variable_name" (VStr "t_M") (kw_dict growth_conf))) by reflexivity.
  eapply run_as; [|exact Hb|exact C|reflexivity|reflexivity|exact T| |]; [reflexivity| |].
  - unfold make_solver. rewrite K. cbn -[daesolver_init pr_init]. rewrite Hm. reflexivity.
  - unfold run_solver. rewrite D.
    match goal with |- context [opt ?c "compilation_mechanism"] => change (opt c "compilation_mechanism") with (Ok (VStr "numpy")) end. cbn [rbind].
    match goal with |- context [run_options ?a ?c ?n ?w] => change (run_options a c n w) with (Ok growth_with) end. cbn [rbind].
    match goal with |- context [opt ?c "domain"] => change (opt c "domain") with (Ok (VObj 0)) end. cbn [rbind domain_option nth_error]. cbn [test_library lib_ida]. rewrite Hs. reflexivity.
Qed.
Notation growth_simulation := (configured (snd (final growth)) growth_conf).

Example C83_dae_case : growth_like growth /\ Forall2 (residual_ode print_one) (b_diff (the_block growth)) the_dae /\ closed_dae (the_block growth) the_dae /\
  states_first (b_varlist (the_block growth)) the_dae /\ (exists rest, b_eqs (the_block growth) = b_diff (the_block growth) ++ rest) /\
  (forall x u r, In (x, u, r) the_dae -> u = "t_M") /\ ~ In "t_M" (b_varlist (the_block growth)) /\
  existsb (has_type CLinear) (b_eqs (the_block growth)) || existsb (has_type CNonlinear) (b_eqs (the_block growth)) = true /\
  sm_problem growth_simulation = Some (snd (final growth)) /\ SpecSim.option_of growth_simulation "domain" = Some (VObj 0) /\
  cleared growth_domain /\ d_ind growth_domain = ["t_M"] /\ d_dep growth_domain = b_varlist (the_block growth) /\ headed growth_simulation [("z_M", "rate")] /\
  NoDup (map (header [("z_M", "rate")]) (d_ind growth_domain ++ d_dep growth_domain)) /\
  ida_solves growth_ida (dae_function print_one (the_block growth)) 0%R /\ timed growth_simulation 1%R 3%R 2 /\
  exists d ts rows col, whole_run test_library no_arrays print_one no_print (pw_heap (fst (final growth))) store0 [growth_domain] growth_simulation true =
      (growth_store, [d], Ok (WRun ts rows)) /\
    column d "t_M" (LName "rate") = Some col /\ col = [3; 3 * exp 3; 3 * exp 6]%R.
Proof.
  destruct growth_parts as [A B]. split; [exact growth_program|]. split; [exact A|]. split; [exact B|].
  split; [rewrite growth_names; exists ["z_M"]; reflexivity|].
  split. { exists (skipn 1 (b_eqs (the_block growth))). vm_compute. reflexivity. }
  split; [intros x u r [H|[]]; now injection H|]. split; [rewrite growth_names; cbn; intuition discriminate|]. split; [vm_compute; reflexivity|].
  split; [reflexivity|]. split; [reflexivity|]. split; [exact growth_cleared|]. split; [reflexivity|]. split; [rewrite growth_names; reflexivity|].
  split; [reflexivity|]. split; [repeat constructor; cbn; intuition discriminate|]. split; [apply growth_solves, growth_is_one|].
  split. { split; [eexists; split; reflexivity|]. split; [eexists; split; reflexivity|]. split; reflexivity. }
  assert (O : dae_solve growth_ida print_one no_print (snd (final growth)) (the_block growth) growth_with growth_domain =
    (growth_table [("z_M", "rate")] growth_points (map (growth_curve 1 1) growth_points), Ok (growth_points, map (growth_curve 1 1) growth_points))).
  { apply growth_by_ida; [now right|now exists 3%R|reflexivity|vm_compute; reflexivity| |].
    - rewrite growth_function. eexists. reflexivity.
    - assert (E : diff_flags (the_block growth) = [true; false]) by (vm_compute; reflexivity). rewrite E. reflexivity. }
  eexists _, _, _, _. split; [refine (growth_runs _ (the_block growth) _ growth_domain _ _ _ _ _ _ _ _ O); vm_compute; reflexivity|].
  split; [reflexivity|]. unfold growth_points, growth_curve. cbn [map nth].
  assert (E : forall a b, a = b -> (3 * 1 * exp (3 * (a - 1)) = 3 * exp (3 * (b - 1)))%R) by (intros a b ->; ring).
  f_equal; [|f_equal; [|f_equal]]; unfold growth_points; cbn.
  - rewrite (E _ 1%R) by field. rewrite Rminus_diag_eq, Rmult_0_r, exp_0 by reflexivity. ring.
  - rewrite (E _ 2%R) by field. do 2 f_equal. ring.
  - rewrite (E _ 3%R) by field. do 2 f_equal. ring.
Qed.

(** The same with the time variable of the problem. *)
Definition dynamic_conf : confargs :=
  mkConf [("domain", VObj 0); ("is_dynamic", VBool true); ("end_time", VNum (PInt 3))] VNone None.
Example C83_dae_dynamic_case : set_configurations (with_problem new_sim (snd (final growth))) dynamic_conf = Ok (configured (snd (final growth)) dynamic_conf) /\
  SpecSim.written (ca_kwargs dynamic_conf) "is_dynamic" (VBool true) /\ SpecSim.written (ca_kwargs dynamic_conf) "time_variable_name" VNone /\
  pr_time (snd (final growth)) = Some ["t_M"] /\ pr_block (snd (final growth)) = Some (the_block growth) /\ problem_type (the_block growth) = Some PTDae.
Proof.
  split; [reflexivity|]. split; [apply SpecSim.wr_given; reflexivity|]. split; [apply SpecSim.wr_default; reflexivity|]. split; [vm_compute; reflexivity|].
  split; [exact (proj2 (proj1 growth_program))|vm_compute; reflexivity].
Qed.
