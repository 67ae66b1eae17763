(** C99: what maps equations into equations maps results into results. *)
From Verif Require Import Base BaseFacts Num UnitModel Sympy Node Build EquationModel ModelModel ProblemModel SpecUnits SpecExpr SpecModel SpecInc SpecCall SpecProblem
  ProblemFacts SessionFacts SpecLink SolverModel DomainModel SpecSolver SolverFacts SpecSymbols OdeFacts DaeFacts SpecWritten SpecExact SpecOwn SpecSession StudyFacts
  SpecSaid SaidFacts SpecCompose ComposeFacts SpecInit InitFacts SimModel RunModel SpecRun RunFacts WholeModel SpecWhole WholeFacts SpecUnique TameFacts UniqueFacts SpecSimulated
  DaeRunFacts SpecUniqueDae UniqueDaeFacts DaeAgreeFacts SpecMatrix MatrixFacts SpecNearly NearlyFacts SpecShift ShiftFacts SpecConserve ConserveFacts SpecSymmetry SymmetryFacts
  Demo Properties07Problems Properties08Solvers Properties16Written Properties19Sessions Properties22Links Properties24Said Properties25Matrix Properties29Run Properties30Dae Properties32Compose Properties33Whole
  Properties34Unique Properties37Simulations Properties38Algebraic Properties41Nearly Properties45DependDae Properties59Shift Properties62Conserve.
From Verif Require SpecSim.
From Coq Require Import Reals Lra Lia.
Notation num := Verif.Num.num.

(** If scaling and shifting variables and time (other units, another zero, another start,
    another direction of time) makes of each state in which the first equations are true
    one in which the second are true, it makes of each solution of the first the solution
    of the second that starts at the image of its start. *)
Theorem C99_solutions : forall c P P' t names moves zs sol sol' t0 ts ts', carries c P P' t names moves -> ~ In t names ->
  (forall x, In x names <-> In x moves \/ In x zs) -> follow P' P' t moves zs -> same_dae_rates P' P' t moves zs ->
  dae_obeys_all P t names moves t0 ts sol -> dae_obeys_all P' t names moves (moment_image c t0) ts' sol' ->
  (forall x, In x moves -> sol' x (moment_image c t0) = image c x (sol x t0)) ->
  forall tau, during t0 ts tau -> during (moment_image c t0) ts' (moment_image c tau) -> forall x, In x names -> sol' x (moment_image c tau) = image c x (sol x tau).
Proof. exact solutions_carried. Qed.
Print Assumptions C99_solutions.

(** Full statement: if such a map carries the equations and the initial values of one
    program into those of another, it carries the results of its simulations into those of
    the other.  Missing: algebraic equations that do not give the variables one after the
    other, and what C80 and C82 miss. *)
Theorem C99_runs_partial : forall c acts s b P t pn ode acts' s' b' P' pn' ode' t0 ts d h eps ts' d' h' eps',
  ode_problem acts s b P t pn ode -> ode_problem acts' s' b' P' t pn' ode' -> (forall x, In x (map fst ode) <-> In x (map fst ode')) ->
  carries c P P' t (map fst ode) (map fst ode) -> same_rates P' P' t (map fst ode) -> starts_carried c acts acts' (map fst ode) ->
  recorded_run s b t pn ode t0 ts d h eps -> recorded_run s' b' t pn' ode' (moment_image c t0) ts' d' h' eps' ->
  carried_within c eps eps' t (map fst ode) d h d' h'.
Proof. exact runs_carried. Qed.
Print Assumptions C99_runs_partial.
Theorem C99_simulations_partial : forall c acts s b P t pn ode lib arrays ps h st doms sm sanity st1 doms1 ts rows o names eps t0
    acts' s' b' P' pn' ode' lib' arrays' ps' h' st' doms' sm' sanity' st1' doms1' ts' rows' o' names' eps' t0',
  ode_problem acts s b P t pn ode -> ode_problem acts' s' b' P' t pn' ode' -> (forall x, In x (map fst ode) <-> In x (map fst ode')) ->
  carries c P P' t (map fst ode) (map fst ode) -> same_rates P' P' t (map fst ode) -> starts_carried c acts acts' (map fst ode) ->
  simulates s b t pn ode lib doms sm o names eps t0 -> simulates s' b' t pn' ode' lib' doms' sm' o' names' eps' t0' ->
  whole_run lib arrays pn ps h st doms sm sanity = (st1, doms1, Ok (WRun ts rows)) ->
  whole_run lib' arrays' pn' ps' h' st' doms' sm' sanity' = (st1', doms1', Ok (WRun ts' rows')) ->
  t0' ts' = moment_image c (t0 ts) ->
  exists d d', nth_error doms1 o = Some d /\ nth_error doms1' o' = Some d' /\ carried_within c eps eps' t (map fst ode) d names d' names'.
Proof. exact simulations_carried. Qed.
Print Assumptions C99_simulations_partial.
Theorem C99_dae_simulations_partial : forall c acts s b P t pn dae lib arrays ps h st doms sm sanity st1 doms1 out o names eps t0 e n
    acts' s' b' P' pn' dae' lib' arrays' ps' h' st' doms' sm' sanity' st1' doms1' out' o' names' eps' t0' e' n' zs,
  dae_problem acts s b P t pn dae -> dae_problem acts' s' b' P' t pn' dae' ->
  (forall x, In x (dnames dae) <-> In x (dnames dae')) -> (forall x, In x (b_varlist b) <-> In x (b_varlist b')) ->
  (forall x, In x (b_varlist b) <-> In x (dnames dae) \/ In x zs) ->
  carries c P P' t (b_varlist b) (dnames dae) -> follow P' P' t (dnames dae) zs -> same_dae_rates P' P' t (dnames dae) zs -> starts_carried c acts acts' (dnames dae) ->
  dae_simulates s b t pn lib doms sm o names eps t0 e n -> dae_simulates s' b' t pn' lib' doms' sm' o' names' eps' t0' e' n' ->
  whole_run lib arrays pn ps h st doms sm sanity = (st1, doms1, Ok out) ->
  whole_run lib' arrays' pn' ps' h' st' doms' sm' sanity' = (st1', doms1', Ok out') -> t0' = moment_image c t0 ->
  exists d d', nth_error doms1 o = Some d /\ nth_error doms1' o' = Some d' /\ carried_within c eps eps' t (b_varlist b) d names d' names'.
Proof. exact dae_simulations_carried. Qed.
Print Assumptions C99_dae_simulations_partial.

(** What starts where nothing changes stays there. *)
Theorem C99_rest : forall P t names moves zs y t0 ts sol, at_rest P t names moves y -> ~ In t names -> (forall x, In x names <-> In x moves \/ In x zs) ->
  follow P P t moves zs -> same_dae_rates P P t moves zs -> dae_obeys_all P t names moves t0 ts sol -> (forall x, In x moves -> sol x t0 = y x) ->
  forall tau, during t0 ts tau -> forall x, In x names -> sol x tau = y x.
Proof. exact stays_at_rest. Qed.
Print Assumptions C99_rest.

(** Answers of algebraic problems, any solvers; [K] is the condition of the second (C97). *)
Theorem C99_answers : forall c lam acts s b P eps eng out acts' s' b' P' eps' eng' out' (here : env -> Prop) K v, sets_up acts s b P -> sets_up acts' s' b' P' ->
  honest_within eps eng -> answer eng b out -> honest_within eps' eng' -> answer eng' b' out' ->
  (0 <= lam)%R -> (0 <= eps)%R -> (0 <= eps')%R -> here (image_env c (bind_env out)) -> here (bind_env out') ->
  carries_demands c lam P P' -> conditioned_in here P' (b_varlist b') K -> In v (b_varlist b') ->
  (Rabs (image c v (e_sym (bind_env out) v) - e_sym (bind_env out') v) <= K * (lam * eps + eps'))%R.
Proof. exact answers_carried. Qed.
Print Assumptions C99_answers.
Theorem C99_results : forall c lam acts s b P eps lib arrays pn ps st doms sm st1 doms1 out r acts' s' b' P' eps' lib' arrays' pn' ps' st' doms' sm' st1' doms1' out' r' (here : env -> Prop) K v,
  sets_up acts s b P -> sets_up acts' s' b' P' ->
  honest_within eps (lib_roots lib) -> proper_answers (lib_roots lib) -> honest_within eps' (lib_roots lib') -> proper_answers (lib_roots lib') ->
  sm_problem sm = Some (snd s) -> whole_run lib arrays pn ps (pw_heap (fst s)) st doms sm true = (st1, doms1, Ok out) -> whole_results doms1 sm out RDict = Ok (WByName r) ->
  sm_problem sm' = Some (snd s') -> whole_run lib' arrays' pn' ps' (pw_heap (fst s')) st' doms' sm' true = (st1', doms1', Ok out') -> whole_results doms1' sm' out' RDict = Ok (WByName r') ->
  (0 <= lam)%R -> (0 <= eps)%R -> (0 <= eps')%R -> here (image_env c (bind_env r)) -> here (bind_env r') ->
  carries_demands c lam P P' -> conditioned_in here P' (b_varlist b') K -> In v (b_varlist b') ->
  (Rabs (image c v (e_sym (bind_env r) v) - e_sym (bind_env r') v) <= K * (lam * eps + eps'))%R.
Proof. exact results_carried. Qed.
Print Assumptions C99_results.

(** ** Cases *)
Lemma all_said acts s b P l : sets_up acts s b P -> map (fun e => option_map nd_sym (eq_expr e)) (b_eqs b) = map Some l -> forall en, (forall r, In r l -> den r en = Some 0%R) ->
  forall w, P w -> wr_value w en = Some 0%R.
Proof.
  intros Su E en H w Hw. destruct (stated_set_up _ _ _ _ Su) as (_ & Sta & _). destruct (Sta w Hw) as (e & He & (n & En & V) & _).
  apply (in_map (fun e => option_map nd_sym (eq_expr e))) in He. rewrite E, En in He. cbn [option_map] in He. apply in_map_iff in He. destruct He as (r & Er & Hr).
  injection Er as ->. rewrite <- V. now apply H.
Qed.
(** dx/dt == 3t, dy/dt == x backwards in time: x as before, y falls as it rose. *)
Definition mirror : chart := mkChart (fun x => if String.eqb x "y_M" then (-1)%R else 1%R) (fun x => if String.eqb x "y_M" then 10%R else 0%R) (-1) 0.
Lemma fall_rate_y en : (forall w, program_says fall w -> wr_value w en = Some 0%R) -> e_der en "y_M" "t_M" = e_sym en "x_M".
Proof.
  intros H. destruct (system_rates _ _ _ _ _ _ _ "y_M" (SSym "x_M") fall_problem (or_intror (or_introl eq_refl))) as (g & (w & Hw & Hr) & E).
  assert (Eg := E en). rewrite (Hr en (H w Hw)) in Eg. cbn in Eg. congruence.
Qed.
Lemma fall_mirrored : carries mirror (program_says fall) (program_says fall) "t_M" (map fst fall_ode) (map fst fall_ode).
Proof.
  split; [cbn; lra|]. intros en en' H (T & V & D). assert (X := fall_rate en H). assert (Y := fall_rate_y en H).
  assert (Vx := V "x_M" (or_introl eq_refl)). assert (Dx := D "x_M" (or_introl eq_refl)). assert (Dy := D "y_M" (or_intror (or_introl eq_refl))).
  unfold image, moment_image in *. cbn [mirror ch_mul ch_add ch_rate ch_shift String.eqb Ascii.eqb Bool.eqb] in *.
  apply (all_said _ _ _ _ [SSub (SDer "x_M" "t_M") (SMul (SSym "t_M") (SNum (PInt 3))); SSub (SDer "y_M" "t_M") (SSym "x_M")] (proj1 fall_problem)); [vm_compute; reflexivity|].
  intros r [<-|[<-|[]]]; cbn; f_equal; lra.
Qed.
Lemma fall_determined : same_rates (program_says fall) (program_says fall) "t_M" (map fst fall_ode).
Proof. apply (systems_same _ _ _ _ _ _ _ _ _ _ _ _ _ fall_problem fall_problem). intros x r H. split; [now apply (fall_steady x)|]. exists r. auto. Qed.
Lemma fall_starts_mirrored : starts_carried mirror fall fall (map fst fall_ode).
Proof.
  intros x k k' v v' Hx K K' V V'. assert (D : dictionaries fall) by exact (proj1 (proj2 fall_problem)). apply (init_exact fall D) in K. apply (init_exact fall D) in K'.
  assert (I : pr_init (snd (run_acts start_session fall)) = [("x_M", PInt 2); ("y_M", PInt 5); ("t_M", PInt 7)]) by (vm_compute; reflexivity).
  rewrite I in K, K'. destruct Hx as [<-|[<-|[]]]; cbn in K, K'; injection K as <-; injection K' as <-; injection V as <-; injection V' as <-; unfold image; cbn; lra.
Qed.
Definition back_run : ode_options := mkOO (Some "CVODE") 0%R (Some 2%R) (Some 2%Z) (Some [0; - (1 / 2); - (2)]%R) [("x_M", "speed")].
Definition back_times : list R := [0; - (1 / 2); - (2)]%R.
Notation back_table := (fall_table (oo_names back_run) back_times (map (fall_curve 0 2 5) back_times)).
Lemma back_recorded : recorded_run (final fall) (the_block fall) "t_M" print_one fall_ode 0%R back_times back_table (oo_names back_run) 0%R.
Proof.
  refine (rr_cvode (final fall) (the_block fall) "t_M" print_one fall_ode no_print (TNames ["t_M"]) true fall_solver fall_odeint fall_cvode 0%R back_run fall_domain
    back_table back_times (map (fall_curve 0 2 5) back_times) fall_made fall_cleared eq_refl eq_refl _ eq_refl (fall_cvode_solves _ fall_rhs) _).
  - repeat constructor; cbn; intuition discriminate.
  - apply fall_by_cvode with (e := 2%R); reflexivity.
Qed.
(** Each time of the first table has its image in the second. *)
Example C99_runs_case : ode_problem fall (final fall) (the_block fall) (program_says fall) "t_M" print_one fall_ode /\
  carries mirror (program_says fall) (program_says fall) "t_M" (map fst fall_ode) (map fst fall_ode) /\ same_rates (program_says fall) (program_says fall) "t_M" (map fst fall_ode) /\
  starts_carried mirror fall fall (map fst fall_ode) /\
  recorded_run (final fall) (the_block fall) "t_M" print_one fall_ode 0%R chosen_times chosen_table [("x_M", "speed")] 0%R /\
  recorded_run (final fall) (the_block fall) "t_M" print_one fall_ode (moment_image mirror 0) back_times back_table [("x_M", "speed")] 0%R /\
  back_times = map (moment_image mirror) chosen_times.
Proof.
  split; [exact fall_problem|]. split; [exact fall_mirrored|]. split; [exact fall_determined|]. split; [exact fall_starts_mirrored|]. split; [exact chosen_run|]. split.
  - assert (E : moment_image mirror 0 = 0%R) by (unfold moment_image; cbn; lra). rewrite E. exact back_recorded.
  - unfold moment_image, back_times, chosen_times. cbn. repeat f_equal; lra.
Qed.
(** What is carried is in [C99_runs_case]. *)
Example C99_simulations_case :
  simulates (final fall) (the_block fall) "t_M" print_one fall_ode test_library [fall_domain] fall_by_adams 0 [("y_M", "height")] 0%R (fun _ => 0%R) /\
  exists rows d, whole_run test_library no_arrays print_one no_print (pw_heap (fst (final fall))) store0 [fall_domain] fall_by_adams true =
      (fall_store, [d], Ok (WRun fall_times rows)) /\ 0%R = moment_image mirror 0%R.
Proof.
  split; [exact fall_simulates|].
  assert (T : time_points (fall_with "CVODE") = Ok fall_times) by reflexivity. assert (O := fall_by_cvode (fall_with "CVODE") fall_times 2%R eq_refl eq_refl T).
  eexists _, _. split; [refine (fall_runs _ _ (the_block fall) _ fall_solver fall_domain _ _ _ _ _ _ _ _ _ fall_made O); vm_compute; reflexivity|].
  unfold moment_image. cbn. lra.
Qed.

(** dx/dt == z, z == 3*x: twice the start, twice of everything. *)
Definition twice : chart := mkChart (fun _ => 2%R) (fun _ => 0%R) 1 0.
Lemma growth_second en : (forall w, program_says growth w -> wr_value w en = Some 0%R) -> e_sym en "z_M" = (3 * e_sym en "x_M")%R.
Proof.
  intros H. assert (S : equals_said (program_says growth) "z_M" (den threefold)) by (apply (second_equation _ _ _ _ (proj1 growth_problem)); vm_compute; reflexivity).
  destruct S as (w' & Hw' & V'). assert (B := V' en (H w' Hw')). cbn in B. assert (e_sym en "x_M" * 3 = e_sym en "z_M")%R by congruence. lra.
Qed.
Definition growth_equations : list sx := [SSub (SDer "x_M" "t_M") (SSym "z_M"); SSub (SSym "z_M") (SMul (SSym "x_M") (SNum (PInt 3)))].
Lemma growth_doubled : carries twice (program_says growth) (program_says growth_double) "t_M" (b_varlist (the_block growth)) (dnames the_dae).
Proof.
  split; [cbn; lra|]. intros en en' H (T & V & D). assert (X := growth_rate en H). assert (Z := growth_second en H). rewrite growth_names in V.
  assert (Vx := V "x_M" (or_introl eq_refl)). assert (Vz := V "z_M" (or_intror (or_introl eq_refl))). assert (Dx := D "x_M" (or_introl eq_refl)).
  unfold image in *. cbn [twice ch_mul ch_add ch_rate] in *.
  apply (all_said _ _ _ _ growth_equations (proj1 double_problem)); [vm_compute; reflexivity|]. intros r [<-|[<-|[]]]; cbn; f_equal; lra.
Qed.
Lemma growth_starts_doubled : starts_carried twice growth growth_double (dnames the_dae).
Proof.
  intros x k k' v v' [<-|[]] K K' V V'. apply (init_exact growth (proj1 (proj2 growth_problem))) in K. apply (init_exact growth_double (proj1 (proj2 double_problem))) in K'.
  assert (I : dget "x_M" (pr_init (snd (run_acts start_session growth))) = Some (PInt 1)) by (vm_compute; reflexivity).
  assert (I' : dget "x_M" (pr_init (snd (run_acts start_session growth_double))) = Some (PInt 2)) by (vm_compute; reflexivity).
  cbn [fst snd] in K, K'. rewrite I in K. rewrite I' in K'. injection K as <-. injection K' as <-. injection V as <-. injection V' as <-. unfold image. cbn. lra.
Qed.
Lemma growth_given acts s b P : dae_problem acts s b P "t_M" print_one the_dae ->
  option_map (fun e => option_map nd_sym (eq_expr e)) (nth_error (b_eqs b) 1) = Some (Some (SSub (SSym "z_M") threefold)) -> follow P P "t_M" (dnames the_dae) ["z_M"].
Proof.
  intros O H. split; [|exact I]. exists (den threefold), (den threefold). assert (S := second_equation _ _ _ _ (proj1 O) H). split; [exact S|]. split; [exact S|]. split; [reflexivity|].
  apply (gentle_tempered growth_things ["t_M"; "x_M"] (UNumR BMul (UQty "x") (PInt 3))). split; [discriminate|]. intros z E. injection E as <-. right. right. now left.
Qed.
Lemma growth_determined acts s b P : dae_problem acts s b P "t_M" print_one the_dae -> same_dae_rates P P "t_M" (dnames the_dae) ["z_M"].
Proof.
  intros O. apply (dae_systems_same _ _ _ _ _ _ _ _ _ _ _ _ _ _ O O). intros x r [H|[]]. injection H as <- <-. split.
  - apply (gentle_steady growth_things "t_M" ["z_M"; "x_M"] (UQty "z")). intros z E. injection E as <-. right. right. now left.
  - exists (SSym "z_M"). split; [now left|reflexivity].
Qed.
(** The programs, their simulations and their runs are in [C89_dae_simulations_case]; both
    start at time 1. *)
Example C99_dae_simulations_case :
  carries twice (program_says growth) (program_says growth_double) "t_M" (b_varlist (the_block growth)) (dnames the_dae) /\
  follow (program_says growth_double) (program_says growth_double) "t_M" (dnames the_dae) ["z_M"] /\
  same_dae_rates (program_says growth_double) (program_says growth_double) "t_M" (dnames the_dae) ["z_M"] /\
  starts_carried twice growth growth_double (dnames the_dae) /\ 1%R = moment_image twice 1%R.
Proof.
  split; [exact growth_doubled|]. split; [apply (growth_given _ _ _ _ double_problem); vm_compute; reflexivity|]. split; [exact (growth_determined _ _ _ _ double_problem)|].
  split; [exact growth_starts_doubled|]. unfold moment_image. cbn. lra.
Qed.
(** Nothing grows from nothing. *)
Example C99_rest_case : at_rest (program_says growth) "t_M" ["x_M"; "z_M"] ["x_M"] (fun _ => 0%R) /\
  follow (program_says growth) (program_says growth) "t_M" ["x_M"] ["z_M"] /\ same_dae_rates (program_says growth) (program_says growth) "t_M" ["x_M"] ["z_M"] /\
  dae_obeys_all (program_says growth) "t_M" ["x_M"; "z_M"] ["x_M"] 1%R [3%R] (fun _ _ => 0%R).
Proof.
  assert (A : at_rest (program_says growth) "t_M" ["x_M"; "z_M"] ["x_M"] (fun _ => 0%R)).
  { intros en V D. apply (all_said _ _ _ _ growth_equations (proj1 growth_problem)); [vm_compute; reflexivity|].
    assert (Vx := V "x_M" (or_introl eq_refl)). assert (Vz := V "z_M" (or_intror (or_introl eq_refl))). assert (Dx := D "x_M" (or_introl eq_refl)).
    intros r [<-|[<-|[]]]; cbn; f_equal; lra. }
  split; [exact A|]. split; [apply (growth_given _ _ _ _ growth_problem); vm_compute; reflexivity|]. split; [exact (growth_determined _ _ _ _ growth_problem)|].
  apply (rest_obeys _ _ _ _ (fun _ => 0%R) _ _ A). cbn. intuition discriminate.
Qed.

(** 2*x + y = 50 and x - y = 10; in units ten times as large 2*x + y = 5 and x - y = 1. *)
Definition wide_lines : decls :=
  mkDecls [] [CPar "k" "k" u_dimless (PInt 2); CSet "k" (SANum (PInt 2)) None]
    [CVar "x" "x" u_m true "input" (PInt 0); CVar "y" "y" u_m true "input" (PInt 0)]
    [CEq "e" "e" (UResid (UNumR BSub (UBin BAdd (UBin BMul (UQty "k") (UQty "x")) (UQty "y")) (PInt 50))) true;
     CEq "f" "f" (UResid (UNumR BSub (UBin BSub (UQty "x") (UQty "y")) (PInt 10))) true].
Definition wide : list act := [ANew "L" wide_lines; ACall 0%nat; AAdd 0%nat].
Lemma wide_set_up : sets_up wide (final wide) (the_block wide) (program_says wide).
Proof.
  apply su_plain; [apply run_resolved; vm_compute; reflexivity|apply runs_all; vm_compute; reflexivity|apply (one_distinct wide "L"); vm_compute; reflexivity
    |apply readable_by; vm_compute; reflexivity|vm_compute; reflexivity|apply origins_by; vm_compute; reflexivity|apply known_by; vm_compute; reflexivity].
Qed.
Lemma wide_near b e1 e2 : b_varlist b = ["x_L"; "y_L"] -> b_exprs b = [SSub (SAdd e1 (SSym "y_L")) (SNum (PInt 50)); SSub (SSub (SSym "x_L") (SSym "y_L")) e2] ->
  (forall en, den e1 en = Some (2 * e_sym en "x_L")%R) -> (forall en, den e2 en = Some 10%R) -> answer (tolerant (1 / 10)) b [("x_L", 20); ("y_L", 10)]%R.
Proof.
  intros V E D1 D2. assert (H := tolerant_answer (1 / 10) b [("x_L", 20); ("y_L", 10)]%R [20; 10]%R). rewrite V, E in H. apply H; [discriminate|reflexivity|].
  split; [reflexivity|]. intros e [<-|[<-|[]]]; cbn [den]; rewrite ?D1, ?D2; cbn; eexists; (split; [reflexivity|]); apply Rabs_le; lra.
Qed.
Definition tenth : chart := mkChart (fun _ => (/ 10)%R) (fun _ => 0%R) 1 0.
Lemma wide_carried : carries_demands tenth (/ 10) (program_says wide) (program_says crossing).
Proof.
  apply (carried_by_exprs _ _ _ _ _ _ _ _ _ _ wide_set_up (proj1 C88_case)).
  assert (E : b_exprs (the_block wide) = [SSub (SAdd (SMul (SNum (PInt 2)) (SSym "x_L")) (SSym "y_L")) (SNum (PInt 50));
    SSub (SSub (SSym "x_L") (SSym "y_L")) (SNum (PInt 10))]) by (vm_compute; reflexivity).
  assert (E' : b_exprs (the_block crossing) = [SSub (SAdd (SMul (SNum (PInt 2)) (SSym "x_L")) (SSym "y_L")) (SNum (PInt 5));
    SSub (SSub (SSym "x_L") (SSym "y_L")) (SNum (PInt 1))]) by (vm_compute; reflexivity).
  rewrite E, E'. constructor; [|constructor; [|constructor]]; intros en a H; cbn in H; injection H as <-; cbn; eexists; (split; [reflexivity|]);
    
    match goal with |- (_ <= / 10 * Rabs ?x)%R => replace (/ 10 * Rabs x)%R with (Rabs (/ 10 * x)) by (rewrite Rabs_mult, (Rabs_pos_eq (/ 10)); lra) end;
    right; f_equal; unfold image; cbn; field.
Qed.
Example C99_answers_case : sets_up wide (final wide) (the_block wide) (program_says wide) /\ sets_up crossing (final crossing) (the_block crossing) (program_says crossing) /\
  honest_within (1 / 10) (tolerant (1 / 10)) /\ answer (tolerant (1 / 10)) (the_block wide) [("x_L", 20); ("y_L", 10)]%R /\
  honest_within (2 / 100) (tolerant (2 / 100)) /\ answer (tolerant (2 / 100)) (the_block crossing) [("x_L", 201 / 100); ("y_L", 1)]%R /\
  carries_demands tenth (/ 10) (program_says wide) (program_says crossing) /\
  conditioned_in (fun _ => True) (program_says crossing) (b_varlist (the_block crossing)) 1 /\ In "x_L" (b_varlist (the_block crossing)).
Proof.
  destruct C88_case as (S & H & A & Mx & Iv & Bd). assert (V : b_varlist (the_block crossing) = ["x_L"; "y_L"]) by (vm_compute; reflexivity).
  split; [exact wide_set_up|]. split; [exact S|]. split; [exact (tolerant_honest _)|]. split.
  { refine (wide_near (the_block wide) (SMul (SNum (PInt 2)) (SSym "x_L")) (SNum (PInt 10)) _ _ _ _); [vm_compute; reflexivity|vm_compute; reflexivity|reflexivity|reflexivity]. }
  split; [exact H|]. split; [exact A|]. split; [exact wide_carried|].
  split; [exact (conditioned_all _ _ _ _ (inverse_conditions _ _ _ _ _ _ _ S Mx Iv Bd))|]. rewrite V. now left.
Qed.
