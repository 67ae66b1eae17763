(** C84: equations with steady rates have one solution; simulations of equal problems
    record the same. *)
From Verif Require Import Base BaseFacts Num UnitModel Sympy Node Build EquationModel ModelModel ProblemModel SpecUnits SpecExpr SpecModel SpecInc SpecCall SpecProblem
  ProblemFacts SessionFacts SpecLink SolverModel DomainModel SpecSolver SolverFacts SpecSymbols OdeFacts DaeFacts SpecWritten SpecExact SpecOwn SpecSession StudyFacts
  SpecSaid SaidFacts SpecCompose ComposeFacts SpecInit InitFacts RunModel SpecRun RunFacts SpecUnique TameFacts UniqueFacts Demo Properties07Problems Properties08Solvers Properties16Written
  Properties19Sessions Properties22Links Properties24Said Properties29Run Properties30Dae Properties32Compose.
From Coq Require Import Reals Lra.
Notation num := Verif.Num.num.

(** Two families of functions of which the equations are true, equal at one time, are
    equal at all times both are followed to, forwards and backwards. *)
Theorem C84_unique : forall P P' t names sol sol', same_rates P P' t names -> forall t0 times times',
  obeys_all P t names t0 times sol -> obeys_all P' t names t0 times' sol' -> (forall x, In x names -> sol x t0 = sol' x t0) ->
  forall tau, during t0 times tau -> during t0 times' tau -> forall x, In x names -> sol x tau = sol' x tau.
Proof. exact one_solution. Qed.
Print Assumptions C84_unique.

(** Expressions without square roots, broken or variable powers, and derivatives are
    steady. *)
Theorem C84_gentle : forall D t names e, gentle (of_names D (t :: names)) e -> steady t names (fun en => expr_value D en e).
Proof. exact gentle_steady. Qed.
Print Assumptions C84_gentle.
Theorem C84_gentle_at : forall h t names e, gentle (of_names_at h (t :: names)) e -> steady t names (fun en => value_at h en e).
Proof. exact gentle_steady_at. Qed.
Print Assumptions C84_gentle_at.

(** Full statement: two simulations of problems that say the same give the same
    results, whatever the integrator, its options, the time points and the headers.
    Missing: rates that are not steady (refuted below), differential-algebraic
    problems, and what C79 and C82 miss. *)
Theorem C84_programs_partial : forall acts s b P t pn ode acts' s' b' P' pn' ode' t0 ts d names eps ts' d' names' eps',
  ode_problem acts s b P t pn ode -> ode_problem acts' s' b' P' t pn' ode' ->
  (forall x, In x (map fst ode) <-> In x (map fst ode')) -> same_rates P P' t (map fst ode) -> same_starts acts acts' (map fst ode) ->
  recorded_run s b t pn ode t0 ts d names eps -> recorded_run s' b' t pn' ode' t0 ts' d' names' eps' ->
  agree_within (eps + eps') t (map fst ode) d names d' names'.
Proof. exact runs_agree. Qed.
Print Assumptions C84_programs_partial.

(** The same for two simulations of one problem. *)
Theorem C84_runs_partial : forall acts s b P t pn ode t0 ts d names eps ts' d' names' eps',
  ode_problem acts s b P t pn ode -> (forall x w g, P w -> rate w x t g -> steady t (map fst ode) g) ->
  recorded_run s b t pn ode t0 ts d names eps -> recorded_run s b t pn ode t0 ts' d' names' eps' ->
  agree_within (eps + eps') t (map fst ode) d names d' names'.
Proof. exact same_program_runs. Qed.
Print Assumptions C84_runs_partial.

(** ** Cases *)
(** dx/dt == x; the exponential function, forwards and backwards. *)
Definition two_things : dict thing := [("x", mkThing "x_M" (PInt 0) false); ("t", mkThing "t_M" (PInt 0) false); ("k", mkThing "k_M" (PInt 4) true)].
Definition growing (w : written) : Prop := w = read_eq two_things "e" (UElem (UDiff "x" (Some "t")) (UQty "x")).
Example C84_case : same_rates growing growing "t_M" ["x_M"] /\ obeys_all growing "t_M" ["x_M"] 0%R [1; -2]%R (fun _ s => exp s) /\
  during 0%R [1; -2]%R 1%R /\ during 0%R [1; -2]%R (-2)%R.
Proof.
  split; [|split; [|split]].
  - intros x [<-|[]]. exists (fun en => Some (e_sym en "x_M")), (fun en => Some (e_sym en "x_M")).
    assert (Rs : rate_said growing "x_M" "t_M" (fun en => Some (e_sym en "x_M"))).
    { eapply rate_of_sides; reflexivity. }
    do 3 (split; [auto|]). apply (gentle_steady two_things "t_M" ["x_M"] (UQty "x")). intros y E. injection E as <-. right. right. now left.
  - intros tau _. split.
    + exists (mkEnv (fun z => if String.eqb z "t_M" then tau else exp tau) (fun _ _ => exp tau)). split; [reflexivity|]. intros x [<-|[]].
      split; [reflexivity|apply derivable_pt_lim_exp].
    + intros en (_ & A) w ->. destruct (A "x_M" (or_introl eq_refl)) as (E1 & E2). cbn. rewrite E1, (uniqueness_limite _ _ _ _ E2 (derivable_pt_lim_exp tau)). f_equal. lra.
  - exists 1%R. split; [now left|lra].
  - exists (-2)%R. split; [right; now left|lra].
Qed.

(** exp(x)*t/(1 + x**2) + Max(log(x), 2**x, k) with k = 4. *)
Example C84_gentle_case : gentle (of_names two_things ["t_M"; "x_M"])
  (UBin BAdd (UBin BDiv (UBin BMul (UFun FExp (UQty "x")) (UQty "t")) (UNumL BAdd (PInt 1) (UNumR BPow (UQty "x") (PInt 2))))
             (UMinMax true (AExpr (UFun FLog (UQty "x")) (AExpr (UNumL BPow (PInt 2) (UQty "x")) (AExpr (UQty "k") ANil))))).
Proof. cbn. repeat split; try discriminate; intros y E; injection E as <-; cbn; tauto. Qed.
Example C84_gentle_at_case : gentle (of_names_at [mkQty KVariable "x_M" u_one (PInt 0) false "M" false "" false] ["t_M"; "x_M"]) (UFun FSin (UQty 0%nat)).
Proof. split; [discriminate|]. intros q E. injection E as <-. right. right. now left. Qed.

(** The problem fall of C79 by ODEINT and, at other time points, by CVODE. *)
Lemma fall_problem : ode_problem fall (final fall) (the_block fall) (program_says fall) "t_M" print_one fall_ode.
Proof.
  destruct fall_program as (A & B & C & D & E & F & G & H & I). split; [now apply su_plain|]. split; [exact H|]. split; [exact print_one_ok|].
  do 2 (split; [reflexivity|]). split; [exact I|]. split; [exact fall_explicit|]. split; [exact fall_closed|]. split; [exact fall_one_kind|].
  split; [exact fall_unknowns|discriminate].
Qed.
Definition fall_things : dict thing := [("x", mkThing "x_M" (PInt 0) false); ("t", mkThing "t_M" (PInt 0) false)].
Lemma fall_steady y r : In (y, r) fall_ode -> steady "t_M" (map fst fall_ode) (den r).
Proof.
  intros [E|[E|[]]]; injection E as <- <-.
  - apply (gentle_steady fall_things "t_M" (map fst fall_ode) (UNumR BMul (UQty "t") (PInt 3))). split; [discriminate|]. intros z E. injection E as <-. right. now left.
  - apply (gentle_steady fall_things "t_M" (map fst fall_ode) (UQty "x")). intros z E. injection E as <-. right. right. now left.
Qed.
Definition other_run : ode_options := mkOO (Some "CVODE") 0%R (Some 2%R) (Some 2%Z) (Some [0; 1 / 2; 2]%R) [("x_M", "speed")].
Definition even_times : list R := [0 + 0 * ((2 - 0) / 2); 0 + 1 * ((2 - 0) / 2); 0 + (1 + 1) * ((2 - 0) / 2)]%R.
Definition chosen_times : list R := [0; 1 / 2; 2]%R.
Notation even_table := (fall_table (oo_names fall_run) even_times (map (fall_curve (hd 0%R even_times) 2 5) even_times)).
Notation chosen_table := (fall_table (oo_names other_run) chosen_times (map (fall_curve 0 2 5) chosen_times)).
Lemma even_run : recorded_run (final fall) (the_block fall) "t_M" print_one fall_ode (hd 0%R even_times) even_times even_table (oo_names fall_run) 0%R.
Proof.
  refine (rr_odeint (final fall) (the_block fall) "t_M" print_one fall_ode no_print (TNames ["t_M"]) true fall_solver fall_odeint fall_cvode 0%R fall_run fall_domain
    even_table even_times (map (fall_curve (hd 0%R even_times) 2 5) even_times) fall_made fall_cleared eq_refl eq_refl _ (or_intror eq_refl) (fall_odeint_solves _ fall_rhs) _).
  - repeat constructor; cbn; intuition discriminate.
  - apply fall_by_odeint; reflexivity.
Qed.
Lemma chosen_run : recorded_run (final fall) (the_block fall) "t_M" print_one fall_ode 0%R chosen_times chosen_table (oo_names other_run) 0%R.
Proof.
  refine (rr_cvode (final fall) (the_block fall) "t_M" print_one fall_ode no_print (TNames ["t_M"]) true fall_solver fall_odeint fall_cvode 0%R other_run fall_domain
    chosen_table chosen_times (map (fall_curve 0 2 5) chosen_times) fall_made fall_cleared eq_refl eq_refl _ eq_refl (fall_cvode_solves _ fall_rhs) _).
  - repeat constructor; cbn; intuition discriminate.
  - apply fall_by_cvode with (e := 2%R); reflexivity.
Qed.
Lemma even_start : hd 0%R even_times = 0%R.
Proof. cbn. lra. Qed.
(** The last time is in both tables. *)
Example C84_runs_case : ode_problem fall (final fall) (the_block fall) (program_says fall) "t_M" print_one fall_ode /\
  (forall x w g, program_says fall w -> rate w x "t_M" g -> steady "t_M" (map fst fall_ode) g) /\
  recorded_run (final fall) (the_block fall) "t_M" print_one fall_ode 0%R even_times even_table [("y_M", "height")] 0%R /\
  recorded_run (final fall) (the_block fall) "t_M" print_one fall_ode 0%R chosen_times chosen_table [("x_M", "speed")] 0%R /\
  nth_error even_times 2 = nth_error chosen_times 2.
Proof.
  split; [exact fall_problem|]. split.
  { intros x w g Hw Hr. destruct (rates_system _ _ _ _ _ _ _ w x g fall_problem Hw Hr) as (y & r & Hy & Hg).
    apply (steady_ext _ _ (den r)); [intros en; now rewrite Hg|now apply (fall_steady y)]. }
  split; [|split; [exact chosen_run|cbn; f_equal; lra]]. assert (Q := even_run). rewrite even_start in Q at 1. exact Q.
Qed.

(** The same equations by incorporation (C82): fall in one piece and in two. *)
Lemma parts_problem : ode_problem fall_parts (final fall_parts) (the_block fall_parts) (composed_says fall_parts (the_accounts fall_parts)) "t_M" print_one fall_ode.
Proof.
  destruct fall_parts_composed as (A & B & C & D & E & F). destruct fall_parts_dictionaries as (H & I). split; [now apply su_composed|]. split; [exact H|]. split; [exact print_one_ok|].
  do 2 (split; [reflexivity|]). split; [exact I|]. split; [exact parts_explicit|]. split; [exact fall_closed|]. split; [exact parts_one_kind|].
  split; [exact parts_unknowns|discriminate].
Qed.
Lemma parts_recorded : recorded_run (final fall_parts) (the_block fall_parts) "t_M" print_one fall_ode (hd 0%R even_times) even_times even_table (oo_names fall_run) 0%R.
Proof.
  refine (rr_odeint (final fall_parts) (the_block fall_parts) "t_M" print_one fall_ode no_print (TNames ["t_M"]) true parts_solver fall_odeint fall_cvode 0%R fall_run fall_domain
    even_table even_times (map (fall_curve (hd 0%R even_times) 2 5) even_times) parts_made fall_cleared eq_refl eq_refl _ (or_intror eq_refl) (fall_odeint_solves _ parts_rhs) _).
  - repeat constructor; cbn; intuition discriminate.
  - apply parts_run; reflexivity.
Qed.
Example C84_programs_case :
  ode_problem fall (final fall) (the_block fall) (program_says fall) "t_M" print_one fall_ode /\
  ode_problem fall_parts (final fall_parts) (the_block fall_parts) (composed_says fall_parts (the_accounts fall_parts)) "t_M" print_one fall_ode /\
  same_rates (program_says fall) (composed_says fall_parts (the_accounts fall_parts)) "t_M" (map fst fall_ode) /\ same_starts fall fall_parts (map fst fall_ode) /\
  recorded_run (final fall) (the_block fall) "t_M" print_one fall_ode 0%R chosen_times chosen_table [("x_M", "speed")] 0%R /\
  recorded_run (final fall_parts) (the_block fall_parts) "t_M" print_one fall_ode 0%R even_times even_table [("y_M", "height")] 0%R.
Proof.
  split; [exact fall_problem|]. split; [exact parts_problem|]. split.
  { apply (systems_same _ _ _ _ _ _ _ _ _ _ _ _ _ fall_problem parts_problem). intros x r H. split; [now apply (fall_steady x)|]. exists r. auto. }
  split.
  { intros x k k' Hx H H'. apply (init_exact fall (proj1 (proj2 fall_problem))) in H. apply (init_exact fall_parts (proj1 (proj2 parts_problem))) in H'.
    assert (E : forall y, In y ["x_M"; "y_M"] -> dget y (pr_init (snd (run_acts start_session fall))) = dget y (pr_init (snd (run_acts start_session fall_parts)))).
    { intros y [<-|[<-|[]]]; vm_compute; reflexivity. }
    rewrite (E x Hx) in H. rewrite H in H'. now injection H' as <-. }
  split; [exact chosen_run|]. assert (Q := parts_recorded). rewrite even_start in Q at 1. exact Q.
Qed.

(** ** Rates that are not steady *)
(** dx/dt == 2*sqrt(x) from x = 0: the tank may stay empty or not. *)
Definition tank : list act :=
  [ANew "M" (mkDecls [] [] [] []); AStmt 0%nat (dvar "t"); AStmt 0%nat (dvar "x"); AStmt 0%nat (CDist "x");
   AStmt 0%nat (CEq "e" "e" (UElem (UDiff "x" (Some "t")) (UNumL BMul (PInt 2) (UFun FSqrt (UQty "x")))) true);
   AAdd 0%nat; ATime ["t_M"]; AInit [("x_M", PInt 0); ("t_M", PInt 0)]].
Definition tank_ode : list (string * sx) := [("x_M", SMul (SFun FSqrt (SSym "x_M")) (SNum (PInt 2)))].
Definition tank_domain : domain R := run_dacts (new_domain ["t_M"]) [DDist "x_M"].
Lemma tank_explicit : Forall2 (explicit "t_M") (b_diff (the_block tank)) tank_ode.
Proof. apply OdeFacts.views_explicit. vm_compute. reflexivity. Qed.
Lemma tank_closed : closed_system "t_M" tank_ode.
Proof.
  split; [repeat constructor; cbn; intuition discriminate|]. split; [cbn; intuition discriminate|].
  intros x r [H|[]]; injection H as <- <-; (split; [intros z Hz; cbn in *; intuition congruence|split; [reflexivity|split; [|discriminate]]]);
    intros y Hy; cbn in Hy; repeat (destruct Hy as [<-|Hy]; [split; [intros H; first [reflexivity|discriminate H]|reflexivity]|]); destruct Hy.
Qed.
Lemma tank_unknowns : ode_unknowns "t_M" tank_ode (b_varlist (the_block tank)).
Proof.
  assert (E : b_varlist (the_block tank) = ["x_M"]) by (vm_compute; reflexivity). rewrite E.
  split; [repeat constructor; cbn; intuition discriminate|].
  assert (U : ~ uses_time "t_M" tank_ode) by (intros (x & r & [H|[]] & Ht); injection H as <- <-; cbn in Ht; intuition discriminate).
  intros x. cbn. intuition.
Qed.
Lemma tank_one_kind : b_eqs (the_block tank) = b_diff (the_block tank).
Proof. vm_compute. reflexivity. Qed.
Lemma tank_problem : ode_problem tank (final tank) (the_block tank) (program_says tank) "t_M" print_one tank_ode.
Proof.
  split.
  { apply su_plain; [apply run_resolved; vm_compute; reflexivity|apply runs_all; vm_compute; reflexivity|apply (one_distinct tank "M"); vm_compute; reflexivity|
      apply readable_by; vm_compute; reflexivity|vm_compute; reflexivity|apply origins_by; vm_compute; reflexivity|apply known_by; vm_compute; reflexivity]. }
  split.
  { intros c H. repeat (destruct H as [H|H]; [first [discriminate H|injection H as <-]|]); [|destruct H]; repeat (constructor; [cbn; intuition discriminate|]); constructor. }
  split; [exact print_one_ok|]. do 2 (split; [reflexivity|]). split.
  { exists (firstn 6 tank), (skipn 7 tank). split; [reflexivity|]. intros n [H|[]]; discriminate H. }
  split; [exact tank_explicit|]. split; [exact tank_closed|]. split; [exact tank_one_kind|]. split; [exact tank_unknowns|discriminate].
Qed.
Definition tank_init : dict num := pr_init (snd (final tank)).
Definition tank_solver : dsolver :=
  match dsolver_init (the_block tank) tank_init (TNames ["t_M"]) true with Ok ds => ds | Raise _ => mkDS [] [] None end.
Lemma tank_made : dsolver_init (the_block tank) tank_init (TNames ["t_M"]) true = Ok tank_solver.
Proof. unfold tank_solver. destruct (ok_solver (the_block tank) tank_init (TNames ["t_M"]) true) as (s & Es); [vm_compute; reflexivity|]. rewrite Es. reflexivity. Qed.
Notation tank_rates := (rates print_one (snd (final tank)) (the_block tank) tank_solver).
Definition tank_system (f : rhs) : Prop := forall x tau, (0 <= x)%R -> f [x] tau = Ok [Some (sqrt x * 2)%R].
Lemma tank_rhs : tank_system tank_rates.
Proof.
  intros x tau Px. set (en := mkEnv (fun z => if String.eqb z "t_M" then tau else x) (fun _ _ => 0%R)). unfold rates.
  rewrite (ode_rhs "t_M" print_one (snd (final tank)) (the_block tank) tank_init (TNames ["t_M"]) true tank_solver tank_ode [x] tau en);
    [|exact print_one_ok|reflexivity|reflexivity|vm_compute; reflexivity|exact tank_explicit|exact tank_closed|
     intros _; split; [exact tank_one_kind|exact tank_unknowns]|discriminate|exact tank_made|].
  - cbn [map snd tank_ode den e_sym en obind fn_value String.eqb Ascii.eqb Bool.eqb]. destruct (Rle_dec 0 x) as [_|C]; [reflexivity|contradiction].
  - split; [reflexivity|]. split; [|reflexivity]. intros [|j] z r H; cbn in H; [injection H as <- <-; reflexivity|destruct j; discriminate].
Qed.
(** Integrators that know these solutions. *)
Definition forwards (times : list R) : bool := forallb (fun tk => if Rle_dec (hd 0%R times) tk then true else false) times.
Definition starts_empty (y0 : list R) : bool := match y0 with [a] => if Req_EM_T a 0 then true else false | _ => false end.
Definition keep_empty (f : rhs) (y0 times : list R) : res (list (list R)) := if starts_empty y0 && forwards times then Ok (map (fun _ => [0%R]) times) else Raise EValue.
Definition fill_up (f : rhs) (y0 times : list R) : res (list (list R)) :=
  if starts_empty y0 && forwards times then Ok (map (fun tk => [(tk - hd 0%R times) * (tk - hd 0%R times)]%R) times) else Raise EValue.
Lemma tank_guard y0 times : starts_empty y0 && forwards times = true -> y0 = [0%R] /\ forall tau, during (hd 0%R times) times tau -> (hd 0%R times <= tau)%R.
Proof.
  intros H. apply andb_prop in H. destruct H as [H1 H2]. split.
  - destruct y0 as [|a [|c y0]]; try discriminate H1. cbn in H1. destruct (Req_EM_T a 0) as [->|]; [reflexivity|discriminate].
  - intros tau (tk & Hk & D). unfold forwards in H2. rewrite forallb_forall in H2. specialize (H2 tk Hk). destruct (Rle_dec (hd 0%R times) tk) as [L|]; [|discriminate].
    destruct D as [D|D]; lra.
Qed.
Lemma same_rows (Y : R -> list R) times : (forall tau, exists a, Y tau = [a]) ->
  Forall2 (fun tk row => Forall2 (fun y v => Rabs (v - y) <= 0)%R (Y tk) row) times (map Y times).
Proof.
  intros H. induction times as [|tk times IH]; [constructor|]. cbn [map]. constructor; [|exact IH]. destruct (H tk) as (a & ->).
  constructor; [rewrite Rminus_diag_eq, Rabs_R0 by reflexivity; lra|constructor].
Qed.
Lemma keep_empty_solves f : tank_system f -> odeint_solves keep_empty f 0%R.
Proof.
  intros Hf y0 times rows E. unfold keep_empty in E. destruct (starts_empty y0 && forwards times) eqn:G; [|discriminate]. injection E as <-.
  apply tank_guard in G. destruct G as (-> & _). exists (fun _ => [0%R]). split; [reflexivity|]. split; [|exact (same_rows (fun _ => [0%R]) times (fun _ => ex_intro _ 0%R eq_refl))].
  intros tau _. split; [reflexivity|]. eexists. split; [apply Hf; lra|]. intros [|j] Hj; [|cbn in Hj; lia]. eexists. split; [reflexivity|].
  rewrite sqrt_0, Rmult_0_l. apply (derivable_pt_lim_const 0).
Qed.
Lemma fill_up_solves f : tank_system f -> odeint_solves fill_up f 0%R.
Proof.
  intros Hf y0 times rows E. unfold fill_up in E. destruct (starts_empty y0 && forwards times) eqn:G; [|discriminate]. injection E as <-.
  apply tank_guard in G. destruct G as (-> & G). set (t0 := hd 0%R times) in *. exists (fun tau => [(tau - t0) * (tau - t0)]%R). split; [f_equal; ring|].
  split; [|exact (same_rows (fun tau => [(tau - t0) * (tau - t0)]%R) times (fun tau => ex_intro _ _ eq_refl))].
  intros tau Hd. specialize (G tau Hd). split; [reflexivity|]. eexists. split; [apply Hf; apply Rle_0_sqr|]. intros [|j] Hj; [|cbn in Hj; lia]. eexists. split; [reflexivity|].
  rewrite sqrt_square by lra. refine (lim_ext _ _ _ _ _ _ _ (cubic (t0 * t0) (- 2 * t0) 1 0 tau)%R); [intros s; cbn; ring|ring].
Qed.
Definition tank_run : ode_options := mkOO None 0%R (Some 2%R) (Some 2%Z) None [].
Definition tank_table (rows : list (list R)) : domain R := match record_run tank_domain even_times (mkM 1 rows) [] with (d, _) => d end.
Lemma tank_starts : initial_state no_print tank_solver (pr_init (snd (final tank))) = Ok [PInt 0].
Proof. vm_compute. reflexivity. Qed.
Lemma tank_by odeint row : (forall f, odeint f [0%R] even_times = Ok (map row even_times)) ->
  ode_solve odeint fall_cvode print_one no_print (snd (final tank)) (the_block tank) tank_solver tank_run tank_domain =
    (tank_table (map row even_times), Ok (even_times, map row even_times)).
Proof.
  intros Ho. unfold ode_solve. rewrite tank_starts. cbn [rbind]. assert (T : time_points tank_run = Ok even_times) by reflexivity. rewrite T. cbn [rbind].
  assert (M : map_res real_of [PInt 0] = Ok [0]%R) by reflexivity. rewrite M. cbn [rbind].
  assert (J : forall f, integrate odeint fall_cvode tank_run f [0]%R even_times = Ok (even_times, map row even_times)) by (intros f; unfold integrate; cbn [tank_run oo_solver]; rewrite Ho; reflexivity).
  rewrite J. cbn [rbind List.length]. unfold tank_table, record_run, hstack. cbn [mx_rows]. rewrite map_length, Nat.eqb_refl. reflexivity.
Qed.
Lemma tank_recorded odeint row : (forall f, odeint f [0%R] even_times = Ok (map row even_times)) -> odeint_solves odeint tank_rates 0%R ->
  recorded_run (final tank) (the_block tank) "t_M" print_one tank_ode (hd 0%R even_times) even_times (tank_table (map row even_times)) [] 0%R.
Proof.
  intros Ho So.
  refine (rr_odeint (final tank) (the_block tank) "t_M" print_one tank_ode no_print (TNames ["t_M"]) true tank_solver odeint fall_cvode 0%R tank_run tank_domain
    (tank_table (map row even_times)) even_times (map row even_times) tank_made _ eq_refl eq_refl _ (or_introl eq_refl) So (tank_by odeint row Ho)).
  - eexists. split; [reflexivity|]. split; [reflexivity|]. intros k f [H|[]]. injection H as <- <-. reflexivity.
  - repeat constructor; cbn; intuition discriminate.
Qed.
Lemma tank_allowed : starts_empty [0%R] && forwards even_times = true.
Proof.
  cbn [starts_empty]. destruct (Req_EM_T 0 0) as [_|C]; [|now destruct C]. unfold forwards. apply forallb_forall. intros tk Hk.
  destruct (Rle_dec (hd 0%R even_times) tk) as [|C]; [reflexivity|]. exfalso. apply C. cbn in Hk |- *. destruct Hk as [<-|[<-|[<-|[]]]]; lra.
Qed.
(** Two simulations of one problem, by exact integrators, that differ. *)
Theorem C84_root_refuted : exists acts s b P t pn ode t0 ts d d' names col col' tau v v',
  ode_problem acts s b P t pn ode /\ recorded_run s b t pn ode t0 ts d names 0%R /\ recorded_run s b t pn ode t0 ts d' names 0%R /\
  column d t (LName (header names "x_M")) = Some col /\ column d' t (LName (header names "x_M")) = Some col' /\
  nth_error ts 2 = Some tau /\ nth_error col 2 = Some v /\ nth_error col' 2 = Some v' /\ (v' = v + tau * tau)%R /\ (tau = 2)%R.
Proof.
  assert (R1 := tank_recorded keep_empty (fun _ => [0%R])). assert (R2 := tank_recorded fill_up (fun tk => [(tk - hd 0%R even_times) * (tk - hd 0%R even_times)]%R)).
  exists tank, (final tank), (the_block tank), (program_says tank), "t_M", print_one, tank_ode, (hd 0%R even_times), even_times,
    (tank_table (map (fun _ => [0%R]) even_times)), (tank_table (map (fun tk => [(tk - hd 0%R even_times) * (tk - hd 0%R even_times)]%R) even_times)), [].
  eexists _, _, _, _, _. split; [exact tank_problem|].
  split; [apply R1; [intros f; unfold keep_empty; now rewrite tank_allowed|exact (keep_empty_solves _ tank_rhs)]|].
  split; [apply R2; [intros f; unfold fill_up; now rewrite tank_allowed|exact (fill_up_solves _ tank_rhs)]|].
  split; [reflexivity|]. split; [reflexivity|]. split; [reflexivity|]. split; [reflexivity|]. split; [reflexivity|]. cbn. split; field.
Qed.
Print Assumptions C84_root_refuted.
