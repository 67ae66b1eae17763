(** C100: a simulation can be continued from where it stopped. *)
From Verif Require Import Base BaseFacts Num UnitModel Sympy Node Build EquationModel ModelModel ProblemModel SpecUnits SpecExpr SpecModel SpecInc SpecCall SpecProblem
  ProblemFacts SessionFacts SpecLink SolverModel DomainModel SpecSolver SolverFacts SpecSymbols OdeFacts DaeFacts SpecWritten SpecExact SpecOwn SpecSession StudyFacts
  SpecSaid SaidFacts SpecCompose ComposeFacts SpecInit InitFacts SimModel RunModel SpecRun RunFacts WholeModel SpecWhole WholeFacts SpecUnique TameFacts UniqueFacts SpecSimulated
  DaeRunFacts SpecUniqueDae UniqueDaeFacts DaeAgreeFacts SpecMatrix MatrixFacts SpecNearly NearlyFacts SpecShift ShiftFacts SpecConserve ConserveFacts SpecSymmetry SymmetryFacts SpecDepend DependFacts SpecDependDae DependDaeFacts SpecResume ResumeFacts
  Demo Properties07Problems Properties08Solvers Properties16Written Properties19Sessions Properties22Links Properties24Said Properties25Matrix Properties29Run Properties30Dae Properties32Compose Properties33Whole
  Properties34Unique Properties37Simulations Properties38Algebraic Properties41Nearly Properties44Depend Properties45DependDae Properties59Shift Properties62Conserve Properties63Symmetry.
From Verif Require SpecSim.
From Coq Require Import Reals Lra Lia.
Notation num := Verif.Num.num.

(** Two functions that obey the same equations, the second on a clock set back by [h] and
    started with what the first has at [sigma], up to [eta]: they go the same way, up to what
    becomes of [eta] in the time since. *)
Theorem C100_solutions : (forall h (here here' : env -> Prop) L eta (P P' : written -> Prop) t names sol sol' t0 ts t0' ts' sigma, 0 <= L -> 0 <= eta ->
  carries (set_back h) P P' t names names -> ~ In t names -> rates_near here' L 0 P' P' t names ->
  obeys_all P t names t0 ts sol -> obeys_all P' t names t0' ts' sol' -> during t0 ts sigma -> t0' = sigma - h ->
  (forall s en, during t0 ts s -> at_moment t names sol s en -> here en) -> (forall en en', here en -> related (set_back h) t names names en en' -> here' en') ->
  (forall s en, during t0' ts' s -> at_moment t names sol' s en -> here' en) ->
  (forall x, In x names -> Rabs (sol x sigma - sol' x t0') <= eta) ->
  forall tau, during t0 ts tau -> during t0' ts' (tau - h) -> forall x, In x names ->
  Rabs (sol x tau - sol' x (tau - h)) <= drift (List.length names) L eta 0 (Rabs (tau - sigma)))%R.
Proof. exact solutions_go_on. Qed.
Print Assumptions C100_solutions.
Theorem C100_dae_solutions : (forall h (here here' : env -> Prop) L Lz eta (P P' : written -> Prop) t names moves zs sol sol' t0 ts t0' ts' sigma, 0 <= L -> 0 <= Lz -> 0 <= eta ->
  carries (set_back h) P P' t names moves -> ~ In t names -> (forall x, In x names <-> In x moves \/ In x zs) ->
  given_near here' Lz 0 P' P' t moves zs -> changes_near here' L 0 P' P' t moves zs ->
  dae_obeys_all P t names moves t0 ts sol -> dae_obeys_all P' t names moves t0' ts' sol' -> during t0 ts sigma -> t0' = sigma - h ->
  (forall s en, during t0 ts s -> dae_moment t names moves sol s en -> here en) -> (forall en en', here en -> related (set_back h) t names moves en en' -> here' en') ->
  (forall s en, during t0' ts' s -> dae_moment t names moves sol' s en -> here' en) ->
  (forall x, In x moves -> Rabs (sol x sigma - sol' x t0') <= eta) ->
  forall tau, during t0 ts tau -> during t0' ts' (tau - h) -> forall x, In x names ->
  Rabs (sol x tau - sol' x (tau - h)) <= spread (List.length moves) Lz 0 (drift (List.length moves) (total_slope L Lz (List.length zs)) eta (total_shift L 0 0 (List.length zs)) (Rabs (tau - sigma))))%R.
Proof. exact dae_solutions_go_on. Qed.
Print Assumptions C100_dae_solutions.

(** Recorded runs and whole simulations: the second program gives its variables the values of
    some row of the first table.  From there on, and before, both tables say the same
    wherever they have rows for one time, up to the errors of both integrators and what
    becomes of the error with which the second run was started. *)
Theorem C100_runs_partial : (forall h (here here' : env -> Prop) L eta acts s b P t pn ode acts' s' b' P' pn' ode' t0 ts d hd eps t0' ts' d' hd' eps' k sigma, 0 <= L -> 0 <= eps + eta ->
  ode_problem acts s b P t pn ode -> ode_problem acts' s' b' P' t pn' ode' -> (forall x, In x (map fst ode) <-> In x (map fst ode')) ->
  carries (set_back h) P P' t (map fst ode) (map fst ode) -> rates_near here' L 0 P' P' t (map fst ode) ->
  confined here acts P t (map fst ode) t0 ts -> (forall en en', here en -> related (set_back h) t (map fst ode) (map fst ode) en en' -> here' en') ->
  confined here' acts' P' t (map fst ode) t0' ts' ->
  recorded_run s b t pn ode t0 ts d hd eps -> recorded_run s' b' t pn' ode' t0' ts' d' hd' eps' ->
  row_says d t hd k t sigma -> takes_up eta acts' (map fst ode) d t hd k -> t0' = sigma - h ->
  goes_on h (fun tau => eps + eps' + drift (List.length ode) L (eps + eta) 0 (Rabs (tau - sigma))) t (map fst ode) d hd d' hd')%R.
Proof. exact runs_go_on. Qed.
Print Assumptions C100_runs_partial.
Theorem C100_simulations_partial : (forall h (here here' : env -> Prop) L eta acts s b P t pn ode lib arrays ps hp st doms sm sanity st1 doms1 ts rows o names eps t0
    acts' s' b' P' pn' ode' lib' arrays' ps' hp' st' doms' sm' sanity' st1' doms1' ts' rows' o' names' eps' t0' d k sigma, 0 <= L -> 0 <= eps + eta ->
  ode_problem acts s b P t pn ode -> ode_problem acts' s' b' P' t pn' ode' -> (forall x, In x (map fst ode) <-> In x (map fst ode')) ->
  carries (set_back h) P P' t (map fst ode) (map fst ode) -> rates_near here' L 0 P' P' t (map fst ode) ->
  confined here acts P t (map fst ode) (t0 ts) ts -> (forall en en', here en -> related (set_back h) t (map fst ode) (map fst ode) en en' -> here' en') ->
  confined here' acts' P' t (map fst ode) (t0' ts') ts' ->
  simulates s b t pn ode lib doms sm o names eps t0 -> simulates s' b' t pn' ode' lib' doms' sm' o' names' eps' t0' ->
  whole_run lib arrays pn ps hp st doms sm sanity = (st1, doms1, Ok (WRun ts rows)) ->
  whole_run lib' arrays' pn' ps' hp' st' doms' sm' sanity' = (st1', doms1', Ok (WRun ts' rows')) ->
  nth_error doms1 o = Some d -> row_says d t names k t sigma -> takes_up eta acts' (map fst ode) d t names k -> t0' ts' = sigma - h ->
  exists d', nth_error doms1' o' = Some d' /\
    goes_on h (fun tau => eps + eps' + drift (List.length ode) L (eps + eta) 0 (Rabs (tau - sigma))) t (map fst ode) d names d' names')%R.
Proof. exact simulations_go_on. Qed.
Print Assumptions C100_simulations_partial.
Theorem C100_dae_simulations_partial : (forall h (here here' : env -> Prop) L Lz eta acts s b P t pn dae lib arrays ps hp st doms sm sanity st1 doms1 out o names eps t0 e n
    acts' s' b' P' pn' dae' lib' arrays' ps' hp' st' doms' sm' sanity' st1' doms1' out' o' names' eps' t0' e' n' zs d k sigma, 0 <= L -> 0 <= Lz -> 0 <= eps + eta ->
  dae_problem acts s b P t pn dae -> dae_problem acts' s' b' P' t pn' dae' ->
  (forall x, In x (dnames dae) <-> In x (dnames dae')) -> (forall x, In x (b_varlist b) <-> In x (b_varlist b')) ->
  (forall x, In x (b_varlist b) <-> In x (dnames dae) \/ In x zs) ->
  carries (set_back h) P P' t (b_varlist b) (dnames dae) -> given_near here' Lz 0 P' P' t (dnames dae) zs -> changes_near here' L 0 P' P' t (dnames dae) zs ->
  (forall times, even_points times t0 e n -> dae_confined here acts P t (b_varlist b) (dnames dae) t0 times) ->
  (forall en en', here en -> related (set_back h) t (b_varlist b) (dnames dae) en en' -> here' en') ->
  (forall times, even_points times t0' e' n' -> dae_confined here' acts' P' t (b_varlist b) (dnames dae) t0' times) ->
  dae_simulates s b t pn lib doms sm o names eps t0 e n -> dae_simulates s' b' t pn' lib' doms' sm' o' names' eps' t0' e' n' ->
  whole_run lib arrays pn ps hp st doms sm sanity = (st1, doms1, Ok out) ->
  whole_run lib' arrays' pn' ps' hp' st' doms' sm' sanity' = (st1', doms1', Ok out') ->
  nth_error doms1 o = Some d -> row_says d t names k t sigma -> takes_up eta acts' (dnames dae) d t names k -> t0' = sigma - h ->
  exists d', nth_error doms1' o' = Some d' /\
    goes_on h (fun tau => eps + eps' + spread (List.length dae) Lz 0 (drift (List.length dae) (total_slope L Lz (List.length zs)) (eps + eta)
      (total_shift L 0 0 (List.length zs)) (Rabs (tau - sigma)))) t (b_varlist b) d names d' names')%R.
Proof. exact dae_simulations_go_on. Qed.
Print Assumptions C100_dae_simulations_partial.

(** ** Cases *)
(** The problem fall of C79, simulated up to time 3, and continued from the row for time 2. *)
Definition fall_on : list act := firstn 10 fall ++ [AInit [("x_M", PInt 8); ("y_M", PInt 13); ("t_M", PInt 7)]].
Lemma on_block : the_block fall_on = the_block fall.
Proof. vm_compute. reflexivity. Qed.
Lemma on_explicit : Forall2 (explicit "t_M") (b_diff (the_block fall_on)) fall_ode.
Proof. rewrite on_block. exact fall_explicit. Qed.
Lemma on_unknowns : ode_unknowns "t_M" fall_ode (b_varlist (the_block fall_on)).
Proof. rewrite on_block. exact fall_unknowns. Qed.
Lemma on_one_kind : b_eqs (the_block fall_on) = b_diff (the_block fall_on).
Proof. rewrite on_block. exact fall_one_kind. Qed.
Definition on_init : dict num := pr_init (snd (final fall_on)).
Definition on_solver : dsolver :=
  match dsolver_init (the_block fall_on) on_init (TNames ["t_M"]) true with Ok ds => ds | Raise _ => mkDS [] [] None end.
Lemma on_made : dsolver_init (the_block fall_on) on_init (TNames ["t_M"]) true = Ok on_solver.
Proof. unfold on_solver. destruct (ok_solver (the_block fall_on) on_init (TNames ["t_M"]) true) as (s & Es); [vm_compute; reflexivity|]. rewrite Es. reflexivity. Qed.
Lemma on_all_rates tn k ds : dsolver_init (the_block fall_on) (pr_init (snd (final fall_on))) tn k = Ok ds -> fall_system (rates print_one (snd (final fall_on)) (the_block fall_on) ds).
Proof.
  intros Hd x y tau. set (en := mkEnv (fun z => if String.eqb z "t_M" then tau else nth (if String.eqb z "x_M" then 0 else 1) [x; y] 0%R) (fun _ _ => 0%R)).
  unfold rates.
  rewrite (ode_rhs "t_M" print_one (snd (final fall_on)) (the_block fall_on) on_init tn k ds fall_ode [x; y] tau en);
    [reflexivity|exact print_one_ok|reflexivity|reflexivity|vm_compute; reflexivity|exact on_explicit|exact fall_closed|
     intros _; split; [exact on_one_kind|exact on_unknowns]|discriminate|exact Hd|].
  split; [reflexivity|]. split; [|reflexivity]. intros [|[|j]] z r H; cbn in H; try (injection H as <- <-; reflexivity). destruct j; discriminate.
Qed.
Lemma on_starts : initial_state no_print on_solver (pr_init (snd (final fall_on))) = Ok [PInt 8; PInt 13].
Proof. vm_compute. reflexivity. Qed.
Lemma on_by_odeint o l : oo_solver o = Some "ODEINT" -> time_points o = Ok l ->
  ode_solve fall_odeint fall_cvode print_one no_print (snd (final fall_on)) (the_block fall_on) on_solver o fall_domain =
    (fall_table (oo_names o) l (map (fall_curve (hd 0%R l) 8 13) l), Ok (l, map (fall_curve (hd 0%R l) 8 13) l)).
Proof.
  intros Es Et. unfold ode_solve. rewrite on_starts. cbn [rbind]. rewrite Et. cbn [rbind].
  assert (M : map_res real_of [PInt 8; PInt 13] = Ok [8; 13]%R) by reflexivity. rewrite M. cbn [rbind].
  assert (J : forall f, integrate fall_odeint fall_cvode o f [8; 13]%R l = Ok (l, map (fall_curve (hd 0%R l) 8 13) l))
    by (intros f; unfold integrate; rewrite Es; reflexivity).
  rewrite J. cbn [rbind List.length]. rewrite fall_recorded. reflexivity.
Qed.
Lemma on_problem : ode_problem fall_on (final fall_on) (the_block fall_on) (program_says fall_on) "t_M" print_one fall_ode.
Proof.
  assert (H : dictionaries fall_on).
  { intros c H. repeat (destruct H as [H|H]; [first [discriminate H|injection H as <-]|]); [|destruct H]; repeat (constructor; [cbn; intuition discriminate|]); constructor. }
  assert (I : times_by fall_on ["t_M"]) by (exists (firstn 9 fall_on), (skipn 10 fall_on); split; [reflexivity|]; intros n [Q|[]]; discriminate Q).
  split. { apply su_plain; [apply run_resolved; vm_compute; reflexivity|apply runs_all; vm_compute; reflexivity|apply (one_distinct fall_on "M"); vm_compute; reflexivity
    |apply readable_by; vm_compute; reflexivity|vm_compute; reflexivity|apply origins_by; vm_compute; reflexivity|apply known_by; vm_compute; reflexivity]. }
  split; [exact H|]. split; [exact print_one_ok|].
  do 2 (split; [reflexivity|]). split; [exact I|]. split; [exact on_explicit|]. split; [exact fall_closed|]. split; [exact on_one_kind|].
  split; [exact on_unknowns|discriminate].
Qed.
Definition long_run : ode_options := mkOO (Some "CVODE") 0%R (Some 3%R) (Some 2%Z) (Some [0; 2; 3]%R) [("x_M", "speed")].
Definition long_times : list R := [0; 2; 3]%R.
Notation long_table := (fall_table (oo_names long_run) long_times (map (fall_curve 0 2 5) long_times)).
Lemma long_recorded : recorded_run (final fall) (the_block fall) "t_M" print_one fall_ode 0%R long_times long_table (oo_names long_run) 0%R.
Proof.
  refine (rr_cvode (final fall) (the_block fall) "t_M" print_one fall_ode no_print (TNames ["t_M"]) true fall_solver fall_odeint fall_cvode 0%R long_run fall_domain
    long_table long_times (map (fall_curve 0 2 5) long_times) fall_made fall_cleared eq_refl eq_refl _ eq_refl (fall_cvode_solves _ fall_rhs) _).
  - repeat constructor; cbn; intuition discriminate.
  - apply fall_by_cvode with (e := 3%R); reflexivity.
Qed.
Definition on_run : ode_options := mkOO (Some "ODEINT") 2%R (Some 3%R) (Some 1%Z) (Some [2; 3]%R) [("y_M", "height")].
Definition on_times : list R := [2; 3]%R.
Notation on_table := (fall_table (oo_names on_run) on_times (map (fall_curve 2 8 13) on_times)).
Lemma on_recorded : recorded_run (final fall_on) (the_block fall_on) "t_M" print_one fall_ode 2%R on_times on_table (oo_names on_run) 0%R.
Proof.
  refine (rr_odeint (final fall_on) (the_block fall_on) "t_M" print_one fall_ode no_print (TNames ["t_M"]) true on_solver fall_odeint fall_cvode 0%R on_run fall_domain
    on_table on_times (map (fall_curve 2 8 13) on_times) on_made fall_cleared eq_refl eq_refl _ (or_intror eq_refl) (fall_odeint_solves _ (on_all_rates _ _ _ on_made)) _).
  - repeat constructor; cbn; intuition discriminate.
  - apply (on_by_odeint on_run on_times); reflexivity.
Qed.
Lemma on_carried : carries (set_back 0) (program_says fall) (program_says fall_on) "t_M" (map fst fall_ode) (map fst fall_ode).
Proof.
  split; [cbn; lra|]. intros en en' H (T & V & D). assert (X := fall_rate en H). assert (Y := fall_rate_y en H).
  assert (Vx := V "x_M" (or_introl eq_refl)). assert (Dx := D "x_M" (or_introl eq_refl)). assert (Dy := D "y_M" (or_intror (or_introl eq_refl))).
  unfold image, moment_image in *. cbn [set_back ch_mul ch_add ch_rate ch_shift] in *.
  apply (all_said _ _ _ _ [SSub (SDer "x_M" "t_M") (SMul (SSym "t_M") (SNum (PInt 3))); SSub (SDer "y_M" "t_M") (SSym "x_M")] (proj1 on_problem)); [vm_compute; reflexivity|].
  intros r [<-|[<-|[]]]; cbn; f_equal; lra.
Qed.
Lemma on_near : rates_near anywhere 1 0 (program_says fall_on) (program_says fall_on) "t_M" (map fst fall_ode).
Proof.
  intros x [<-|[<-|[]]].
  - destruct (system_rates _ _ _ _ _ _ _ "x_M" (SMul (SSym "t_M") (SNum (PInt 3))) on_problem (or_introl eq_refl)) as (g & G & E).
    exists g, g. do 2 (split; [assumption|]). intros en en' _ _ T u v Hu Hv. rewrite E in Hu, Hv. injection Hu as <-. injection Hv as <-. rewrite <- T.
    assert (Q := gap_nonneg (map fst fall_ode) en en'). rewrite Rminus_eq_0, Rabs_R0. lra.
  - destruct (system_rates _ _ _ _ _ _ _ "y_M" (SSym "x_M") on_problem (or_intror (or_introl eq_refl))) as (g & G & E).
    exists g, g. do 2 (split; [assumption|]). intros en en' _ _ T u v Hu Hv. rewrite E in Hu, Hv.
    injection Hu as <-. injection Hv as <-. unfold gap. cbn [map fst fall_ode fold_right]. assert (Q := Rabs_pos (e_sym en "y_M" - e_sym en' "y_M")). lra.
Qed.
Lemma long_row : row_says long_table "t_M" (oo_names long_run) 1 "t_M" 2%R.
Proof. eexists. split; reflexivity. Qed.
Lemma on_taken_up : takes_up 0 fall_on (map fst fall_ode) long_table "t_M" (oo_names long_run) 1.
Proof.
  intros x j w v Hx J W (col & Hc & N). apply (init_exact fall_on (proj1 (proj2 on_problem))) in J.
  assert (I : pr_init (snd (run_acts start_session fall_on)) = [("x_M", PInt 8); ("y_M", PInt 13); ("t_M", PInt 7)]) by (vm_compute; reflexivity).
  rewrite I in J. destruct Hx as [<-|[<-|[]]]; cbn in J; injection J as <-; injection W as <-.
  - assert (E : DomainModel.column long_table "t_M" (DomainModel.LName (header (oo_names long_run) "x_M")) = Some (map (fun s => nth 0 (fall_curve 0 2 5 s) 0%R) long_times)) by reflexivity.
    assert (Q := eq_trans (eq_sym E) Hc). injection Q as <-. injection N as <-. unfold fall_curve. cbn [nth]. match goal with |- (Rabs ?z <= 0)%R => replace z with 0%R by field end. rewrite Rabs_R0. lra.
  - assert (E : DomainModel.column long_table "t_M" (DomainModel.LName (header (oo_names long_run) "y_M")) = Some (map (fun s => nth 1 (fall_curve 0 2 5 s) 0%R) long_times)) by reflexivity.
    assert (Q := eq_trans (eq_sym E) Hc). injection Q as <-. injection N as <-. unfold fall_curve. cbn [nth]. match goal with |- (Rabs ?z <= 0)%R => replace z with 0%R by field end. rewrite Rabs_R0. lra.
Qed.
Lemma confined_anywhere acts P t vars t0 ts : confined anywhere acts P t vars t0 ts.
Proof. intros sol _ _ tau en _ _. exact I. Qed.
(** Both tables have a row for time 3. *)
Example C100_runs_case :
  ode_problem fall (final fall) (the_block fall) (program_says fall) "t_M" print_one fall_ode /\
  ode_problem fall_on (final fall_on) (the_block fall_on) (program_says fall_on) "t_M" print_one fall_ode /\
  carries (set_back 0) (program_says fall) (program_says fall_on) "t_M" (map fst fall_ode) (map fst fall_ode) /\
  rates_near anywhere 1 0 (program_says fall_on) (program_says fall_on) "t_M" (map fst fall_ode) /\
  confined anywhere fall (program_says fall) "t_M" (map fst fall_ode) 0%R long_times /\ confined anywhere fall_on (program_says fall_on) "t_M" (map fst fall_ode) 2%R on_times /\
  recorded_run (final fall) (the_block fall) "t_M" print_one fall_ode 0%R long_times long_table [("x_M", "speed")] 0%R /\
  recorded_run (final fall_on) (the_block fall_on) "t_M" print_one fall_ode 2%R on_times on_table [("y_M", "height")] 0%R /\
  row_says long_table "t_M" [("x_M", "speed")] 1 "t_M" 2%R /\ takes_up 0 fall_on (map fst fall_ode) long_table "t_M" [("x_M", "speed")] 1 /\ 2%R = (2 - 0)%R /\
  row_says long_table "t_M" [("x_M", "speed")] 2 "t_M" 3%R /\ row_says on_table "t_M" [("y_M", "height")] 1 "t_M" (3 - 0)%R.
Proof.
  split; [exact fall_problem|]. split; [exact on_problem|]. split; [exact on_carried|]. split; [exact on_near|]. do 2 (split; [apply confined_anywhere|]).
  split; [exact long_recorded|]. split; [exact on_recorded|]. split; [exact long_row|]. split; [exact on_taken_up|]. split; [lra|].
  split; [eexists; split; reflexivity|]. rewrite Rminus_0_r. eexists. split; reflexivity.
Qed.

(** CVODE is not told the initial time (C79), so what depends on the time does not go on:
    the same continuation by CVODE. *)
Definition on_cvode_run : ode_options := mkOO (Some "CVODE") 2%R (Some 3%R) (Some 1%Z) (Some [2; 3]%R) [("y_M", "height")].
Lemma on_by_cvode o l e : oo_solver o = Some "CVODE" -> oo_end o = Some e -> time_points o = Ok l ->
  ode_solve fall_odeint fall_cvode print_one no_print (snd (final fall_on)) (the_block fall_on) on_solver o fall_domain =
    (fall_table (oo_names o) l (map (fall_curve 0 8 13) l), Ok (l, map (fall_curve 0 8 13) l)).
Proof.
  intros Es Ee Et. unfold ode_solve. rewrite on_starts. cbn [rbind]. rewrite Et. cbn [rbind].
  assert (M : map_res real_of [PInt 8; PInt 13] = Ok [8; 13]%R) by reflexivity. rewrite M. cbn [rbind].
  assert (J : forall f, integrate fall_odeint fall_cvode o f [8; 13]%R l = Ok (l, map (fall_curve 0%R 8 13) l))
    by (intros f; unfold integrate; rewrite Es, Ee; reflexivity).
  rewrite J. cbn [rbind List.length]. rewrite fall_recorded. reflexivity.
Qed.
Notation lost_table := (fall_table (oo_names on_cvode_run) on_times (map (fall_curve 0 8 13) on_times)).
Lemma lost : ~ goes_on 0 (fun _ => 1%R) "t_M" (map fst fall_ode) long_table (oo_names long_run) lost_table (oo_names on_cvode_run).
Proof.
  intros H. assert (A : row_says long_table "t_M" (oo_names long_run) 2 "t_M" 3%R) by (eexists; split; reflexivity).
  assert (B : row_says lost_table "t_M" (oo_names on_cvode_run) 1 "t_M" (3 - 0)%R) by (rewrite Rminus_0_r; eexists; split; reflexivity).
  destruct (H 2%nat 1%nat 3%R A B "x_M" (or_introl eq_refl)) as (v & v' & (col & Hc & N) & (col' & Hc' & N') & G). clear H A B.
  assert (E : DomainModel.column long_table "t_M" (DomainModel.LName (header (oo_names long_run) "x_M")) = Some (map (fun s => nth 0 (fall_curve 0 2 5 s) 0%R) long_times)) by reflexivity.
  assert (E' : DomainModel.column lost_table "t_M" (DomainModel.LName (header (oo_names on_cvode_run) "x_M")) = Some (map (fun s => nth 0 (fall_curve 0 8 13 s) 0%R) on_times)) by reflexivity.
  assert (Q := eq_trans (eq_sym E) Hc). injection Q as <-. injection N as <-. assert (Q := eq_trans (eq_sym E') Hc'). injection Q as <-. injection N' as <-.
  unfold fall_curve in G. cbn [nth] in G. match type of G with (Rabs ?z <= 1)%R => replace z with 6%R in G by field end. rewrite Rabs_pos_eq in G; lra.
Qed.
Theorem C100_cvode_refuted : exists acts s b P acts' s' b' P' t pn ode ts d hd ps ds odeint cvode o d0 d' out k,
  ode_problem acts s b P t pn ode /\ ode_problem acts' s' b' P' t pn ode /\ carries (set_back 0) P P' t (map fst ode) (map fst ode) /\
  recorded_run s b t pn ode 0%R ts d hd 0%R /\ dsolver_init b' (pr_init (snd s')) (TNames [t]) true = Ok ds /\ cvode_solves cvode (rates pn (snd s') b' ds) 0%R /\
  oo_solver o = Some "CVODE" /\ row_says d t hd k t (oo_initial o) /\ takes_up 0 acts' (map fst ode) d t hd k /\
  ode_solve odeint cvode pn ps (snd s') b' ds o d0 = (d', Ok out) /\ ~ goes_on 0 (fun _ => 1%R) t (map fst ode) d hd d' (oo_names o).
Proof.
  exists fall, (final fall), (the_block fall), (program_says fall), fall_on, (final fall_on), (the_block fall_on), (program_says fall_on), "t_M", print_one, fall_ode, long_times,
    long_table, (oo_names long_run), no_print, on_solver, fall_odeint, fall_cvode, on_cvode_run, fall_domain, lost_table, (on_times, map (fall_curve 0 8 13) on_times), 1%nat.
  split; [exact fall_problem|]. split; [exact on_problem|]. split; [exact on_carried|]. split; [exact long_recorded|]. split; [exact on_made|].
  split; [exact (fall_cvode_solves _ (on_all_rates _ _ _ on_made))|]. split; [reflexivity|]. split; [exact long_row|]. split; [exact on_taken_up|].
  split; [apply (on_by_cvode on_cvode_run on_times 3%R); reflexivity|exact lost].
Qed.
Print Assumptions C100_cvode_refuted.

(** dx/dt == z, z == 3*x does not depend on the clock: the second simulation, started at time 1
    with 2 for x, goes on from the row of the first for time 2, where x is exp(3). *)
Lemma growth_clock h : carries (set_back h) (program_says growth) (program_says growth_double) "t_M" (b_varlist (the_block growth)) (dnames the_dae).
Proof.
  split; [cbn; lra|]. intros en en' H (T & V & D). assert (X := growth_rate en H). assert (Z := growth_second en H). rewrite growth_names in V.
  assert (Vx := V "x_M" (or_introl eq_refl)). assert (Vz := V "z_M" (or_intror (or_introl eq_refl))). assert (Dx := D "x_M" (or_introl eq_refl)).
  unfold image in *. cbn [set_back ch_mul ch_add ch_rate] in *.
  apply (all_said _ _ _ _ growth_equations (proj1 double_problem)); [vm_compute; reflexivity|]. intros r [<-|[<-|[]]]; cbn; f_equal; lra.
Qed.

Lemma double_turn : given_in_turn anywhere (program_says growth_double) (program_says growth_double) "t_M" ["x_M"] ["z_M"] (Rmax 0 (3 * (1 + INR 0 * 0))) (Rmax 0 (3 * (INR 0 * 0) + 0)).
Proof.
  apply (turn_next _ _ _ _ _ _ _ _ _ _ _ (den threefold) (den threefold) (turn_none _ _ _ _ _)); [lra|lra| | |].
  - apply (second_equation _ _ _ _ (proj1 double_problem)). vm_compute. reflexivity.
  - apply (second_equation _ _ _ _ (proj1 double_problem)). vm_compute. reflexivity.
  - intros en en' _ _ _ a b E E'. injection E as <-. injection E' as <-. unfold gap. cbn [app fold_right].
    replace (e_sym en "x_M" * 3 - e_sym en' "x_M" * 3)%R with (3 * (e_sym en "x_M" - e_sym en' "x_M"))%R by ring. rewrite Rabs_mult, (Rabs_pos_eq 3) by lra. lra.
Qed.
Lemma double_binds : given_near anywhere 3 0 (program_says growth_double) (program_says growth_double) "t_M" (dnames the_dae) ["z_M"].
Proof.
  destruct (C89_in_turn _ _ _ _ _ _ _ _ double_turn) as (_ & _ & G). cbn [INR] in G.
  replace (3 * (1 + 0 * 0))%R with 3%R in G by ring. replace (3 * (0 * 0) + 0)%R with 0%R in G by ring. rewrite Rmax_right in G by lra. rewrite Rmax_left in G by lra. exact G.
Qed.
Lemma double_changes : changes_near anywhere 1 0 (program_says growth_double) (program_says growth_double) "t_M" (dnames the_dae) ["z_M"].
Proof.
  intros x [<-|[]].
  exists (den (SSym "z_M")), (den (SSym "z_M")). do 2 (split; [exact (dae_change _ _ _ _ _ _ _ _ _ double_problem (or_introl eq_refl))|]).
  intros en en' _ _ _ a b Ha Hb. injection Ha as <-. injection Hb as <-.
  unfold gap. cbn [app fold_right dnames map fst the_dae]. match goal with |- (_ <= 1 * (Rabs ?a + _) + _)%R => assert (Q := Rabs_pos a) end. lra.
Qed.
Notation growth_rows := (growth_table [("z_M", "rate")] growth_points (map (growth_curve 1 1) growth_points)).
(** The programs, their simulations and their runs are in [C89_dae_simulations_case]. *)
Example C100_dae_simulations_case :
  carries (set_back 1) (program_says growth) (program_says growth_double) "t_M" (b_varlist (the_block growth)) (dnames the_dae) /\
  given_near anywhere 3 0 (program_says growth_double) (program_says growth_double) "t_M" (dnames the_dae) ["z_M"] /\
  changes_near anywhere 1 0 (program_says growth_double) (program_says growth_double) "t_M" (dnames the_dae) ["z_M"] /\
  row_says growth_rows "t_M" [("z_M", "rate")] 1 "t_M" (1 + 1 * ((3 - 1) / 2))%R /\
  takes_up (Rabs (2 - 1 * exp (3 * (1 + 1 * ((3 - 1) / 2) - 1)))) growth_double (dnames the_dae) growth_rows "t_M" [("z_M", "rate")] 1 /\
  1%R = (1 + 1 * ((3 - 1) / 2) - 1)%R.
Proof.
  split; [exact (growth_clock 1)|]. split; [exact double_binds|]. split; [exact double_changes|]. split; [eexists; split; reflexivity|]. split; [|lra].
  intros x j w v [<-|[]] J W (col & Hc & N). apply (init_exact growth_double (proj1 (proj2 double_problem))) in J.
  assert (I : dget "x_M" (pr_init (snd (run_acts start_session growth_double))) = Some (PInt 2)) by (vm_compute; reflexivity).
  cbn [fst snd] in J. rewrite I in J. injection J as <-. injection W as <-.
  assert (E : DomainModel.column growth_rows "t_M" (DomainModel.LName (header [("z_M", "rate")] "x_M")) = Some (map (fun s => nth 0 (growth_curve 1 1 s) 0%R) growth_points)) by reflexivity.
  assert (Q := eq_trans (eq_sym E) Hc). injection Q as <-. injection N as <-. right. reflexivity.
Qed.

(** dx/dt == x: exp(t), and what starts at time 0 with the value exp(1) of the first at 1. *)
Example C100_solutions_case : carries (set_back 1) growing growing "t_M" ["x_M"] ["x_M"] /\ rates_near anywhere 1 0 growing growing "t_M" ["x_M"] /\
  obeys_all growing "t_M" ["x_M"] 0%R [3]%R (fun _ s => 1 * exp s)%R /\ obeys_all growing "t_M" ["x_M"] 0%R [2]%R (fun _ s => exp 1 * exp s)%R /\
  during 0%R [3%R] 1%R /\ 0%R = (1 - 1)%R /\ (Rabs (1 * exp 1 - exp 1 * exp 0) <= 0)%R.
Proof.
  split; [split; [cbn; lra|]|split; [|split; [apply growing_obeys|split; [apply growing_obeys|split; [|split]]]]].
  - intros en en' H (T & V & D) w ->. assert (W := H _ eq_refl). cbn in W. assert (Vx := V "x_M" (or_introl eq_refl)). assert (Dx := D "x_M" (or_introl eq_refl)).
    unfold image in *. cbn [set_back ch_mul ch_add ch_rate] in *. cbn. injection W as W. f_equal. lra.
  - intros x [<-|[]]. exists (fun en => Some (e_sym en "x_M")), (fun en => Some (e_sym en "x_M")).
    assert (Rs : rate_said growing "x_M" "t_M" (fun en => Some (e_sym en "x_M"))) by (eapply rate_of_sides; reflexivity).
    do 2 (split; [exact Rs|]). intros en en' _ _ _ u v Hu Hv. injection Hu as <-. injection Hv as <-. unfold gap. cbn [fold_right]. lra.
  - exists 3%R. split; [now left|]. lra.
  - lra.
  - rewrite exp_0. replace (1 * exp 1 - exp 1 * 1)%R with 0%R by ring. rewrite Rabs_R0. lra.
Qed.
