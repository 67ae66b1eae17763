(** C79: a recorded trajectory solves the initial value problem that was written. *)
From Verif Require Import Base BaseFacts Num UnitModel Sympy Node Build EquationModel ModelModel ProblemModel SpecUnits SpecExpr SpecModel SpecInc SpecCall SpecProblem
  ProblemFacts SessionFacts SpecLink SolverModel DomainModel SpecSolver SolverFacts SpecSymbols OdeFacts DaeFacts SpecWritten SpecExact SpecOwn SpecSession StudyFacts
  SpecSaid SaidFacts SpecInit InitFacts RunModel SpecRun RunFacts Demo Properties07Problems Properties08Solvers Properties16Written Properties19Sessions Properties22Links Properties24Said.
From Coq Require Import Reals Lra.
Notation num := Verif.Num.num.

(** Full statement: what a dynamic simulation records are values, as exact as the
    integrator is, of functions that start with the initial values given last and of
    which all that the program says is true at every moment.  Missing: programs
    outside [C76_system_partial], systems outside [C31_rhs_partial], variables
    distributed in another order than that of the equations (C32), time points and
    states as floating-point numbers; CVODE from another time than 0 (refuted below). *)
Theorem C79_trajectory_partial : forall acts s b t pn ps tn compile ds ode odeint cvode eps o d d' ts rows,
  resolved acts s b -> all_ok start_session acts -> distinct_models acts -> readable_program acts ->
  forallb tidy_act acts = true -> plain_origins acts -> known_statements acts -> dictionaries acts ->
  prints_numbers pn -> one_word t = true -> str_contains "_" t = true -> times_by acts [t] ->
  Forall2 (explicit t) (b_diff b) ode -> closed_system t ode -> b_eqs b = b_diff b -> ode_unknowns t ode (b_varlist b) -> ode <> [] ->
  dsolver_init b (pr_init (snd s)) tn compile = Ok ds ->
  cleared d -> d_ind d = [t] -> d_dep d = map fst ode -> NoDup (map (header (oo_names o)) (d_ind d ++ d_dep d)) ->
  oo_solver o = None \/ oo_solver o = Some "ODEINT" -> odeint_solves odeint (rates pn (snd s) b ds) eps ->
  ode_solve odeint cvode pn ps (snd s) b ds o d = (d', Ok (ts, rows)) ->
  time_points o = Ok ts /\ (forall x, In x (map fst ode) <-> rated acts t x) /\
  exists sol, starts_right acts (map fst ode) (hd 0%R ts) sol /\ obeys acts t (map fst ode) (hd 0%R ts) ts sol /\
    recorded_as d' t (oo_names o) (map fst ode) ts sol eps.
Proof. exact odeint_run. Qed.
Print Assumptions C79_trajectory_partial.

(** With CVODE the functions have the given values at time 0. *)
Theorem C79_cvode_partial : forall acts s b t pn ps tn compile ds ode odeint cvode eps o d d' ts rows,
  resolved acts s b -> all_ok start_session acts -> distinct_models acts -> readable_program acts ->
  forallb tidy_act acts = true -> plain_origins acts -> known_statements acts -> dictionaries acts ->
  prints_numbers pn -> one_word t = true -> str_contains "_" t = true -> times_by acts [t] ->
  Forall2 (explicit t) (b_diff b) ode -> closed_system t ode -> b_eqs b = b_diff b -> ode_unknowns t ode (b_varlist b) -> ode <> [] ->
  dsolver_init b (pr_init (snd s)) tn compile = Ok ds ->
  cleared d -> d_ind d = [t] -> d_dep d = map fst ode -> NoDup (map (header (oo_names o)) (d_ind d ++ d_dep d)) ->
  oo_solver o = Some "CVODE" -> cvode_solves cvode (rates pn (snd s) b ds) eps ->
  ode_solve odeint cvode pn ps (snd s) b ds o d = (d', Ok (ts, rows)) ->
  exists sol, starts_right acts (map fst ode) 0%R sol /\ obeys acts t (map fst ode) 0%R ts sol /\
    recorded_as d' t (oo_names o) (map fst ode) ts sol eps.
Proof. exact cvode_run. Qed.
Print Assumptions C79_cvode_partial.

(** The time points: as many as steps and one, from the initial time to the end
    time, evenly spaced. *)
Theorem C79_time_points : forall o l n e, oo_times o = None -> oo_steps o = Some n -> oo_end o = Some e -> (0 < n)%Z -> time_points o = Ok l ->
  Z.of_nat (List.length l) = (n + 1)%Z /\ nth_error l 0 = Some (oo_initial o) /\ nth_error l (Z.to_nat n) = Some e /\
  forall i a c, nth_error l i = Some a -> nth_error l (S i) = Some c -> (c - a = (e - oo_initial o) / IZR n)%R.
Proof. exact points_even. Qed.
Print Assumptions C79_time_points.

(** Time points the user gives are used as they are. *)
Theorem C79_times_given : forall o l ts, oo_times o = Some l -> time_points o = Ok ts -> ts = l.
Proof. exact points_given. Qed.
Print Assumptions C79_times_given.

(** The right-hand side the integrator calls does not depend on earlier calls. *)
Theorem C79_calls : forall pn p b s Y t b' r Y' t', List.length Y = List.length Y' -> ode_interface pn p b s Y t = (b', r) ->
  rates pn p b' s Y' t' = rates pn p b s Y' t'.
Proof. exact rates_again. Qed.
Print Assumptions C79_calls.

(** ** A run *)
(** dx/dt == 3*t and dy/dt == x, declared in the order t, y, x; x and y start at 2
    and 5, the time is said to be 7. *)
Definition fall : list act :=
  [ANew "M" (mkDecls [] [] [] [CEq "e" "e" (UElem (UDiff "x" (Some "t")) (UNumL BMul (PInt 3) (UQty "t"))) true]);
   AStmt 0%nat (dvar "t"); AStmt 0%nat (dvar "y"); AStmt 0%nat (dvar "x");
   AStmt 0%nat (CDist "x"); AStmt 0%nat (CDist "y"); ACall 0%nat;
   AStmt 0%nat (CEq "f" "f" (UElem (UDiff "y" (Some "t")) (UQty "x")) true);
   AAdd 0%nat; ATime ["t_M"]; AInit [("x_M", PInt 1); ("y_M", PInt 5); ("t_M", PInt 7)]; AInit [("x_M", PInt 2)]].
Definition fall_ode : list (string * sx) := [("x_M", SMul (SSym "t_M") (SNum (PInt 3))); ("y_M", SSym "x_M")].
Definition fall_domain : domain R := run_dacts (new_domain ["t_M"]) [DDist "x_M"; DDist "y_M"].
(** The solution with values a and c at t0, and integrators that know it. *)
Definition fall_curve (t0 a c tau : R) : list R :=
  [a + 3 / 2 * (tau * tau - t0 * t0); c + (a - 3 / 2 * (t0 * t0)) * (tau - t0) + (tau * (tau * tau) - t0 * (t0 * t0)) / 2]%R.
Definition fall_odeint (f : rhs) (y0 times : list R) : res (list (list R)) :=
  match y0 with [a; c] => Ok (map (fall_curve (hd 0%R times) a c) times) | _ => Raise EValue end.
Definition fall_cvode (f : rhs) (y0 : list R) (t0 e : R) (times : list R) : res (list R * list (list R)) :=
  match y0 with [a; c] => Ok (times, map (fall_curve t0 a c) times) | _ => Raise EValue end.

Lemma cubic a b c d tau : derivable_pt_lim (fun s => a + b * s + c * (s * s) + d * (s * (s * s)))%R tau (b + 2 * c * tau + 3 * d * (tau * tau))%R.
Proof.
  assert (I := derivable_pt_lim_id tau). assert (I2 := derivable_pt_lim_mult _ _ _ _ _ I I). assert (I3 := derivable_pt_lim_mult _ _ _ _ _ I I2).
  assert (C := fun k => derivable_pt_lim_const k tau).
  assert (H := derivable_pt_lim_plus _ _ _ _ _ (derivable_pt_lim_plus _ _ _ _ _ (derivable_pt_lim_plus _ _ _ _ _ (C a)
    (derivable_pt_lim_mult _ _ _ _ _ (C b) I)) (derivable_pt_lim_mult _ _ _ _ _ (C c) I2)) (derivable_pt_lim_mult _ _ _ _ _ (C d) I3)).
  unfold plus_fct, mult_fct, fct_cte, id in H. match type of H with derivable_pt_lim _ _ ?v => replace (b + 2 * c * tau + 3 * d * (tau * tau))%R with v by ring end. exact H.
Qed.
Lemma lim_ext f g tau v w : (forall s, f s = g s) -> v = w -> derivable_pt_lim f tau v -> derivable_pt_lim g tau w.
Proof. intros E <- H e He. destruct (H e He) as (d & Hd). exists d. intros h H0 H1. rewrite <- !E. exact (Hd h H0 H1). Qed.

Lemma fall_explicit : Forall2 (explicit "t_M") (b_diff (the_block fall)) fall_ode.
Proof. apply OdeFacts.views_explicit. vm_compute. reflexivity. Qed.
Lemma fall_closed : closed_system "t_M" fall_ode.
Proof.
  split; [repeat constructor; cbn; intuition discriminate|]. split; [cbn; intuition discriminate|].
  intros x r [H|[H|[]]]; injection H as <- <-; (split; [intros z Hz; cbn in *; intuition congruence|split; [reflexivity|split; [|discriminate]]]);
    intros y Hy; cbn in Hy; repeat (destruct Hy as [<-|Hy]; [split; [intros H; first [reflexivity|discriminate H]|reflexivity]|]); destruct Hy.
Qed.
Lemma fall_unknowns : ode_unknowns "t_M" fall_ode (b_varlist (the_block fall)).
Proof.
  assert (E : b_varlist (the_block fall) = ["t_M"; "y_M"; "x_M"]) by (vm_compute; reflexivity). rewrite E.
  split; [repeat constructor; cbn; intuition discriminate|].
  assert (U : uses_time "t_M" fall_ode) by (exists "x_M", (SMul (SSym "t_M") (SNum (PInt 3))); split; [now left|now left]).
  intros x. cbn. intuition.
Qed.
Lemma fall_one_kind : b_eqs (the_block fall) = b_diff (the_block fall).
Proof. vm_compute. reflexivity. Qed.
Definition fall_init : dict num := pr_init (snd (final fall)).
Definition fall_solver : dsolver :=
  match dsolver_init (the_block fall) fall_init (TNames ["t_M"]) true with Ok ds => ds | Raise _ => mkDS [] [] None end.
Lemma fall_made : dsolver_init (the_block fall) fall_init (TNames ["t_M"]) true = Ok fall_solver.
Proof. unfold fall_solver. destruct (ok_solver (the_block fall) fall_init (TNames ["t_M"]) true) as (s & Es); [vm_compute; reflexivity|]. rewrite Es. reflexivity. Qed.
Notation fall_rates := (rates print_one (snd (final fall)) (the_block fall) fall_solver).

Definition fall_system (f : rhs) : Prop := forall x y tau, f [x; y] tau = Ok [Some (tau * 3)%R; Some x].
Lemma fall_rhs : fall_system fall_rates.
Proof.
  intros x y tau. set (en := mkEnv (fun z => if String.eqb z "t_M" then tau else nth (if String.eqb z "x_M" then 0 else 1) [x; y] 0%R) (fun _ _ => 0%R)).
  unfold rates.
  rewrite (ode_rhs "t_M" print_one (snd (final fall)) (the_block fall) fall_init (TNames ["t_M"]) true fall_solver fall_ode [x; y] tau en);
    [reflexivity|exact print_one_ok|reflexivity|reflexivity|vm_compute; reflexivity|exact fall_explicit|exact fall_closed|
     intros _; split; [exact fall_one_kind|exact fall_unknowns]|discriminate|exact fall_made|].
  split; [reflexivity|]. split; [|reflexivity]. intros [|[|j]] z r H; cbn in H; try (injection H as <- <-; reflexivity). destruct j; discriminate.
Qed.
Lemma fall_flow f t0 a c times : fall_system f -> integrated f [a; c] t0 times (map (fall_curve t0 a c) times) 0%R.
Proof.
  intros Hf. exists (fall_curve t0 a c). split; [unfold fall_curve; f_equal; [|f_equal]; field|]. split.
  - intros tau _. split; [reflexivity|]. eexists. split; [apply Hf|].
    intros [|[|j]] Hj; [| |cbn in Hj; lia]; (eexists; split; [reflexivity|]).
    + refine (lim_ext _ _ _ _ _ _ _ (cubic (a - 3 / 2 * (t0 * t0)) 0 (3 / 2) 0 tau)%R); [intros s; cbn; field|field].
    + refine (lim_ext _ _ _ _ _ _ _ (cubic (c - (a - 3 / 2 * (t0 * t0)) * t0 - t0 * (t0 * t0) / 2) (a - 3 / 2 * (t0 * t0)) 0 (1 / 2) tau)%R);
        [intros s; cbn; field|field].
  - induction times as [|tk times IH]; [constructor|]. cbn [map]. constructor; [|exact IH].
    unfold fall_curve. repeat (constructor; [rewrite Rminus_diag_eq, Rabs_R0 by reflexivity; lra|]). constructor.
Qed.
Lemma fall_odeint_solves f : fall_system f -> odeint_solves fall_odeint f 0%R.
Proof. intros Hf y0 times rows E. destruct y0 as [|a [|c [|z y0]]]; try discriminate E. injection E as <-. now apply fall_flow. Qed.
Lemma fall_cvode_solves f : fall_system f -> cvode_solves fall_cvode f 0%R.
Proof. intros Hf y0 t0 e times ts rows E. destruct y0 as [|a [|c [|z y0]]]; try discriminate E. injection E as <- <-. now apply fall_flow. Qed.

Definition no_print (x : sx) : string := "".
Lemma fall_starts : initial_state no_print fall_solver (pr_init (snd (final fall))) = Ok [PInt 2; PInt 5].
Proof. vm_compute. reflexivity. Qed.
(** The table of the run. *)
Definition fall_table (names : dict string) (times : list R) (rows : list (list R)) : domain R :=
  match record_run fall_domain times (mkM 2 rows) names with (d, _) => d end.
Lemma fall_recorded names times f : record_run fall_domain times (mkM 2 (map f times)) names = (fall_table names times (map f times), Ok tt).
Proof. unfold fall_table, record_run, hstack. cbn [mx_rows]. rewrite map_length, Nat.eqb_refl. reflexivity. Qed.
Lemma fall_by_odeint o l : oo_solver o = Some "ODEINT" -> time_points o = Ok l ->
  ode_solve fall_odeint fall_cvode print_one no_print (snd (final fall)) (the_block fall) fall_solver o fall_domain =
    (fall_table (oo_names o) l (map (fall_curve (hd 0%R l) 2 5) l), Ok (l, map (fall_curve (hd 0%R l) 2 5) l)).
Proof.
  intros Es Et. unfold ode_solve. rewrite fall_starts. cbn [rbind]. rewrite Et. cbn [rbind].
  assert (M : map_res real_of [PInt 2; PInt 5] = Ok [2; 5]%R) by reflexivity. rewrite M. cbn [rbind].
  assert (J : forall f, integrate fall_odeint fall_cvode o f [2; 5]%R l = Ok (l, map (fall_curve (hd 0%R l) 2 5) l))
    by (intros f; unfold integrate; rewrite Es; reflexivity).
  rewrite J. cbn [rbind List.length]. rewrite fall_recorded. reflexivity.
Qed.
Lemma fall_by_cvode o l e : oo_solver o = Some "CVODE" -> oo_end o = Some e -> time_points o = Ok l ->
  ode_solve fall_odeint fall_cvode print_one no_print (snd (final fall)) (the_block fall) fall_solver o fall_domain =
    (fall_table (oo_names o) l (map (fall_curve 0 2 5) l), Ok (l, map (fall_curve 0 2 5) l)).
Proof.
  intros Es Ee Et. unfold ode_solve. rewrite fall_starts. cbn [rbind]. rewrite Et. cbn [rbind].
  assert (M : map_res real_of [PInt 2; PInt 5] = Ok [2; 5]%R) by reflexivity. rewrite M. cbn [rbind].
  assert (J : forall f, integrate fall_odeint fall_cvode o f [2; 5]%R l = Ok (l, map (fall_curve 0%R 2 5) l))
    by (intros f; unfold integrate; rewrite Es, Ee; reflexivity).
  rewrite J. cbn [rbind List.length]. rewrite fall_recorded. reflexivity.
Qed.

Lemma fall_program : resolved fall (final fall) (the_block fall) /\ all_ok start_session fall /\ distinct_models fall /\ readable_program fall /\
  forallb tidy_act fall = true /\ plain_origins fall /\ known_statements fall /\ dictionaries fall /\ times_by fall ["t_M"].
Proof.
  split; [apply run_resolved; vm_compute; reflexivity|]. split; [apply runs_all; vm_compute; reflexivity|].
  split; [apply (one_distinct fall "M"); vm_compute; reflexivity|]. split; [apply readable_by; vm_compute; reflexivity|].
  split; [vm_compute; reflexivity|]. split; [apply origins_by; vm_compute; reflexivity|]. split; [apply known_by; vm_compute; reflexivity|]. split.
  - intros c H. repeat (destruct H as [H|H]; [first [discriminate H|injection H as <-]|]); [| |destruct H];
      repeat (constructor; [cbn; intuition discriminate|]); constructor.
  - exists (firstn 9 fall), (skipn 10 fall). split; [reflexivity|]. intros n [H|[H|[]]]; discriminate H.
Qed.
Lemma fall_cleared : cleared fall_domain.
Proof. eexists. split; [reflexivity|]. split; [reflexivity|]. intros k f [H|[]]. injection H as <- <-. reflexivity. Qed.

Definition fall_run : ode_options := mkOO (Some "ODEINT") 0%R (Some 2%R) (Some 2%Z) None [("y_M", "height")].
Example C79_case : resolved fall (final fall) (the_block fall) /\ all_ok start_session fall /\ distinct_models fall /\ readable_program fall /\
  forallb tidy_act fall = true /\ plain_origins fall /\ known_statements fall /\ dictionaries fall /\ times_by fall ["t_M"] /\
  Forall2 (explicit "t_M") (b_diff (the_block fall)) fall_ode /\ closed_system "t_M" fall_ode /\ b_eqs (the_block fall) = b_diff (the_block fall) /\
  ode_unknowns "t_M" fall_ode (b_varlist (the_block fall)) /\
  dsolver_init (the_block fall) (pr_init (snd (final fall))) (TNames ["t_M"]) true = Ok fall_solver /\
  cleared fall_domain /\ d_ind fall_domain = ["t_M"] /\ d_dep fall_domain = map fst fall_ode /\
  NoDup (map (header (oo_names fall_run)) (d_ind fall_domain ++ d_dep fall_domain)) /\ odeint_solves fall_odeint fall_rates 0%R /\
  exists d ts rows col, ode_solve fall_odeint fall_cvode print_one no_print (snd (final fall)) (the_block fall) fall_solver fall_run fall_domain =
      (d, Ok (ts, rows)) /\
    column d "t_M" (LName "t_M") = Some ts /\ ts = [0; 1; 2]%R /\
    column d "t_M" (LName "height") = Some col /\ col = [5; 7 + 1 / 2; 13]%R.
Proof.
  destruct fall_program as (A & B & C & D & E & F & G & H & I).
  repeat (split; [assumption|]). split; [exact fall_explicit|]. split; [exact fall_closed|]. split; [exact fall_one_kind|]. split; [exact fall_unknowns|].
  split; [exact fall_made|]. split; [exact fall_cleared|]. split; [reflexivity|]. split; [reflexivity|].
  split; [repeat constructor; cbn; intuition discriminate|]. split; [exact (fall_odeint_solves _ fall_rhs)|].
  assert (T : time_points fall_run = Ok [0 + 0 * ((2 - 0) / 2); 0 + 1 * ((2 - 0) / 2); 0 + (1 + 1) * ((2 - 0) / 2)]%R) by reflexivity.
  eexists _, _, _, _. split; [apply fall_by_odeint; [reflexivity|exact T]|]. split; [reflexivity|]. split; [repeat f_equal; field|].
  split; [reflexivity|]. cbn. repeat f_equal; field.
Qed.

(** From time 1 on x and y shall be 2 and 5; CVODE takes these values for time 0 and
    records x = 3.5 at time 1. *)
Definition late_run : ode_options := mkOO (Some "CVODE") 1%R (Some 3%R) (Some 1%Z) None [].
Theorem C79_cvode_start_refuted : exists acts s b t pn ps tn ds ode odeint cvode o d d' ts rows col k,
  resolved acts s b /\ all_ok start_session acts /\ distinct_models acts /\ readable_program acts /\
  forallb tidy_act acts = true /\ plain_origins acts /\ known_statements acts /\ dictionaries acts /\ times_by acts [t] /\
  Forall2 (explicit t) (b_diff b) ode /\ closed_system t ode /\ b_eqs b = b_diff b /\ ode_unknowns t ode (b_varlist b) /\
  dsolver_init b (pr_init (snd s)) tn true = Ok ds /\ cleared d /\ d_ind d = [t] /\ d_dep d = map fst ode /\
  cvode_solves cvode (rates pn (snd s) b ds) 0%R /\
  ode_solve odeint cvode pn ps (snd s) b ds o d = (d', Ok (ts, rows)) /\
  nth_error ts 0 = Some (oo_initial o) /\ starts_at acts "x_M" (PInt k) /\
  column d' t (LName "x_M") = Some col /\ exists v, nth_error col 0 = Some v /\ (v = IZR k + 3 / 2)%R.
Proof.
  destruct fall_program as (A & B & C & D & E & F & G & H & I).
  eexists fall, (final fall), (the_block fall), "t_M", print_one, no_print, (TNames ["t_M"]), fall_solver, fall_ode, fall_odeint, fall_cvode, late_run, fall_domain, _, _, _, _, 2%Z.
  repeat (split; [assumption|]). split; [exact fall_explicit|]. split; [exact fall_closed|]. split; [exact fall_one_kind|]. split; [exact fall_unknowns|].
  split; [exact fall_made|]. split; [exact fall_cleared|]. split; [reflexivity|]. split; [reflexivity|]. split; [exact (fall_cvode_solves _ fall_rhs)|].
  assert (T : time_points late_run = Ok [1 + 0 * ((3 - 1) / 1); 1 + 1 * ((3 - 1) / 1)]%R) by reflexivity.
  split; [apply fall_by_cvode with (e := 3%R); [reflexivity|reflexivity|exact T]|]. split; [cbn; f_equal; field|].
  split. { exists (firstn 11 fall), [("x_M", PInt 2)], []. split; [reflexivity|]. split; [reflexivity|intros c []]. }
  split; [reflexivity|]. eexists. split; [reflexivity|]. cbn. field.
Qed.
Print Assumptions C79_cvode_start_refuted.

(** An initial value for the time is required and not used: the time is said to start
    at 7, the table starts at 0. *)
Theorem C79_time_start_refuted : exists acts s b t pn ps tn ds odeint cvode o d d' ts rows k,
  resolved acts s b /\ times_by acts [t] /\ dsolver_init b (pr_init (snd s)) tn true = Ok ds /\
  odeint_solves odeint (rates pn (snd s) b ds) 0%R /\ oo_times o = None /\
  ode_solve odeint cvode pn ps (snd s) b ds o d = (d', Ok (ts, rows)) /\
  starts_at acts t (PInt k) /\ hd 0%R ts <> IZR k.
Proof.
  destruct fall_program as (A & _ & _ & _ & _ & _ & _ & _ & I).
  eexists fall, (final fall), (the_block fall), "t_M", print_one, no_print, (TNames ["t_M"]), fall_solver, fall_odeint, fall_cvode, fall_run, fall_domain, _, _, _, 7%Z.
  split; [assumption|]. split; [assumption|]. split; [exact fall_made|]. split; [exact (fall_odeint_solves _ fall_rhs)|]. split; [reflexivity|].
  assert (T : time_points fall_run = Ok [0 + 0 * ((2 - 0) / 2); 0 + 1 * ((2 - 0) / 2); 0 + (1 + 1) * ((2 - 0) / 2)]%R) by reflexivity.
  split; [apply fall_by_odeint; [reflexivity|exact T]|]. split; [|cbn; lra].
  exists (firstn 10 fall), [("x_M", PInt 1); ("y_M", PInt 5); ("t_M", PInt 7)], [AInit [("x_M", PInt 2)]].
  split; [reflexivity|]. split; [reflexivity|]. intros c [H|[]]. now injection H as <-.
Qed.
Print Assumptions C79_time_start_refuted.
