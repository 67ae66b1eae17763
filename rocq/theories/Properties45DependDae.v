(** C84, C89: differential-algebraic equations that differ a little. *)
From Verif Require Import Base BaseFacts Num UnitModel Sympy Node Build EquationModel ModelModel ProblemModel SpecUnits SpecExpr SpecModel SpecInc SpecCall SpecProblem
  ProblemFacts SessionFacts SpecLink SolverModel DomainModel SpecSolver SolverFacts SpecSymbols OdeFacts DaeFacts SpecWritten SpecExact SpecOwn SpecSession StudyFacts
  SpecSaid SaidFacts SpecCompose ComposeFacts SpecInit InitFacts RunModel SpecRun RunFacts DaeRunFacts SimModel WholeModel SpecWhole WholeFacts SpecUnique TameFacts UniqueFacts
  SpecUniqueDae UniqueDaeFacts DaeAgreeFacts SpecDepend SpecDependDae DependDaeFacts Demo
  Properties07Problems Properties08Solvers Properties16Written Properties19Sessions Properties22Links Properties24Said Properties29Run Properties30Dae Properties32Compose
  Properties33Whole Properties38Algebraic.
From Verif Require SpecSim.
From Coq Require Import Reals Lra.
Notation num := Verif.Num.num.

(** Two families of functions, each obeying its differential-algebraic equations: if the
    equations bind the other variables to those with rates, give nearly the same rates and
    both start near each other, they are near each other at all times. *)
Theorem C89_dae_solutions : forall P P' t names diffs zs sol sol' here L delta Lz dz eta,
  (0 <= L)%R -> (0 <= delta)%R -> (0 <= Lz)%R -> (0 <= dz)%R -> (0 <= eta)%R ->
  given_near here Lz dz P P' t diffs zs -> changes_near here L delta P P' t diffs zs ->
  (forall x, In x diffs -> In x names) -> (forall x, In x zs -> In x names) ->
  forall t0 times times', dae_obeys_all P t names diffs t0 times sol -> dae_obeys_all P' t names diffs t0 times' sol' ->
  (forall tau en, during t0 times tau -> dae_moment t names diffs sol tau en -> here en) ->
  (forall tau en, during t0 times' tau -> dae_moment t names diffs sol' tau en -> here en) ->
  (forall x, In x diffs -> (Rabs (sol x t0 - sol' x t0) <= eta)%R) ->
  forall tau, during t0 times tau -> during t0 times' tau -> forall x, In x diffs \/ In x zs ->
  (Rabs (sol x tau - sol' x tau) <= spread (List.length diffs) Lz dz
    (drift (List.length diffs) (total_slope L Lz (List.length zs)) eta (total_shift L delta dz (List.length zs)) (Rabs (tau - t0))))%R.
Proof. exact dae_solutions_near. Qed.
Print Assumptions C89_dae_solutions.

(** Equations that give the other variables one after the other bind them. *)
Theorem C89_in_turn : forall here P P' t known zs L delta, given_in_turn here P P' t known zs L delta ->
  (0 <= L)%R /\ (0 <= delta)%R /\ given_near here L delta P P' t known zs.
Proof. exact in_turn_given. Qed.
Print Assumptions C89_in_turn.

(** As C84_dae_unique, for other equations of whatever form: all that is asked is that in
    the states gone through they bind the other variables to those with rates. *)
Theorem C84_dae_region : forall P P' t names diffs zs sol sol' here L Lz, (0 <= L)%R -> (0 <= Lz)%R ->
  given_near here Lz 0 P P' t diffs zs -> changes_near here L 0 P P' t diffs zs ->
  (forall x, In x diffs -> In x names) -> (forall x, In x zs -> In x names) -> forall t0 times times',
  dae_obeys_all P t names diffs t0 times sol -> dae_obeys_all P' t names diffs t0 times' sol' ->
  (forall tau en, during t0 times tau -> dae_moment t names diffs sol tau en -> here en) ->
  (forall tau en, during t0 times' tau -> dae_moment t names diffs sol' tau en -> here en) ->
  (forall x, In x diffs -> sol x t0 = sol' x t0) ->
  forall tau, during t0 times tau -> during t0 times' tau -> forall x, In x diffs \/ In x zs -> sol x tau = sol' x tau.
Proof. exact dae_same_region. Qed.
Print Assumptions C84_dae_region.

(** Two whole simulations of two programs with differential-algebraic equations that differ
    a little leave tables that differ a little.  Missing: what C80 and C82 miss. *)
Theorem C89_dae_simulations_partial : forall here L delta Lz dz eta acts s b P t pn dae lib arrays ps h st doms sm sanity st1 doms1 out o names eps t0 e n
    acts' s' b' P' pn' dae' lib' arrays' ps' h' st' doms' sm' sanity' st1' doms1' out' o' names' eps' e' n' zs,
  (0 <= L)%R -> (0 <= delta)%R -> (0 <= Lz)%R -> (0 <= dz)%R -> (0 <= eta)%R ->
  dae_problem acts s b P t pn dae -> dae_problem acts' s' b' P' t pn' dae' ->
  (forall x, In x (dnames dae) <-> In x (dnames dae')) -> (forall x, In x (b_varlist b) <-> In x (b_varlist b')) ->
  (forall x, In x (b_varlist b) <-> In x (dnames dae) \/ In x zs) ->
  given_near here Lz dz P P' t (dnames dae) zs -> changes_near here L delta P P' t (dnames dae) zs -> starts_near eta acts acts' (dnames dae) ->
  (forall times, even_points times t0 e n -> dae_confined here acts P t (b_varlist b) (dnames dae) t0 times) ->
  (forall times, even_points times t0 e' n' -> dae_confined here acts' P' t (b_varlist b) (dnames dae) t0 times) ->
  dae_simulates s b t pn lib doms sm o names eps t0 e n -> dae_simulates s' b' t pn' lib' doms' sm' o' names' eps' t0 e' n' ->
  whole_run lib arrays pn ps h st doms sm sanity = (st1, doms1, Ok out) ->
  whole_run lib' arrays' pn' ps' h' st' doms' sm' sanity' = (st1', doms1', Ok out') ->
  exists d d', nth_error doms1 o = Some d /\ nth_error doms1' o' = Some d' /\
    agree_by (fun tau => eps + eps' + spread (List.length dae) Lz dz
      (drift (List.length dae) (total_slope L Lz (List.length zs)) eta (total_shift L delta dz (List.length zs)) (Rabs (tau - t0))))%R t (b_varlist b) d names d' names'.
Proof. exact dae_simulations_near. Qed.
Print Assumptions C89_dae_simulations_partial.

(** ** Cases *)
(** dx/dt == 0*x, z*z == x where z is 1 or more: from x = 1 and from x = 4. *)
Definition upper (en : env) : Prop := (1 <= e_sym en "z_M")%R.
Definition level (x z : R) (y : string) (_ : R) : R := if String.eqb y "z_M" then z else x.
Lemma level_obeys x z : (z * z = x)%R -> dae_obeys_all square "t_M" ["x_M"; "z_M"] ["x_M"] 0%R [1%R] (level x z).
Proof.
  intros Z tau _. split.
  - exists (mkEnv (fun y => if String.eqb y "t_M" then tau else level x z y tau) (fun _ _ => 0%R)). split; [reflexivity|]. split; [intros y [<-|[<-|[]]]; reflexivity|].
    intros y [<-|[]]. exact (derivable_pt_lim_const x tau).
  - intros en (_ & A & B) w [-> | ->]; cbn.
    + rewrite (uniqueness_limite _ _ _ _ (B "x_M" (or_introl eq_refl)) (derivable_pt_lim_const x tau)), (A "x_M") by (now left). cbn. f_equal. lra.
    + rewrite (A "x_M"), (A "z_M") by (cbn; auto). cbn. f_equal. lra.
Qed.
Lemma level_upper x z tau en : (1 <= z)%R -> dae_moment "t_M" ["x_M"; "z_M"] ["x_M"] (level x z) tau en -> upper en.
Proof. intros H (_ & A & _). unfold upper. rewrite (A "z_M") by (cbn; auto). exact H. Qed.
Lemma square_given : given_near upper (1 / 2) 0 square square "t_M" ["x_M"] ["z_M"].
Proof.
  intros en en' I I' _ W W' z [<-|[]]. assert (A := W _ (or_intror eq_refl)). assert (A' := W' _ (or_intror eq_refl)). cbn in A, A'.
  assert (B : (e_sym en "z_M" * e_sym en "z_M" - e_sym en "x_M" = 0)%R) by congruence.
  assert (B' : (e_sym en' "z_M" * e_sym en' "z_M" - e_sym en' "x_M" = 0)%R) by congruence. unfold upper in I, I'. unfold gap. cbn [fold_right].
  set (z := e_sym en "z_M") in *. set (z' := e_sym en' "z_M") in *.
  replace (e_sym en "x_M" - e_sym en' "x_M")%R with ((z + z') * (z - z'))%R by (replace (e_sym en "x_M") with (z * z)%R by lra; replace (e_sym en' "x_M") with (z' * z')%R by lra; ring).
  rewrite Rabs_mult, (Rabs_pos_eq (z + z')) by lra. assert (N := Rabs_pos (z - z')).
  assert (2 * Rabs (z - z') <= (z + z') * Rabs (z - z'))%R by (apply Rmult_le_compat_r; lra). lra.
Qed.
Lemma square_changes : changes_near upper 0 0 square square "t_M" ["x_M"] ["z_M"].
Proof.
  intros x [<-|[]]. exists (fun en => Some (0 * e_sym en "x_M")%R), (fun en => Some (0 * e_sym en "x_M")%R).
  assert (C : change_said square "x_M" "t_M" (fun en => Some (0 * e_sym en "x_M")%R)) by
    (eexists; split; [left; reflexivity|]; intros en Z; cbn in Z; f_equal; assert (e_der en "x_M" "t_M" - 0 * e_sym en "x_M" = 0)%R by congruence; lra).
  do 2 (split; [exact C|]). intros en en' _ _ _ a b E E'. injection E as <-. injection E' as <-.
  replace (0 * e_sym en "x_M" - 0 * e_sym en' "x_M")%R with 0%R by ring. rewrite Rabs_R0. lra.
Qed.
Example C89_dae_solutions_case : given_near upper (1 / 2) 0 square square "t_M" ["x_M"] ["z_M"] /\ changes_near upper 0 0 square square "t_M" ["x_M"] ["z_M"] /\
  dae_obeys_all square "t_M" ["x_M"; "z_M"] ["x_M"] 0%R [1%R] (level 1 1) /\ dae_obeys_all square "t_M" ["x_M"; "z_M"] ["x_M"] 0%R [1%R] (level 4 2) /\
  (forall tau en, dae_moment "t_M" ["x_M"; "z_M"] ["x_M"] (level 1 1) tau en -> upper en) /\
  (forall tau en, dae_moment "t_M" ["x_M"; "z_M"] ["x_M"] (level 4 2) tau en -> upper en) /\ (Rabs (level 1 1 "x_M" 0 - level 4 2 "x_M" 0) <= 3)%R.
Proof.
  split; [exact square_given|]. split; [exact square_changes|]. split; [apply level_obeys; lra|]. split; [apply level_obeys; lra|].
  split; [intros tau en; apply level_upper; lra|]. split; [intros tau en; apply level_upper; lra|]. cbn. rewrite Rabs_left; lra.
Qed.
(** The first of the two beside itself; the other branch of [C84_dae_branches_refuted] is
    not in [upper]. *)
Example C84_dae_region_case : given_near upper (1 / 2) 0 square square "t_M" ["x_M"] ["z_M"] /\ changes_near upper 0 0 square square "t_M" ["x_M"] ["z_M"] /\
  dae_obeys_all square "t_M" ["x_M"; "z_M"] ["x_M"] 0%R [1%R] (level 1 1) /\ (forall tau en, dae_moment "t_M" ["x_M"; "z_M"] ["x_M"] (level 1 1) tau en -> upper en) /\
  forall tau en, dae_moment "t_M" ["x_M"; "z_M"] ["x_M"] (branch (-1)) tau en -> ~ upper en.
Proof.
  split; [exact square_given|]. split; [exact square_changes|]. split; [apply level_obeys; lra|]. split; [intros tau en; apply level_upper; lra|].
  intros tau en (_ & A & _) U. unfold upper in U. rewrite (A "z_M") in U by (cbn; auto). cbn in U. lra.
Qed.

(** The growth of C80 from x = 2. *)
Definition growth_double : list act := firstn 9 growth ++ [AInit [("t_M", PInt 0); ("x_M", PInt 2); ("z_M", PInt 9); ("x_M_d", PInt 6)]].
Lemma double_program : growth_like growth_double.
Proof.
  split; [apply run_resolved; vm_compute; reflexivity|]. split; [apply runs_all; vm_compute; reflexivity|].
  split; [apply (one_distinct growth_double "M"); vm_compute; reflexivity|]. split; [apply readable_by; vm_compute; reflexivity|].
  split; [vm_compute; reflexivity|]. split; [apply origins_by; vm_compute; reflexivity|]. split; [apply known_by; vm_compute; reflexivity|].
  intros c H. repeat (destruct H as [H|H]; [first [discriminate H|injection H as <-]|]); [|destruct H];
    repeat (constructor; [cbn; intuition discriminate|]); constructor.
Qed.
Lemma double_names : b_varlist (the_block growth_double) = ["x_M"; "z_M"].
Proof. vm_compute. reflexivity. Qed.
Lemma double_parts : Forall2 (residual_ode print_one) (b_diff (the_block growth_double)) the_dae /\ closed_dae (the_block growth_double) the_dae.
Proof.
  apply dae_parts; [vm_compute; reflexivity|vm_compute; reflexivity|rewrite double_names..]; [|cbn; auto|cbn; auto].
  repeat constructor; cbn; intuition discriminate.
Qed.
Lemma double_problem : dae_problem growth_double (final growth_double) (the_block growth_double) (program_says growth_double) "t_M" print_one the_dae.
Proof.
  destruct double_program as (A & B & C & D & E & F & G & H). destruct double_parts as (I & J).
  split; [now apply su_plain|]. split; [exact H|]. split; [exact I|]. split; [discriminate|]. split; [exact J|].
  split; [rewrite double_names; exists ["z_M"]; reflexivity|].
  split. { exists (skipn 1 (b_eqs (the_block growth_double))). vm_compute. reflexivity. }
  split; [intros x u r [K|[]]; now injection K|]. split; [rewrite double_names; cbn; intuition discriminate|].
  left. apply some_by. vm_compute. reflexivity.
Qed.
Lemma double_function y1 y2 p q : dae_function print_one (the_block growth_double) [y1; y2] [p; q] = Ok [Some (p - y2); Some (y2 - y1 * 3)]%R.
Proof. vm_compute. reflexivity. Qed.
Lemma double_is_one : growth_system (dae_function print_one (the_block growth_double)).
Proof. intros y1 y2 p q. rewrite double_function. eexists. split; [reflexivity|]. intros v [<-|[<-|[]]]; auto. Qed.
Lemma double_by_ida : dae_solve growth_ida print_one no_print (snd (final growth_double)) (the_block growth_double) growth_with growth_domain =
    (growth_table [("z_M", "rate")] growth_points (map (growth_curve 1 2) growth_points), Ok (growth_points, map (growth_curve 1 2) growth_points)).
Proof.
  assert (Et : dae_points growth_with = Ok growth_points) by reflexivity.
  assert (Hk : dae_initial no_print print_one (the_block growth_double) (pr_init (snd (final growth_double))) = Ok ([PInt 2; PInt 9], [PInt 6; PFloat (SpecFloat.S754_zero false)]))
    by (vm_compute; reflexivity).
  assert (E : diff_flags (the_block growth_double) = [true; false]) by (vm_compute; reflexivity).
  unfold dae_solve. rewrite Et. cbn [rbind]. rewrite Hk. cbn [rbind fst snd].
  assert (M : map_res real_of [PInt 2; PInt 9] = Ok [2; 9]%R) by reflexivity. rewrite M. cbn [rbind].
  assert (M' : map_res real_of [PInt 6; PFloat (SpecFloat.S754_zero false)] = Ok [6; 0]%R) by reflexivity. rewrite M'. cbn [rbind growth_with oo_solver].
  rewrite double_function, E. cbn [rbind growth_ida oo_end oo_initial growth_with List.length]. rewrite growth_recorded. reflexivity.
Qed.
Notation double_simulation := (configured (snd (final growth_double)) growth_conf).
Lemma double_simulates : dae_simulates (final growth_double) (the_block growth_double) "t_M" print_one test_library [growth_domain] double_simulation 0 [("z_M", "rate")] 0%R 1%R 3%R 2.
Proof.
  constructor.
  - reflexivity.
  - reflexivity.
  - exists growth_domain. split; [reflexivity|]. split; [exact growth_cleared|]. split; [reflexivity|]. split; [rewrite double_names; reflexivity|].
    repeat constructor; cbn; intuition discriminate.
  - reflexivity.
  - apply growth_solves, double_is_one.
  - split; [eexists; split; reflexivity|]. split; [eexists; split; reflexivity|]. split; reflexivity.
Qed.
Definition anywhere (_ : env) : Prop := True.
Lemma growth_turn : given_in_turn anywhere (program_says growth) (program_says growth_double) "t_M" ["x_M"] ["z_M"] (Rmax 0 (3 * (1 + INR 0 * 0))) (Rmax 0 (3 * (INR 0 * 0) + 0)).
Proof.
  apply (turn_next _ _ _ _ _ _ _ _ _ _ _ (den threefold) (den threefold) (turn_none _ _ _ _ _)); [lra|lra| | |].
  - apply (second_equation _ _ _ _ (proj1 growth_problem)). vm_compute. reflexivity.
  - apply (second_equation _ _ _ _ (proj1 double_problem)). vm_compute. reflexivity.
  - intros en en' _ _ _ a b E E'. injection E as <-. injection E' as <-. unfold gap. cbn [app fold_right].
    replace (e_sym en "x_M" * 3 - e_sym en' "x_M" * 3)%R with (3 * (e_sym en "x_M" - e_sym en' "x_M"))%R by ring. rewrite Rabs_mult, (Rabs_pos_eq 3) by lra. lra.
Qed.
Lemma growth_binds : given_near anywhere 3 0 (program_says growth) (program_says growth_double) "t_M" ["x_M"] ["z_M"].
Proof.
  destruct (C89_in_turn _ _ _ _ _ _ _ _ growth_turn) as (_ & _ & G). cbn [INR] in G.
  replace (3 * (1 + 0 * 0))%R with 3%R in G by ring. replace (3 * (0 * 0) + 0)%R with 0%R in G by ring. rewrite Rmax_right in G by lra. rewrite Rmax_left in G by lra. exact G.
Qed.
Example C89_in_turn_case : exists L delta, given_in_turn anywhere (program_says growth) (program_says growth_double) "t_M" ["x_M"] ["z_M"] L delta.
Proof. eexists _, _. exact growth_turn. Qed.
Lemma growth_changes : changes_near anywhere 1 0 (program_says growth) (program_says growth_double) "t_M" ["x_M"] ["z_M"].
Proof.
  intros x [<-|[]].
  exists (den (SSym "z_M")), (den (SSym "z_M")). split; [exact (dae_change _ _ _ _ _ _ _ _ _ growth_problem (or_introl eq_refl))|].
  split; [exact (dae_change _ _ _ _ _ _ _ _ _ double_problem (or_introl eq_refl))|]. intros en en' _ _ _ a b Ha Hb. injection Ha as <-. injection Hb as <-.
  unfold gap. cbn [app fold_right]. assert (Q := Rabs_pos (e_sym en "x_M" - e_sym en' "x_M")). lra.
Qed.
Lemma double_starts_near : starts_near 1 growth growth_double ["x_M"].
Proof.
  intros x k k' v v' [<-|[]] K K' V V'. apply (init_exact growth (proj1 (proj2 growth_problem))) in K. apply (init_exact growth_double (proj1 (proj2 double_problem))) in K'.
  assert (I : dget "x_M" (pr_init (snd (run_acts start_session growth))) = Some (PInt 1)) by (vm_compute; reflexivity).
  assert (I' : dget "x_M" (pr_init (snd (run_acts start_session growth_double))) = Some (PInt 2)) by (vm_compute; reflexivity).
  rewrite I in K. rewrite I' in K'. injection K as <-. injection K' as <-. injection V as <-. injection V' as <-. rewrite Rabs_left; lra.
Qed.
Example C89_dae_simulations_case :
  dae_problem growth (final growth) (the_block growth) (program_says growth) "t_M" print_one the_dae /\
  dae_problem growth_double (final growth_double) (the_block growth_double) (program_says growth_double) "t_M" print_one the_dae /\
  (forall x, In x (b_varlist (the_block growth)) <-> In x (b_varlist (the_block growth_double))) /\
  (forall x, In x (b_varlist (the_block growth)) <-> In x (dnames the_dae) \/ In x ["z_M"]) /\
  given_near anywhere 3 0 (program_says growth) (program_says growth_double) "t_M" (dnames the_dae) ["z_M"] /\
  changes_near anywhere 1 0 (program_says growth) (program_says growth_double) "t_M" (dnames the_dae) ["z_M"] /\ starts_near 1 growth growth_double (dnames the_dae) /\
  (forall acts P t vars diffs t0 ts, dae_confined anywhere acts P t vars diffs t0 ts) /\
  dae_simulates (final growth) (the_block growth) "t_M" print_one test_library [growth_domain] growth_simulation 0 [("z_M", "rate")] 0%R 1%R 3%R 2 /\
  dae_simulates (final growth_double) (the_block growth_double) "t_M" print_one test_library [growth_domain] double_simulation 0 [("z_M", "rate")] 0%R 1%R 3%R 2 /\
  exists ts rows d ts' rows' d',
    whole_run test_library no_arrays print_one no_print (pw_heap (fst (final growth))) store0 [growth_domain] growth_simulation true =
      (growth_store, [d], Ok (WRun ts rows)) /\
    whole_run test_library no_arrays print_one no_print (pw_heap (fst (final growth_double))) store0 [growth_domain] double_simulation true =
      (growth_store, [d'], Ok (WRun ts' rows')).
Proof.
  split; [exact growth_problem|]. split; [exact double_problem|]. split; [intros x; rewrite growth_names, double_names; tauto|].
  split; [intros x; rewrite growth_names; cbn; tauto|]. split; [exact growth_binds|]. split; [exact growth_changes|]. split; [exact double_starts_near|].
  split; [intros acts P t vars diffs t0 ts sol _ _ tau en _ _; exact I|]. split; [exact growth_simulates|]. split; [exact double_simulates|].
  assert (O : dae_solve growth_ida print_one no_print (snd (final growth)) (the_block growth) growth_with growth_domain =
    (growth_table [("z_M", "rate")] growth_points (map (growth_curve 1 1) growth_points), Ok (growth_points, map (growth_curve 1 1) growth_points))).
  { apply growth_by_ida; [now right|now exists 3%R|reflexivity|vm_compute; reflexivity| |].
    - rewrite growth_function. eexists. reflexivity.
    - assert (E : diff_flags (the_block growth) = [true; false]) by (vm_compute; reflexivity). rewrite E. reflexivity. }
  eexists _, _, _, _, _, _. split; [refine (growth_runs _ (the_block growth) _ growth_domain _ _ _ _ _ _ _ _ O); vm_compute; reflexivity|].
  refine (growth_runs _ (the_block growth_double) _ growth_domain _ _ _ _ _ _ _ _ double_by_ida); vm_compute; reflexivity.
Qed.
