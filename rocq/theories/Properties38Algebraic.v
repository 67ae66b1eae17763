(** C83, C84: simulations of differential-algebraic problems set up by any program. *)
From Verif Require Import Base BaseFacts Num UnitModel Sympy Node Build EquationModel ModelModel ProblemModel SpecUnits SpecExpr SpecModel SpecInc SpecCall SpecProblem
  ProblemFacts SessionFacts SpecLink SolverModel DomainModel SpecSolver SolverFacts SpecSymbols OdeFacts DaeFacts SpecWritten SpecExact SpecOwn SpecSession StudyFacts
  SpecSaid SaidFacts SpecCompose ComposeFacts SpecInit InitFacts RunModel SpecRun RunFacts DaeRunFacts SimModel WholeModel SpecWhole WholeFacts SpecUnique TameFacts UniqueFacts
  SpecUniqueDae UniqueDaeFacts DaeAgreeFacts Demo
  Properties07Problems Properties08Solvers Properties16Written Properties19Sessions Properties22Links Properties24Said Properties29Run Properties30Dae Properties32Compose
  Properties33Whole.
From Verif Require SpecSim.
From Coq Require Import Reals Lra.
Notation num := Verif.Num.num.

(** Simulations of differential-algebraic problems put together from models which
    incorporate others write to their domain, and to no other, functions of which all
    equations are true.  Missing as in C80 and C82. *)
Theorem C83_composed_dae_partial : forall acts s b P t pn dae lib arrays ps h st doms sm sanity st' doms' out o names eps t0 e n,
  dae_problem acts s b P t pn dae -> dae_simulates s b t pn lib doms sm o names eps t0 e n ->
  whole_run lib arrays pn ps h st doms sm sanity = (st', doms', Ok out) ->
  exists ts rows d' times sol, out = WRun ts rows /\ only_domain o d' doms doms' /\ even_points times t0 e n /\
    starts_right acts (dnames dae) t0 sol /\ dae_obeys_all P t (b_varlist b) (dnames dae) t0 times sol /\ recorded_as d' t names (b_varlist b) times sol eps.
Proof. exact dae_simulated_table. Qed.
Print Assumptions C83_composed_dae_partial.

(** Two families of functions of which differential-algebraic equations are true, whose
    variables with rates are equal at one time, are equal at all times both are followed
    to, also in the variables the other equations give one after the other. *)
Theorem C84_dae_unique : forall P P' t names diffs zs sol sol', follow P P' t diffs zs -> same_dae_rates P P' t diffs zs ->
  (forall x, In x diffs -> In x names) -> (forall x, In x zs -> In x names) -> forall t0 times times',
  dae_obeys_all P t names diffs t0 times sol -> dae_obeys_all P' t names diffs t0 times' sol' -> (forall x, In x diffs -> sol x t0 = sol' x t0) ->
  forall tau, during t0 times tau -> during t0 times' tau -> forall x, In x diffs \/ In x zs -> sol x tau = sol' x tau.
Proof. exact one_dae_solution. Qed.
Print Assumptions C84_dae_unique.

(** What is written without roots, fractional powers and derivatives is a function as
    [follow] asks for. *)
Theorem C84_tempered : forall D names e, gentle (of_names D names) e -> even_tempered names (fun en => expr_value D en e).
Proof. exact gentle_tempered. Qed.
Print Assumptions C84_tempered.
Theorem C84_tempered_at : forall h names e, gentle (of_names_at h names) e -> even_tempered names (fun en => value_at h en e).
Proof. exact gentle_tempered_at. Qed.
Print Assumptions C84_tempered_at.

(** Two simulations of two programs with the same differential-algebraic equations and
    the same initial values leave tables which agree.  Missing: algebraic equations that
    do not give the variables one after the other, and what C80 and C82 miss. *)
Theorem C84_dae_simulations_partial : forall acts s b P t pn dae lib arrays ps h st doms sm sanity st1 doms1 out o names eps t0 e n
    acts' s' b' P' pn' dae' lib' arrays' ps' h' st' doms' sm' sanity' st1' doms1' out' o' names' eps' e' n' zs,
  dae_problem acts s b P t pn dae -> dae_problem acts' s' b' P' t pn' dae' ->
  (forall x, In x (dnames dae) <-> In x (dnames dae')) -> (forall x, In x (b_varlist b) <-> In x (b_varlist b')) ->
  (forall x, In x (b_varlist b) <-> In x (dnames dae) \/ In x zs) ->
  follow P P' t (dnames dae) zs -> same_dae_rates P P' t (dnames dae) zs -> same_starts acts acts' (dnames dae) ->
  dae_simulates s b t pn lib doms sm o names eps t0 e n -> dae_simulates s' b' t pn' lib' doms' sm' o' names' eps' t0 e' n' ->
  whole_run lib arrays pn ps h st doms sm sanity = (st1, doms1, Ok out) ->
  whole_run lib' arrays' pn' ps' h' st' doms' sm' sanity' = (st1', doms1', Ok out') ->
  exists d d', nth_error doms1 o = Some d /\ nth_error doms1' o' = Some d' /\ agree_within (eps + eps') t (b_varlist b) d names d' names'.
Proof. exact dae_simulations_agree. Qed.
Print Assumptions C84_dae_simulations_partial.

(** ** Cases *)
(** dx/dt == z, z == 3*x: the growth of C80 in one piece and in two (C82). *)
Lemma some_by c es : existsb (has_type c) es = true -> some_of c es.
Proof.
  intros H. apply existsb_exists in H. destruct H as (e & He & T). exists e. split; [exact He|]. unfold has_type in T.
  destruct (eq_type e) as [c'|]; [|discriminate T]. now destruct c, c'.
Qed.
Lemma growth_problem : dae_problem growth (final growth) (the_block growth) (program_says growth) "t_M" print_one the_dae.
Proof.
  destruct growth_program as (A & B & C & D & E & F & G & H). destruct Properties30Dae.growth_parts as (I & J).
  split; [now apply su_plain|]. split; [exact H|]. split; [exact I|]. split; [discriminate|]. split; [exact J|].
  split; [rewrite growth_names; exists ["z_M"]; reflexivity|].
  split. { exists (skipn 1 (b_eqs (the_block growth))). vm_compute. reflexivity. }
  split; [intros x u r [K|[]]; now injection K|]. split; [rewrite growth_names; cbn; intuition discriminate|].
  left. apply some_by. vm_compute. reflexivity.
Qed.
Lemma growth_parts_dictionaries : dictionaries growth_parts.
Proof.
  intros c H. repeat (destruct H as [H|H]; [first [discriminate H|injection H as <-]|]); [|destruct H];
    repeat (constructor; [cbn; intuition discriminate|]); constructor.
Qed.
Lemma growth_parts_problem : dae_problem growth_parts (final growth_parts) (the_block growth_parts) (composed_says growth_parts (the_accounts growth_parts)) "t_M" print_one the_dae.
Proof.
  destruct growth_parts_composed as (A & B & C & D & E & F). destruct growth_parts_parts as (I & J).
  split; [now apply su_composed|]. split; [exact growth_parts_dictionaries|]. split; [exact I|]. split; [discriminate|]. split; [exact J|].
  split; [rewrite growth_parts_names; exists ["z_M"]; reflexivity|].
  split. { exists (skipn 1 (b_eqs (the_block growth_parts))). vm_compute. reflexivity. }
  split; [intros x u r [K|[]]; now injection K|]. split; [rewrite growth_parts_names; cbn; intuition discriminate|].
  left. apply some_by. vm_compute. reflexivity.
Qed.
(** The second equation of both. *)
Definition threefold : sx := SMul (SSym "x_M") (SNum (PInt 3)).
Lemma second_equation acts s b P : sets_up acts s b P -> option_map (fun e => option_map nd_sym (eq_expr e)) (nth_error (b_eqs b) 1) = Some (Some (SSub (SSym "z_M") threefold)) ->
  equals_said P "z_M" (den threefold).
Proof.
  intros Su H. destruct (nth_error (b_eqs b) 1) as [e|] eqn:E; [|discriminate]. cbn [option_map] in H. destruct (eq_expr e) as [n|] eqn:En; [|discriminate]. cbn [option_map] in H.
  apply nth_error_In in E. destruct (block_value acts s b P e n (SSym "z_M") threefold Su E En) as (w & Hw & V); [congruence|].
  exists w. split; [exact Hw|]. intros en Z. rewrite V in Z. cbn [den] in Z. destruct (den threefold en) as [v|]; [|discriminate Z]. cbn in Z. f_equal.
  assert (e_sym en "z_M" - v = 0)%R by congruence. lra.
Qed.
Definition growth_things : dict thing := [("x", mkThing "x_M" (PInt 0) false); ("z", mkThing "z_M" (PInt 0) false)].
Lemma growth_follows : follow (program_says growth) (composed_says growth_parts (the_accounts growth_parts)) "t_M" (dnames the_dae) ["z_M"].
Proof.
  split; [|exact I]. exists (den threefold), (den threefold).
  split; [apply (second_equation _ _ _ _ (proj1 growth_problem)); vm_compute; reflexivity|].
  split; [apply (second_equation _ _ _ _ (proj1 growth_parts_problem)); vm_compute; reflexivity|]. split; [reflexivity|].
  apply (gentle_tempered growth_things ["t_M"; "x_M"] (UNumR BMul (UQty "x") (PInt 3))). split; [discriminate|]. intros z E. injection E as <-. right. right. now left.
Qed.
Lemma growth_same : same_dae_rates (program_says growth) (composed_says growth_parts (the_accounts growth_parts)) "t_M" (dnames the_dae) ["z_M"].
Proof.
  apply (dae_systems_same _ _ _ _ _ _ _ _ _ _ _ _ _ _ growth_problem growth_parts_problem). intros x r [H|[]]. injection H as <- <-. split.
  - apply (gentle_steady growth_things "t_M" ["z_M"; "x_M"] (UQty "z")). intros z E. injection E as <-. right. right. now left.
  - exists (SSym "z_M"). split; [now left|reflexivity].
Qed.
Lemma growth_same_starts : same_starts growth growth_parts (dnames the_dae).
Proof.
  intros x k k' [<-|[]] H H'. apply (init_exact growth (proj1 (proj2 growth_problem))) in H. apply (init_exact growth_parts growth_parts_dictionaries) in H'.
  assert (E : dget "x_M" (pr_init (snd (run_acts start_session growth))) = dget "x_M" (pr_init (snd (run_acts start_session growth_parts)))) by (vm_compute; reflexivity).
  cbn [fst snd] in H, H'. rewrite E in H. rewrite H in H'. now injection H' as <-.
Qed.
Notation parts_simulation := (configured (snd (final growth_parts)) growth_conf).
Lemma growth_simulates : dae_simulates (final growth) (the_block growth) "t_M" print_one test_library [growth_domain] growth_simulation 0 [("z_M", "rate")] 0%R 1%R 3%R 2.
Proof.
  constructor.
  - reflexivity.
  - reflexivity.
  - exists growth_domain. split; [reflexivity|]. split; [exact growth_cleared|]. split; [reflexivity|]. split; [rewrite growth_names; reflexivity|].
    repeat constructor; cbn; intuition discriminate.
  - reflexivity.
  - apply growth_solves, growth_is_one.
  - split; [eexists; split; reflexivity|]. split; [eexists; split; reflexivity|]. split; reflexivity.
Qed.
Lemma growth_parts_simulates :
  dae_simulates (final growth_parts) (the_block growth_parts) "t_M" print_one test_library [growth_domain] parts_simulation 0 [("z_M", "rate")] 0%R 1%R 3%R 2.
Proof.
  constructor.
  - reflexivity.
  - reflexivity.
  - exists growth_domain. split; [reflexivity|]. split; [exact growth_cleared|]. split; [reflexivity|]. split; [rewrite growth_parts_names; reflexivity|].
    repeat constructor; cbn; intuition discriminate.
  - reflexivity.
  - apply growth_solves, growth_parts_is_one.
  - split; [eexists; split; reflexivity|]. split; [eexists; split; reflexivity|]. split; reflexivity.
Qed.
Example C84_dae_simulations_case :
  dae_problem growth (final growth) (the_block growth) (program_says growth) "t_M" print_one the_dae /\
  dae_problem growth_parts (final growth_parts) (the_block growth_parts) (composed_says growth_parts (the_accounts growth_parts)) "t_M" print_one the_dae /\
  (forall x, In x (b_varlist (the_block growth)) <-> In x (b_varlist (the_block growth_parts))) /\
  (forall x, In x (b_varlist (the_block growth)) <-> In x (dnames the_dae) \/ In x ["z_M"]) /\
  follow (program_says growth) (composed_says growth_parts (the_accounts growth_parts)) "t_M" (dnames the_dae) ["z_M"] /\
  same_dae_rates (program_says growth) (composed_says growth_parts (the_accounts growth_parts)) "t_M" (dnames the_dae) ["z_M"] /\
  same_starts growth growth_parts (dnames the_dae) /\
  dae_simulates (final growth) (the_block growth) "t_M" print_one test_library [growth_domain] growth_simulation 0 [("z_M", "rate")] 0%R 1%R 3%R 2 /\
  dae_simulates (final growth_parts) (the_block growth_parts) "t_M" print_one test_library [growth_domain] parts_simulation 0 [("z_M", "rate")] 0%R 1%R 3%R 2 /\
  exists ts rows d ts' rows' d',
    whole_run test_library no_arrays print_one no_print (pw_heap (fst (final growth))) store0 [growth_domain] growth_simulation true =
      (growth_store, [d], Ok (WRun ts rows)) /\
    whole_run test_library no_arrays print_one no_print (pw_heap (fst (final growth_parts))) store0 [growth_domain] parts_simulation true =
      (growth_store, [d'], Ok (WRun ts' rows')).
Proof.
  split; [exact growth_problem|]. split; [exact growth_parts_problem|]. split; [intros x; rewrite growth_names, growth_parts_names; tauto|].
  split; [intros x; rewrite growth_names; cbn; tauto|]. split; [exact growth_follows|]. split; [exact growth_same|]. split; [exact growth_same_starts|].
  split; [exact growth_simulates|]. split; [exact growth_parts_simulates|].
  assert (O : dae_solve growth_ida print_one no_print (snd (final growth)) (the_block growth) growth_with growth_domain =
    (growth_table [("z_M", "rate")] growth_points (map (growth_curve 1 1) growth_points), Ok (growth_points, map (growth_curve 1 1) growth_points))).
  { apply growth_by_ida; [now right|now exists 3%R|reflexivity|vm_compute; reflexivity| |].
    - rewrite growth_function. eexists. reflexivity.
    - assert (E : diff_flags (the_block growth) = [true; false]) by (vm_compute; reflexivity). rewrite E. reflexivity. }
  assert (O' : dae_solve growth_ida print_one no_print (snd (final growth_parts)) (the_block growth_parts) growth_with growth_domain =
    (growth_table [("z_M", "rate")] growth_points (map (growth_curve 1 1) growth_points), Ok (growth_points, map (growth_curve 1 1) growth_points))).
  { apply growth_by_ida; [now right|now exists 3%R|reflexivity|vm_compute; reflexivity| |].
    - rewrite growth_parts_function. eexists. reflexivity.
    - assert (E : diff_flags (the_block growth_parts) = [true; false]) by (vm_compute; reflexivity). rewrite E. reflexivity. }
  eexists _, _, _, _, _, _. split; [refine (growth_runs _ (the_block growth) _ growth_domain _ _ _ _ _ _ _ _ O); vm_compute; reflexivity|].
  refine (growth_runs _ (the_block growth_parts) _ growth_domain _ _ _ _ _ _ _ _ O'); vm_compute; reflexivity.
Qed.

(** ** Variables no equation gives *)
(** dx/dt == 0*x, z*z == x: from x = 1 there are two functions z. *)
Definition square_things : dict thing := ("t", mkThing "t_M" (PInt 0) false) :: growth_things.
Definition square (w : written) : Prop :=
  w = read_eq square_things "e" (UElem (UDiff "x" (Some "t")) (UNumL BMul (PInt 0) (UQty "x"))) \/
  w = read_eq square_things "f" (UElem (UBin BMul (UQty "z") (UQty "z")) (UQty "x")).
Definition branch (z : R) (y : string) (_ : R) : R := if String.eqb y "z_M" then z else 1%R.
Lemma branch_obeys z : (z * z = 1)%R -> dae_obeys_all square "t_M" ["x_M"; "z_M"] ["x_M"] 0%R [1%R] (branch z).
Proof.
  intros Z tau _. split.
  - exists (mkEnv (fun y => if String.eqb y "t_M" then tau else branch z y tau) (fun _ _ => 0%R)). split; [reflexivity|]. split; [intros x [<-|[<-|[]]]; reflexivity|].
    intros x [<-|[]]. exact (derivable_pt_lim_const 1 tau).
  - intros en (_ & A & B) w [-> | ->]; cbn.
    + rewrite (uniqueness_limite _ _ _ _ (B "x_M" (or_introl eq_refl)) (derivable_pt_lim_const 1 tau)), (A "x_M") by (now left). cbn. f_equal. lra.
    + rewrite (A "x_M"), (A "z_M") by (cbn; auto). cbn. f_equal. lra.
Qed.
Theorem C84_dae_branches_refuted : exists P t names diffs t0 times sol sol' tau z, same_dae_rates P P t diffs [] /\
  dae_obeys_all P t names diffs t0 times sol /\ dae_obeys_all P t names diffs t0 times sol' /\ (forall x, In x diffs -> sol x t0 = sol' x t0) /\
  during t0 times tau /\ In z names /\ sol z tau <> sol' z tau.
Proof.
  exists square, "t_M", ["x_M"; "z_M"], ["x_M"], 0%R, [1%R], (branch 1), (branch (-1)), 1%R, "z_M". split.
  { intros x [<-|[]]. exists (fun en => Some (0 * e_sym en "x_M")%R), (fun en => Some (0 * e_sym en "x_M")%R).
    assert (C : change_said square "x_M" "t_M" (fun en => Some (0 * e_sym en "x_M")%R)).
    { eexists. split; [left; reflexivity|]. intros en Z. cbn in Z. f_equal. assert (e_der en "x_M" "t_M" - 0 * e_sym en "x_M" = 0)%R by congruence. lra. }
    do 3 (split; [auto|]). apply (gentle_steady square_things "t_M" ["x_M"] (UNumL BMul (PInt 0) (UQty "x"))). split; [discriminate|]. intros y E. injection E as <-. right. right. now left. }
  split; [apply branch_obeys; lra|]. split; [apply branch_obeys; lra|]. split; [intros x [<-|[]]; reflexivity|].
  split; [exists 1%R; split; [now left|lra]|]. split; [right; now left|]. cbn. lra.
Qed.
Print Assumptions C84_dae_branches_refuted.
