(** What C68, C69 and C83 do not extend to. *)
From Verif Require Import Base Num NumFacts UnitModel UnitFacts Sympy Node Build EquationModel ModelModel ProblemModel SolverModel DomainModel
  SpecUnits SpecExpr SpecDims SpecModel SpecInc SpecCall SpecProblem SpecSolver SpecSymbols SpecWritten SpecExact
  ProblemFacts SessionFacts UsualFacts DofFacts SolverFacts OdeFacts SymbolFacts WrittenFacts ExactFacts SpecSession StudyFacts SpecSaid SaidFacts SimModel RunModel WholeModel SpecWhole WholeFacts Demo
  Properties07Problems Properties08Solvers Properties14Symbols Properties16Written Properties18Exact Properties24Said Properties29Run Properties33Whole.
From Verif Require SpecSim.
From Coq Require Import Reals Lra.
Notation num := Verif.Num.num.

Definition nothing_written : written := mkWritten "" (fun _ => None) None.
Lemma algebraic_legible : all_legible algebraic.
Proof. intros M d [E|[]]. injection E as <- <-. split; [reflexivity|]. cbn. repeat (constructor; [simpl; intuition discriminate|]). constructor. Qed.
Lemma algebraic_second : part_of algebraic (nth 1 (written_by "M" algebraic_decls) nothing_written).
Proof.
  exists 0%nat, "M", algebraic_decls. assert (A : added algebraic = [0%nat]) by (vm_compute; reflexivity). rewrite A. split; [now left|]. split; [reflexivity|]. right. now left.
Qed.

(** ** C68 *)
(** x == y + 2 and y == 3*x: y = -2, x = 0 solves the problem, not what was written. *)
Theorem C68_equation_refuted : exists acts s b en x, resolved acts s b /\ distinct_models acts /\ forallb (ordinary false) acts = true /\
  forallb clean_act acts = true /\ all_legible acts /\ solved en b /\ part_of acts x /\ wr_value x en <> Some 0%R.
Proof.
  exists algebraic, (final algebraic), (the_block algebraic), (bind_env algebraic_answer), (nth 1 (written_by "M" algebraic_decls) nothing_written).
  assert (R : resolved algebraic (final algebraic) (the_block algebraic)) by (apply run_resolved; vm_compute; reflexivity).
  split; [exact R|]. split; [apply (one_distinct algebraic "M"); vm_compute; reflexivity|]. split; [reflexivity|]. split; [reflexivity|].
  split; [exact algebraic_legible|]. split; [exact (answer_solves _ _ _ _ _ R checker_honest algebraic_solved)|]. split; [exact algebraic_second|].
  cbn. intros H. injection H as H. lra.
Qed.
Print Assumptions C68_equation_refuted.

(** ** C69 *)
(** dx/dt == t: no value is handed to the integrator. *)
Theorem C69_time_refuted : exists acts s b init ds w g, resolved acts s b /\ distinct_models acts /\ forallb (ordinary false) acts = true /\ all_legible acts /\
  pr_time (snd s) = Some ["t_M"] /\ part_of acts w /\ rate w "x_M" "t_M" g /\ (forall en, g en = Some (e_sym en "t_M")) /\
  dsolver_init b init (TNames ["t_M"]) false = Ok ds /\ forall y tau, snd (ode_interface print_one (snd s) b ds [y] tau) = Ok [None].
Proof.
  destruct (ok_solver (the_block bare_time) bare_init (TNames ["t_M"]) false) as (ds & Es); [vm_compute; reflexivity|].
  assert (T : pr_time (snd (final bare_time)) = Some ["t_M"]) by (vm_compute; reflexivity).
  assert (D : added bare_time = [0%nat]) by (vm_compute; reflexivity).
  assert (C : exists d, nth_error (created bare_time) 0%nat = Some ("M", d) /\ created bare_time = [("M", d)] /\ legible "M" d /\
    exists w g, In w (written_by "M" d) /\ rate w "x_M" "t_M" g /\ forall en, g en = Some (e_sym en "t_M")).
  { eexists. split; [reflexivity|]. split; [reflexivity|]. split; [split; [reflexivity|]; cbn; repeat (constructor; [simpl; intuition discriminate|]); constructor|].
    eexists _, _. split; [left; reflexivity|]. split; [|reflexivity]. eexists. split; reflexivity. }
  destruct C as (d & C & Cs & Lg & w & g & Hw & Rt & Hg).
  exists bare_time, (final bare_time), (the_block bare_time), bare_init, ds, w, g.
  split; [apply run_resolved; vm_compute; reflexivity|]. split; [apply (one_distinct bare_time "M"); vm_compute; reflexivity|].
  split; [vm_compute; reflexivity|]. split; [intros M d'; rewrite Cs; intros [E|[]]; now injection E as <- <-|]. split; [exact T|].
  split; [exists 0%nat, "M", d; rewrite D; split; [now left|now split]|]. split; [exact Rt|]. split; [exact Hg|]. split; [exact Es|]. intros y tau.
  assert (K' : match dsolver_init (the_block bare_time) bare_init (TNames ["t_M"]) false with
              | Ok s => (dkeys (ds_y s), ds_fun s, map (fun e => match eval_target e (Some SRhs) with Ok (Some n) => Some (nd_sym n) | _ => None end) (ds_eqs s))
              | Raise x => ([], None, []) end = (["x_M"], None, [Some (SSym "t_M")])) by (vm_compute; reflexivity).
  rewrite Es in K'. injection K' as K1' K2' K3'.
  assert (H : has_var print_one (Some ["t_M"]) (b_diff (the_block bare_time)) = Ok false) by (vm_compute; reflexivity).
  unfold ode_interface. rewrite T. cbn [bind_times]. rewrite H, K1', K2'. cbn [rbind snd].
  destruct (ds_eqs ds) as [|e [|]]; try discriminate K3'. injection K3' as K3'. cbn [map_res].
  change (match eval_target e (Some SRhs) with Ok (Some n) => Some (nd_sym n) | _ => None end = Some (SSym "t_M")) in K3'.
  destruct (eval_target e (Some SRhs)) as [[n|]|] in K3' |- *; try discriminate K3'. injection K3' as K3'. rewrite K3'. reflexivity.
Qed.
Print Assumptions C69_time_refuted.

(** ** C83 *)
(** A simulation of x == y + 2 and y == 3*x. *)
Definition algebraic_conf : confargs := mkConf [("initial_guess", VDict [("y_M", VNum (PInt (-2))); ("x_M", VNum (PInt 0))])] VNone None.
Lemma algebraic_runs p b h : pr_block p = Some b -> choose_solver None b = Ok LASolver -> create_solver b = Ok LASolver -> dof_test print_one h p = Ok true ->
  b_varlist b = ["y_M"; "x_M"] -> root_of (b_varlist b) (b_exprs b) [-2; 0]%R ->
  whole_run test_library no_arrays print_one no_print h store0 [] (configured p algebraic_conf) true = (store0, [], Ok (WDict algebraic_answer)).
Proof.
  intros Hb T K D V Ro. eapply run_as; [reflexivity|exact Hb|reflexivity|reflexivity|reflexivity|exact T| |].
  - unfold make_solver. rewrite K. reflexivity.
  - unfold run_solver. rewrite D. cbn [rbind]. unfold la_run.
    match goal with |- context [opt ?c "linear_solver"] => change (opt c "linear_solver") with (Ok (VStr "symbolicsys")) end.
    cbn [rbind name_option]. change (la_lookup (Some "symbolicsys")) with (Some MSymbolicSys).
    match goal with |- context [opt ?c "initial_guess"] => change (opt c "initial_guess") with (Ok (VDict [("y_M", VNum (PInt (-2))); ("x_M", VNum (PInt 0))])) end.
    cbn [rbind].
    match goal with |- context [guess_option ?v] => change (guess_option v) with (Ok [("y_M", -2); ("x_M", 0)]%R) end.
    cbn [rbind test_library lib_roots]. unfold la_solve. change (la_lookup (Some "symbolicsys")) with (Some MSymbolicSys). unfold symbolicsys. rewrite V in *.
    match goal with |- context [first_guess ?u ?a ?b] => change (first_guess u a b) with (Ok [-2; 0]%R) end. cbn [rbind]. apply checker_spec in Ro.
    match goal with |- context [root_find checker ?v ?e ?g] => change (root_find checker v e g) with (fst (root_find checker v e g), g) end.
    rewrite Ro. reflexivity.
Qed.
Theorem C83_equation_refuted : exists acts s b lib sm out r x, resolved acts s b /\ all_ok start_session acts /\ distinct_models acts /\ readable_program acts /\
  honest (lib_roots lib) /\ proper_answers (lib_roots lib) /\ sm_problem sm = Some (snd s) /\
  whole_run lib no_arrays print_one no_print (pw_heap (fst s)) store0 [] sm true = (store0, [], Ok out) /\ whole_results [] sm out RDict = Ok (WByName r) /\
  part_of acts x /\ wr_value x (bind_env r) <> Some 0%R.
Proof.
  exists algebraic, (final algebraic), (the_block algebraic), test_library, (configured (snd (final algebraic)) algebraic_conf), (WDict algebraic_answer),
    [("x_M", 0); ("y_M", -2)]%R, (nth 1 (written_by "M" algebraic_decls) nothing_written).
  split; [apply run_resolved; vm_compute; reflexivity|]. split; [apply runs_all; vm_compute; reflexivity|].
  split; [apply (one_distinct algebraic "M"); vm_compute; reflexivity|]. split; [apply readable_by; vm_compute; reflexivity|].
  split; [exact checker_honest|]. split; [exact checker_proper|]. split; [vm_compute; reflexivity|].
  assert (V : b_varlist (the_block algebraic) = ["y_M"; "x_M"]) by (vm_compute; reflexivity).
  assert (E : b_exprs (the_block algebraic) = [SAdd (SSym "y_M") (SNum (PInt 2)); SMul (SSym "x_M") (SNum (PInt 3))]) by (vm_compute; reflexivity).
  split.
  - apply algebraic_runs with (b := the_block algebraic); [vm_compute; reflexivity..|exact V|]. rewrite V, E. split; [reflexivity|].
    intros e [<-|[<-|[]]]; cbn; f_equal; lra.
  - split; [vm_compute; reflexivity|]. split; [exact algebraic_second|]. cbn. intros H. injection H as H. lra.
Qed.
Print Assumptions C83_equation_refuted.
