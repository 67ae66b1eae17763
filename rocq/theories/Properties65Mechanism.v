(** Property theorems: a simulation that ends well was asked for a mechanism that there is,
    and for an end it can reckon with (C83). *)
From Verif Require Import Base BaseFacts Num UnitModel Sympy Node Build EquationModel ModelModel ProblemModel SpecUnits SpecExpr SpecModel SpecInc SpecCall SpecProblem
  ProblemFacts SessionFacts SpecLink SolverModel DomainModel SpecSolver SolverFacts SpecSymbols SpecWritten SimModel RunModel WholeModel SpecWhole WholeFacts
  SpecAsked AskedFacts SpecMechanism MechanismFacts Demo
  Properties07Problems Properties08Solvers Properties16Written Properties24Said Properties29Run Properties30Dae Properties33Whole Properties37Simulations.
From Verif Require SpecSim.
From Coq Require Import Reals Lra.
Notation num := Verif.Num.num.

(** ** C83 *)
(** A name that is none of the known ones, or no name at all, gives no results. *)
Theorem C83_mechanism lib arrays pn ps h st doms sm sanity st' doms' out p b :
  sm_problem sm = Some p -> pr_block p = Some b -> whole_run lib arrays pn ps h st doms sm sanity = (st', doms', Ok out) ->
  (problem_type b = Some PTLinear -> picks sm "linear_solver" ["sympy"; "scipy"; "symbolicsys"]) /\
  (problem_type b = Some PTNonlinear -> picks sm "nonlinear_solver" ["*"; "symbolicsys"; "sympy"]) /\
  (problem_type b = Some PTDiff -> picks sm "differential_solver" ["ODEINT"; "CVODE"]) /\
  (problem_type b = Some PTDae -> picks sm "differential_algebraic_solver" ["IDA"]).
Proof. exact (mechanism lib arrays pn ps h st doms sm sanity st' doms' out p b). Qed.
Print Assumptions C83_mechanism.

(** A simulation in time ends at a number that was given, unless its times were. *)
Theorem C83_end lib arrays pn ps h st doms sm sanity st' doms' out p b :
  sm_problem sm = Some p -> pr_block p = Some b -> whole_run lib arrays pn ps h st doms sm sanity = (st', doms', Ok out) ->
  (problem_type b = Some PTDiff -> default sm "times_for_solution" \/ chosen sm "differential_solver" "CVODE" ->
     exists n e, SpecSim.option_of sm "end_time" = Some (VNum n) /\ real_of n = Ok e) /\
  (problem_type b = Some PTDae -> exists n e, SpecSim.option_of sm "end_time" = Some (VNum n) /\ real_of n = Ok e).
Proof. exact (ends lib arrays pn ps h st doms sm sanity st' doms' out p b). Qed.
Print Assumptions C83_end.

Example C83_mechanism_case : sm_problem fall_by_adams = Some (snd (final fall)) /\ pr_block (snd (final fall)) = Some (the_block fall) /\
  problem_type (the_block fall) = Some PTDiff /\ default fall_by_adams "times_for_solution" /\ chosen fall_by_adams "differential_solver" "CVODE" /\
  exists ts rows d, whole_run test_library no_arrays print_one no_print (pw_heap (fst (final fall))) store0 [fall_domain] fall_by_adams true = (fall_store, [d], Ok (WRun ts rows)).
Proof.
  split; [vm_compute; reflexivity|]. split; [vm_compute; reflexivity|]. split; [vm_compute; reflexivity|]. split; [vm_compute; reflexivity|]. split; [vm_compute; reflexivity|].
  destruct C84_simulations_case as (_ & _ & ts & rows & d & _ & _ & _ & H & _). exists ts, rows, d. exact H.
Qed.

(** The times of a simulation are the ones of the array given for them, in the order of the
    array; a list is taken by one mechanism only.  [C83_mechanism_case] meets the hypotheses. *)
Theorem C83_times lib arrays pn ps h st doms sm sanity st' doms' out p b :
  sm_problem sm = Some p -> pr_block p = Some b -> problem_type b = Some PTDiff -> whole_run lib arrays pn ps h st doms sm sanity = (st', doms', Ok out) ->
  default sm "times_for_solution" \/
  (exists o l, SpecSim.option_of sm "times_for_solution" = Some (VObj o) /\ arrays o = Some l /\
     (default sm "differential_solver" \/ chosen sm "differential_solver" "ODEINT" -> exists rows, out = WRun l rows)) \/
  (exists l rs, SpecSim.option_of sm "times_for_solution" = Some (VList l) /\ map_res number_option l = Ok rs /\ chosen sm "differential_solver" "CVODE").
Proof. exact (times_read lib arrays pn ps h st doms sm sanity st' doms' out p b). Qed.
Print Assumptions C83_times.

(** For that mechanism a list of numbers is as good as an array of them. *)
Theorem C83_listed lib arrays pn ps h st doms s s' sanity l o rs : sm_problem s = sm_problem s' ->
  (forall k, k <> "times_for_solution" -> SpecSim.option_of s k = SpecSim.option_of s' k) -> chosen s "differential_solver" "CVODE" ->
  SpecSim.option_of s "times_for_solution" = Some (VList l) -> SpecSim.option_of s' "times_for_solution" = Some (VObj o) ->
  arrays o = Some rs -> Forall2 (fun v r => exists n, v = VNum n /\ real_of n = Ok r) l rs ->
  whole_run lib arrays pn ps h st doms s sanity = whole_run lib arrays pn ps h st doms s' sanity.
Proof. exact (listed lib arrays pn ps h st doms s s' sanity l o rs). Qed.
Print Assumptions C83_listed.

Definition timed_conf (v : cval) : confargs :=
  mkConf [("domain", VObj 0); ("differential_solver", VStr "CVODE"); ("is_dynamic", VBool true); ("end_time", VNum (PInt 2)); ("number_of_time_steps", VNum (PInt 2));
          ("times_for_solution", v)] VNone None.
Lemma timed_conf_of p v : pr_time p = Some ["t_M"] -> sm_conf (configured p (timed_conf v)) = Some (dset "time_variable_name" (VList [VStr "t_M"]) (kw_dict (timed_conf v))).
Proof. intros Tm. unfold configured, set_configurations. cbn -[time_value]. unfold time_value. rewrite Tm. reflexivity. Qed.
Lemma timed_options p v v' k : pr_time p = Some ["t_M"] -> k <> "times_for_solution" ->
  SpecSim.option_of (configured p (timed_conf v)) k = SpecSim.option_of (configured p (timed_conf v')) k.
Proof.
  intros Tm N. unfold SpecSim.option_of. rewrite !(timed_conf_of p) by exact Tm. rewrite !dget_dset. destruct (String.eqb k "time_variable_name"); [reflexivity|].
  unfold kw_dict. apply String.eqb_neq in N. assert (K : kw (timed_conf v) k = kw (timed_conf v') k).
  { unfold kw, timed_conf. cbn [ca_kwargs dget]. rewrite N. reflexivity. }
  induction conf_defaults as [|[x d] r IH]; [reflexivity|]. cbn [map dget fst].
  destruct (String.eqb_spec k x) as [E|_]; [|exact IH]. subst x. rewrite K. reflexivity.
Qed.
Lemma timed_times p v : pr_time p = Some ["t_M"] -> SpecSim.option_of (configured p (timed_conf v)) "times_for_solution" = Some v /\
  chosen (configured p (timed_conf v)) "differential_solver" "CVODE".
Proof. intros Tm. unfold chosen, SpecSim.option_of. rewrite (timed_conf_of p) by exact Tm. split; reflexivity. Qed.
Lemma timed_problem p v : sm_problem (configured p (timed_conf v)) = Some p.
Proof. reflexivity. Qed.
Example C83_listed_case : exists p, pr_time p = Some ["t_M"] /\
  let s := configured p (timed_conf (VList [VNum (PInt 0); VNum (PInt 1); VNum (PInt 2)])) in let s' := configured p (timed_conf (VObj 1)) in
  sm_problem s = sm_problem s' /\ (forall k, k <> "times_for_solution" -> SpecSim.option_of s k = SpecSim.option_of s' k) /\ chosen s "differential_solver" "CVODE" /\
  SpecSim.option_of s "times_for_solution" = Some (VList [VNum (PInt 0); VNum (PInt 1); VNum (PInt 2)]) /\ SpecSim.option_of s' "times_for_solution" = Some (VObj 1) /\
  Forall2 (fun v r => exists n, v = VNum n /\ real_of n = Ok r) [VNum (PInt 0); VNum (PInt 1); VNum (PInt 2)] [0%R; 1%R; 2%R].
Proof.
  assert (Tm : pr_time (snd (final fall)) = Some ["t_M"]) by (vm_compute; reflexivity). exists (snd (final fall)). split; [exact Tm|].
  generalize (snd (final fall)) Tm. intros p Tp. cbv zeta. split; [rewrite !timed_problem; reflexivity|]. split; [intros k; exact (timed_options p _ _ k Tp)|].
  split; [exact (proj2 (timed_times p _ Tp))|]. split; [exact (proj1 (timed_times p _ Tp))|]. split; [exact (proj1 (timed_times p _ Tp))|].
  repeat constructor; eexists; split; reflexivity.
Qed.
