(** Property theorems C86 (when a simulation starts). *)
From Verif Require Import Base Num UnitModel Sympy Node Build EquationModel ModelModel ProblemModel SimModel WholeModel SpecProblem SpecStart StartFacts Properties07Problems.
From Verif Require SpecSim Properties29Run.
Notation num := Verif.Num.num.
Notation fall := Properties29Run.fall.

(** ** C86 *)
Theorem C86_starts : forall st s sanity dof, (forall c, sm_conf s = Some c -> complete c) ->
  (exists st' x, prepare st s sanity dof = (st', Ok x)) <-> ready st s sanity dof.
Proof. exact starts. Qed.
Print Assumptions C86_starts.

(** Refused: the simulation is as before. *)
Theorem C86_refused : forall tables st s sanity show dof out, (forall c, sm_conf s = Some c -> complete c) -> ~ ready st s sanity dof ->
  exists st' x, run_sim tables st s sanity show dof out = (st', s, Raise x).
Proof. exact run_refused. Qed.
Print Assumptions C86_refused.

(** What is reported depends on what is missing, and only on that. *)
Theorem C86_reported : forall tables st s sanity show dof out, (forall c, sm_conf s = Some c -> complete c) -> ~ ready st s sanity dof ->
  forall x, reported st s sanity dof x <-> exists st', run_sim tables st s sanity show dof out = (st', s, Raise x).
Proof. exact refusal_reported. Qed.
Print Assumptions C86_reported.

(** Not refused: what the solver returns is the output. *)
Theorem C86_runs : forall tables st s sanity dof o c, sm_conf s = Some c -> complete c -> ready st s sanity dof ->
  exists st' d, dget "domain" c = Some d /\
    run_sim tables st s sanity false dof (Ok o) = (st', mkSim (sm_problem s) (sm_conf s) (Some o) d (sm_status s), Ok tt).
Proof. exact run_started. Qed.
Print Assumptions C86_runs.

(** A time variable without an initial condition. *)
Theorem C86_time : forall tables st s sanity show dof out c p b t, sm_conf s = Some c -> complete c -> sm_problem s = Some p -> pr_block p = Some b ->
  kind b "differential" \/ kind b "differential-algebraic" ->
  dget "problem_type" c = Some VNone -> dget "time_variable_name" c = Some (VStr t) -> ~ begins p t ->
  run_sim tables st s sanity show dof out = (st, s, Raise EAbsentRequired).
Proof. exact run_time_missing. Qed.
Print Assumptions C86_time.

(** Options given by keywords or in a dictionary are complete. *)
Theorem C86_complete : forall s a s' c, set_configurations s a = Ok s' -> ca_file a = None -> (forall d, ca_dict a = VDict d -> NoDup (dkeys d)) ->
  sm_conf s' = Some c -> complete c.
Proof. exact given_complete. Qed.
Print Assumptions C86_complete.

(** The whole simulation of C83. *)
Theorem C86_whole : forall lib arrays pn ps h st doms s sanity st' doms' out, (forall c, sm_conf s = Some c -> complete c) ->
  whole_run lib arrays pn ps h st doms s sanity = (st', doms', Ok out) -> ready st s false (Ok true).
Proof. exact whole_started. Qed.
Print Assumptions C86_whole.
Theorem C86_whole_refused : forall lib arrays pn ps h st doms s sanity, (forall c, sm_conf s = Some c -> complete c) -> ~ ready st s false (Ok true) ->
  exists st' x, whole_run lib arrays pn ps h st doms s sanity = (st', doms, Raise x).
Proof. exact whole_refused. Qed.
Print Assumptions C86_whole_refused.

(** The falling body of C79 with its time variable, and with one that has no
    initial condition. *)
Definition timed (t : string) : confargs := mkConf [("time_variable_name", VStr t)] VNone None.
Definition timed_sim (p : problem) (t : string) : sim :=
  match set_configurations (with_problem new_sim p) (timed t) with Ok s => s | Raise _ => new_sim end.
Lemma timed_ready p b t : pr_block p = Some b -> kind b "differential" -> begins p t -> ready store0 (timed_sim p t) true (Ok true).
Proof.
  intros Eb K B. exists (kw_dict (timed t)), p, b, "differential". split; [reflexivity|]. split; [reflexivity|]. split; [exact Eb|]. split; [exact K|].
  split; [now left|]. split; [discriminate|]. split; [split; [intros _|discriminate]|].
  - exists (VStr t). split; [reflexivity|]. left. eauto.
  - split; [|intros _; eauto]. intros _. right. left. exists 0%nat. split; [reflexivity|]. cbn. auto.
Qed.
Example C86_case : exists p b, pr_block p = Some b /\ kind b "differential" /\ begins p "t_M" /\ ~ begins p "s_M" /\
  complete (kw_dict (timed "t_M")) /\ ready store0 (timed_sim p "t_M") true (Ok true) /\
  sm_conf (timed_sim p "s_M") = Some (kw_dict (timed "s_M")) /\ complete (kw_dict (timed "s_M")) /\
  dget "problem_type" (kw_dict (timed "s_M")) = Some VNone /\ dget "time_variable_name" (kw_dict (timed "s_M")) = Some (VStr "s_M").
Proof.
  exists (snd (final fall)), (the_block fall).
  assert (Eb : pr_block (snd (final fall)) = Some (the_block fall)) by (apply run_resolved; vm_compute; reflexivity).
  assert (K : kind (the_block fall) "differential") by (apply kind_type; exists PTDiff; split; [vm_compute; reflexivity|reflexivity]).
  assert (I : dkeys (pr_init (snd (final fall))) = ["x_M"; "y_M"; "t_M"]) by (vm_compute; reflexivity).
  assert (B : begins (snd (final fall)) "t_M") by (unfold begins; rewrite I; cbn; auto).
  assert (C : forall t, complete (kw_dict (timed t))).
  { intros t. apply (given_complete (with_problem new_sim (snd (final fall))) (timed t) (timed_sim (snd (final fall)) t)); [reflexivity|reflexivity|discriminate|reflexivity]. }
  split; [exact Eb|]. split; [exact K|]. split; [exact B|]. split.
  - unfold begins. rewrite I. cbn. intuition discriminate.
  - split; [apply C|]. split; [exact (timed_ready _ _ _ Eb K B)|]. split; [reflexivity|]. split; [apply C|]. split; reflexivity.
Qed.

(** ** A solver that is not known *)
(** x**2 - 9 == 0 by "newton".  The message asks for AbsentRequiredObjectError; its text
    cannot be put together, which is a TypeError. *)
Definition rooted : list act :=
  [ANew "M" (mkDecls [] [] [CVar "x" "x" u_dimless false "" (PInt 0)]
     [CEq "e" "e" (UResid (UNumR BSub (UNumR BPow (UQty "x") (PInt 2)) (PInt 9))) true]);
   ACall 0%nat; AAdd 0%nat].
Definition by_newton : confargs := mkConf [("nonlinear_solver", VStr "newton")] VNone None.
Definition newton_sim (p : problem) : sim := match set_configurations (with_problem new_sim p) by_newton with Ok s => s | Raise _ => new_sim end.
Lemma newton_complete (p : problem) : complete (kw_dict by_newton).
Proof. apply (given_complete (with_problem new_sim p) by_newton (newton_sim p)); [reflexivity|reflexivity|discriminate|reflexivity]. Qed.
Lemma newton_reported p b : pr_block p = Some b -> kind b "nonlinear" -> reported store0 (newton_sim p) true (Ok true) EType.
Proof.
  intros Eb K. refine (rp_options_of store0 (newton_sim p) true (Ok true) (kw_dict by_newton) p b "nonlinear" EType eq_refl eq_refl Eb K (or_introl eq_refl) _).
  refine (un_solver store0 p (kw_dict by_newton) "nonlinear" (VStr "newton") eq_refl eq_refl _ _); [discriminate|]. intros x H. injection H as <-. cbn. intuition discriminate.
Qed.
Lemma rooted_kind : pr_block (snd (final rooted)) = Some (the_block rooted) /\ kind (the_block rooted) "nonlinear".
Proof.
  split; [apply run_resolved; vm_compute; reflexivity|]. apply kind_type. exists PTNonlinear. split; [vm_compute; reflexivity|reflexivity].
Qed.
Theorem C86_unknown_solver_refuted : exists s c p b, sm_conf s = Some c /\ complete c /\ sm_problem s = Some p /\ pr_block p = Some b /\ kind b "nonlinear" /\
  dget "problem_type" c = Some VNone /\ dget "nonlinear_solver" c = Some (VStr "newton") /\
  forall tables show out, exists st', run_sim tables store0 s true show (Ok true) out = (st', s, Raise EType).
Proof.
  destruct rooted_kind as [B K]. exists (newton_sim (snd (final rooted))), (kw_dict by_newton), (snd (final rooted)), (the_block rooted).
  split; [reflexivity|]. split; [exact (newton_complete (snd (final rooted)))|]. split; [reflexivity|]. split; [exact B|]. split; [exact K|]. split; [reflexivity|]. split; [reflexivity|].
  intros tables show out. apply run_reports; [|exact (newton_reported _ _ B K)]. intros c E. injection E as <-. exact (newton_complete (snd (final rooted))).
Qed.
Print Assumptions C86_unknown_solver_refuted.
Example C86_reported_case : exists s, (forall c, sm_conf s = Some c -> complete c) /\ reported store0 s true (Ok true) EType /\ ~ ready store0 s true (Ok true).
Proof.
  destruct rooted_kind as [B K]. exists (newton_sim (snd (final rooted))).
  assert (C : forall c, sm_conf (newton_sim (snd (final rooted))) = Some c -> complete c) by (intros c E; injection E as <-; exact (newton_complete (snd (final rooted)))).
  split; [exact C|]. split; [exact (newton_reported _ _ B K)|]. exact (reported_not_ready _ _ _ _ _ C (newton_reported _ _ B K)).
Qed.
