(** Property theorems C68, C69 (nothing but what was written is solved and
    integrated). *)
From Verif Require Import Base Num NumFacts UnitModel UnitFacts Sympy Node Build EquationModel ModelModel ProblemModel SolverModel
  SpecUnits SpecExpr SpecDims SpecModel SpecInc SpecCall SpecProblem SpecSolver SpecSymbols SpecWritten SpecExact
  ProblemFacts SessionFacts UsualFacts SolverFacts SymbolFacts WrittenFacts ExactFacts Demo Properties07Problems Properties08Solvers
  Properties14Symbols Properties16Written.
From Coq Require Import Reals Lra.
Notation num := Verif.Num.num.

(** ** C68 *)
(** Full statement: for all sessions.  Missing: incorporated models, statements on
    models that create objects or set values from outside, connections given with an
    expression. *)
Theorem C68_nothing_else_partial : forall acts s b e, resolved acts s b -> distinct_models acts ->
  forallb (ordinary false) acts = true -> all_legible acts -> In e (b_eqs b) ->
  (exists i M d x, In i (added acts) /\ nth_error (created acts) i = Some (M, d) /\ In x (written_by M d) /\
     eq_name e = (wr_name x ++ "_" ++ M)%string /\ says x e) \/
  (exists j os is, In j (added acts) /\ connected acts j os is /\ balances os is e).
Proof. exact block_only. Qed.
Print Assumptions C68_nothing_else_partial.

Theorem C68_system_partial : forall acts s b en, resolved acts s b -> distinct_models acts ->
  forallb (ordinary false) acts = true -> forallb clean_act acts = true -> all_legible acts ->
  (solved en b <->
   (forall i M d x, In i (added acts) -> nth_error (created acts) i = Some (M, d) -> In x (written_by M d) -> asks x en) /\
   (forall j os is, In j (added acts) -> connected acts j os is -> sum_named en is = sum_named en os)).
Proof. exact system_written. Qed.
Print Assumptions C68_system_partial.

Lemma flow_all_legible : all_legible flow.
Proof. intros M d [E|[E|[]]]; injection E as <- <-; apply flow_legible. Qed.
Example C68_case : resolved flow (final flow) (the_block flow) /\ distinct_models flow /\ forallb (ordinary false) flow = true /\
  forallb clean_act flow = true /\ all_legible flow /\
  map eq_name (b_eqs (the_block flow)) = ["e_S"; "e_R"; "q_S--->p_R"] /\ connected flow 1%nat ["q_S"] ["p_R"].
Proof.
  split; [apply run_resolved; vm_compute; reflexivity|]. split; [exact flow_distinct|]. split; [vm_compute; reflexivity|].
  split; [vm_compute; reflexivity|]. split; [exact flow_all_legible|]. split; [vm_compute; reflexivity|].
  exists flow_before, 0%nat, (CVOne 1%nat), (CVOne 3%nat), [AAdd 0%nat; AAdd 1%nat], (fst (do_act (run_acts start_session flow_before) flow_conn)).
  split; [reflexivity|]. split; [apply act_ok; vm_compute; reflexivity|]. split; vm_compute; reflexivity.
Qed.

(** ** C69 *)
(** Full statement: for all sessions and systems.  Missing: as in C68, and systems
    outside the hypotheses of [C31_rhs_partial]. *)
Theorem C69_rates_partial : forall acts s b t pn init tn compile ds ode Y tau en, resolved acts s b -> distinct_models acts ->
  forallb (ordinary false) acts = true -> all_legible acts ->
  prints_numbers pn -> one_word t = true -> str_contains "_" t = true -> pr_time (snd s) = Some [t] ->
  Forall2 (explicit t) (b_diff b) ode -> closed_system t ode -> b_eqs b = b_diff b -> ode_unknowns t ode (b_varlist b) -> ode <> [] ->
  dsolver_init b init tn compile = Ok ds -> state_of t ode Y tau en ->
  exists vs, ode_interface pn (snd s) b ds Y tau = (b, Ok vs) /\
    (forall j x r, nth_error ode j = Some (x, r) -> exists w g, part_of acts w /\ rate w x t g /\ nth_error vs j = Some (g en)) /\
    (forall w x g, part_of acts w -> rate w x t g -> exists j r, nth_error ode j = Some (x, r) /\ nth_error vs j = Some (g en)).
Proof. exact rates_written. Qed.
Print Assumptions C69_rates_partial.

(** Missing: as in C68, and residuals outside the hypotheses of [C34_by_equation]. *)
Theorem C69_residuals_partial : forall acts s b pn dae y yd en, resolved acts s b -> distinct_models acts ->
  forallb (ordinary false) acts = true -> all_legible acts ->
  Forall2 (residual_ode pn) (b_diff b) dae -> dae <> [] -> closed_dae b dae -> by_equation (b_varlist b) dae y yd en ->
  exists vs, dae_function pn b y yd = Ok vs /\ Forall2 (written_value acts en) (b_eqs b) vs.
Proof. exact residuals_written. Qed.
Print Assumptions C69_residuals_partial.

Lemma oscillator_legible : all_legible oscillator.
Proof.
  intros M d [E|[]]. injection E as <- <-. split; [reflexivity|]. cbn. repeat (constructor; [simpl; intuition discriminate|]). constructor.
Qed.
Example C69_case : resolved oscillator (final oscillator) (the_block oscillator) /\ distinct_models oscillator /\
  forallb (ordinary false) oscillator = true /\ all_legible oscillator /\
  exists w g, part_of oscillator w /\ rate w "y_M" "t_M" g /\ g oscillator_env = Some (2 * 4)%R.
Proof.
  split; [apply run_resolved; vm_compute; reflexivity|]. split; [apply (one_distinct oscillator "M"); vm_compute; reflexivity|].
  split; [vm_compute; reflexivity|]. split; [exact oscillator_legible|].
  assert (A : added oscillator = [0%nat]) by (vm_compute; reflexivity).
  eexists (nth 1 (written_by "M" (snd (nth 0 (created oscillator) ("", mkDecls [] [] [] [])))) (mkWritten "" (fun _ => None) None)), _.
  split; [exists 0%nat, "M"; eexists; rewrite A; split; [now left|]; split; [reflexivity|right; now left]|].
  split; [eexists; split; [reflexivity|reflexivity]|]. cbn. reflexivity.
Qed.

Lemma state_first_legible : all_legible state_first.
Proof.
  intros M d [E|[]]. injection E as <- <-. split; [reflexivity|]. cbn. repeat (constructor; [simpl; intuition discriminate|]). constructor.
Qed.
Example C69_residuals_case : resolved state_first (final state_first) (the_block state_first) /\ distinct_models state_first /\
  forallb (ordinary false) state_first = true /\ all_legible state_first.
Proof.
  split; [apply run_resolved; vm_compute; reflexivity|]. split; [apply (one_distinct state_first "M"); vm_compute; reflexivity|].
  split; [vm_compute; reflexivity|exact state_first_legible].
Qed.
