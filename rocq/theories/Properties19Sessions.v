(** Property theorems C70, C71 (programs that make quantities in the constructors of
    their models and set them between solutions). *)
From Verif Require Import Base Num NumFacts UnitModel UnitFacts Sympy Node Build EquationModel ModelModel ProblemModel SimModel SolverModel
  SpecUnits SpecExpr SpecDims SpecModel SpecInc SpecCall SpecProblem SpecSolver SpecLookup SpecSymbols SpecWritten SpecExact SpecSession
  ProblemFacts SessionFacts UsualFacts SolverFacts SymbolFacts WrittenFacts ExactFacts ViewFacts StudyFacts Demo Properties07Problems
  Properties08Solvers Properties14Symbols Properties16Written.
From Verif Require OdeFacts.
From Coq Require Import Reals Lra.
Notation num := Verif.Num.num.

(** ** C70 *)
(** Every equation is there. *)
Theorem C70_equations : forall acts s b v x, resolved acts s b -> all_ok start_session acts -> distinct_models acts ->
  readable_program acts -> written_in acts v x ->
  exists e, In e (b_eqs b) /\ eq_name e = full_name (wr_name x) (vw_name v) /\ says x e.
Proof. exact block_view. Qed.
Print Assumptions C70_equations.

(** Nothing else is. *)
Theorem C70_nothing_else : forall acts s b e, resolved acts s b -> all_ok start_session acts -> distinct_models acts ->
  readable_program acts -> forallb by_declaration acts = true -> joins_unknowns acts -> In e (b_eqs b) ->
  (exists v x, written_in acts v x /\ eq_name e = full_name (wr_name x) (vw_name v) /\ says x e) \/
  (exists j os is, In j (added acts) /\ connected acts j os is /\ balances os is e).
Proof. exact block_view_only. Qed.
Print Assumptions C70_nothing_else.

Theorem C70_connections : forall acts s b j os is, resolved acts s b -> distinct_models acts ->
  forallb by_declaration acts = true -> joins_unknowns acts -> In j (added acts) -> connected acts j os is ->
  exists e, In e (b_eqs b) /\ balances os is e.
Proof. exact block_view_connection. Qed.
Print Assumptions C70_connections.

(** The system handed to the solver. *)
Theorem C70_system : forall acts s b en, resolved acts s b -> all_ok start_session acts -> distinct_models acts ->
  readable_program acts -> forallb by_declaration acts = true -> joins_unknowns acts ->
  (solved en b <->
   (forall x, program_writes acts x -> asks x en) /\
   (forall j os is, In j (added acts) -> connected acts j os is -> sum_named en is = sum_named en os)).
Proof. exact system_viewed. Qed.
Print Assumptions C70_system.

Theorem C70_answer : forall acts s b eng out x, resolved acts s b -> all_ok start_session acts -> distinct_models acts ->
  readable_program acts -> honest eng -> answer eng b out -> program_writes acts x -> asks x (bind_env out).
Proof. exact answer_viewed. Qed.
Print Assumptions C70_answer.

(** A source whose constructor makes [c] and [q], and a sink whose constructor makes
    [k], [p] and [z]. *)
Definition plant_source : decls := mkDecls [] [] [] [CEq "e" "e" (UResid (UBin BSub (UQty "q") (UQty "c"))) true].
Definition plant_sink : decls := mkDecls [] [] [] [CEq "e" "e" (UResid (UBin BSub (UQty "z") (UBin BMul (UQty "k") (UQty "p")))) true].
(** Locations: c 0, q 1, k 2, p 3, z 4. *)
Definition plant : list act :=
  [ANew "S" plant_source;
   AStmt 0%nat (CCon "c" "c" u_m (PInt 0)); AStmt 0%nat (CVar "q" "q" u_m true "output" (PInt 0)); AStmt 0%nat (CSet "c" (SANum (PInt 3)) None);
   ANew "R" plant_sink;
   AStmt 1%nat (CPar "k" "k" u_dimless (PInt 0)); AStmt 1%nat (CVar "p" "p" u_m true "input" (PInt 0)); AStmt 1%nat (CVar "z" "z" u_m false "" (PInt 0));
   AStmt 1%nat (CSet "k" (SANum (PInt 4)) None);
   ACall 0%nat; ACall 1%nat; AConn (CMModel 0%nat) 1%nat (CVOne 1%nat) (CVOne 3%nat) None; AAdd 0%nat; AAdd 1%nat].
(** The parameter is set to 7 and the problem resolved again. *)
Definition plant2 : list act := plant ++ [AResolve; AStmt 1%nat (CSet "k" (SANum (PInt 7)) None)].

Example C70_case : resolved plant2 (final plant2) (the_block plant2) /\ all_ok start_session plant2 /\ distinct_models plant2 /\
  readable_program plant2 /\ forallb by_declaration plant2 = true /\ joins_unknowns plant2 /\
  map eq_name (b_eqs (the_block plant2)) = ["e_S"; "e_R"; "q_S--->p_R"] /\ connected plant2 1%nat ["q_S"] ["p_R"] /\
  exists v x, written_in plant2 v x /\ vw_name v = "R" /\ forall en, wr_value x en = Some (e_sym en "z_R" - 7 * e_sym en "p_R")%R.
Proof.
  split; [apply run_resolved; vm_compute; reflexivity|]. split; [apply runs_all; vm_compute; reflexivity|].
  split; [apply (two_distinct plant2 "S" "R"); [vm_compute; reflexivity|discriminate]|]. split; [apply readable_by; vm_compute; reflexivity|].
  split; [vm_compute; reflexivity|]. split; [apply joins_by; vm_compute; reflexivity|]. split; [vm_compute; reflexivity|]. split.
  - exists (firstn 11 plant), 0%nat, (CVOne 1%nat), (CVOne 3%nat), (skipn 12 plant2), (fst (do_act (run_acts start_session (firstn 11 plant)) (nth 11 plant AResolve))).
    split; [reflexivity|]. split; [apply act_ok; vm_compute; reflexivity|]. split; vm_compute; reflexivity.
  - exists (nth 1 (views plant2) (mkView "" plant_sink [])). eexists. split.
    + exists 1%nat. split; [replace (added plant2) with [0%nat; 1%nat] by (vm_compute; reflexivity); right; now left|].
      split; [reflexivity|]. left. reflexivity.
    + split; [reflexivity|]. intros en. cbn. reflexivity.
Qed.

(** ** Differential equations (C69 for such programs) *)
(** Missing: systems outside the hypotheses of [C31_rhs_partial]. *)
Theorem C69_program_rates_partial : forall acts s b t pn init tn compile ds ode Y tau en, resolved acts s b -> all_ok start_session acts ->
  distinct_models acts -> readable_program acts -> forallb by_declaration acts = true -> joins_unknowns acts ->
  prints_numbers pn -> one_word t = true -> str_contains "_" t = true -> pr_time (snd s) = Some [t] ->
  Forall2 (explicit t) (b_diff b) ode -> closed_system t ode -> b_eqs b = b_diff b -> ode_unknowns t ode (b_varlist b) -> ode <> [] ->
  dsolver_init b init tn compile = Ok ds -> state_of t ode Y tau en ->
  exists vs, ode_interface pn (snd s) b ds Y tau = (b, Ok vs) /\
    (forall j x r, nth_error ode j = Some (x, r) -> exists w g, program_writes acts w /\ rate w x t g /\ nth_error vs j = Some (g en)) /\
    (forall w x g, program_writes acts w -> rate w x t g -> exists j r, nth_error ode j = Some (x, r) /\ nth_error vs j = Some (g en)).
Proof. exact rates_viewed. Qed.
Print Assumptions C69_program_rates_partial.

(** Missing: residuals outside the hypotheses of [C34_by_equation]. *)
Theorem C69_program_residuals_partial : forall acts s b pn dae y yd en, resolved acts s b -> all_ok start_session acts -> distinct_models acts ->
  readable_program acts -> forallb by_declaration acts = true -> joins_unknowns acts ->
  Forall2 (residual_ode pn) (b_diff b) dae -> dae <> [] -> closed_dae b dae -> by_equation (b_varlist b) dae y yd en ->
  exists vs, dae_function pn b y yd = Ok vs /\ Forall2 (program_value acts en) (b_eqs b) vs.
Proof. exact residuals_viewed. Qed.
Print Assumptions C69_program_residuals_partial.

(** The oscillator with a parameter made in the constructor and set to 2. *)
Definition swing : list act :=
  [ANew "M" (mkDecls [] [] [] [CEq "e" "e" (UElem (UDiff "x" (Some "t")) (UQty "y")) true;
      CEq "f" "f" (UElem (UDiff "y" (Some "t")) (UBin BMul (UQty "a") (UQty "x"))) true]);
   AStmt 0%nat (dvar "t"); AStmt 0%nat (dvar "y"); AStmt 0%nat (dvar "x"); AStmt 0%nat (CPar "a" "a" u_dimless (PInt 0));
   AStmt 0%nat (CDist "x"); AStmt 0%nat (CDist "y"); AStmt 0%nat (CSet "a" (SANum (PInt 2)) None);
   ACall 0%nat; AAdd 0%nat; ATime ["t_M"]].
Definition swing_ode : list (string * sx) := [("x_M", SSym "y_M"); ("y_M", SMul (SNum (PInt 2)) (SSym "x_M"))].
Example C69_program_case : resolved swing (final swing) (the_block swing) /\ all_ok start_session swing /\ distinct_models swing /\
  readable_program swing /\ forallb by_declaration swing = true /\ joins_unknowns swing /\
  pr_time (snd (final swing)) = Some ["t_M"] /\ Forall2 (explicit "t_M") (b_diff (the_block swing)) swing_ode /\
  exists w g, program_writes swing w /\ rate w "y_M" "t_M" g /\ g oscillator_env = Some (2 * 4)%R.
Proof.
  split; [apply run_resolved; vm_compute; reflexivity|]. split; [apply runs_all; vm_compute; reflexivity|].
  split; [apply (one_distinct swing "M"); vm_compute; reflexivity|]. split; [apply readable_by; vm_compute; reflexivity|].
  split; [vm_compute; reflexivity|]. split; [apply joins_by; vm_compute; reflexivity|]. split; [vm_compute; reflexivity|].
  split; [apply OdeFacts.views_explicit; vm_compute; reflexivity|].
  eexists (nth 1 (view_writes (nth 0 (views swing) (mkView "" plant_sink []))) (mkWritten "" (fun _ => None) None)), _. split.
  - exists (nth 0 (views swing) (mkView "" plant_sink [])), 0%nat. replace (added swing) with [0%nat] by (vm_compute; reflexivity).
    split; [now left|]. split; [reflexivity|right; now left].
  - split; [eexists; split; [reflexivity|reflexivity]|]. cbn. reflexivity.
Qed.

(** ** C71 *)
(** [sim[name]] is the object the attribute holds, so both ways of setting do the
    same. *)
Theorem C71_same_object : forall acts s b c o dm st i v a t l, resolved acts s b -> all_ok start_session acts -> distinct_models acts ->
  nth_error (views (acts ++ [AResolve])) i = Some v -> dget a (vw_things v) = Some t -> made_once acts (th_name t) ->
  sim_getitem (sim_over (snd s) c o dm st) (KStr (th_name t)) = Ok l ->
  forall k u, set_at s l k u = do_act s (AStmt i (CSet a (SANum k) u)).
Proof. exact lookup_sets. Qed.
Print Assumptions C71_same_object.

(** After setting and resolving, the equations of the model have the new value, those
    of other models and the connections are as before. *)
Theorem C71_equations : forall acts i a k u s b v t,
  let acts2 := acts ++ [AResolve; AStmt i (CSet a (SANum k) u)] in
  resolved acts2 s b -> all_ok start_session acts2 -> distinct_models acts2 -> readable_program acts2 ->
  In i (added acts) -> nth_error (views (acts ++ [AResolve])) i = Some v -> dget a (vw_things v) = Some t ->
  (forall x, In x (view_writes (valued v a k)) -> exists e, In e (b_eqs b) /\ eq_name e = full_name (wr_name x) (vw_name v) /\ says x e) /\
  (forall j vj x, j <> i -> In j (added acts) -> nth_error (views (acts ++ [AResolve])) j = Some vj -> In x (view_writes vj) ->
     exists e, In e (b_eqs b) /\ eq_name e = full_name (wr_name x) (vw_name vj) /\ says x e).
Proof. exact study_block. Qed.
Print Assumptions C71_equations.

Theorem C71_system : forall acts i a k u s b v t en,
  let acts2 := acts ++ [AResolve; AStmt i (CSet a (SANum k) u)] in
  resolved acts2 s b -> all_ok start_session acts2 -> distinct_models acts2 -> readable_program acts2 ->
  forallb by_declaration acts2 = true -> joins_unknowns acts2 ->
  In i (added acts) -> nth_error (views (acts ++ [AResolve])) i = Some v -> dget a (vw_things v) = Some t ->
  (solved en b <->
   (forall x, In x (view_writes (valued v a k)) -> asks x en) /\
   (forall j vj x, j <> i -> In j (added acts) -> nth_error (views (acts ++ [AResolve])) j = Some vj -> In x (view_writes vj) -> asks x en) /\
   (forall j os is, In j (added acts) -> connected acts j os is -> sum_named en is = sum_named en os)).
Proof. exact study_exact. Qed.
Print Assumptions C71_system.

Theorem C71_answer : forall acts i a k u s b v t eng out x,
  let acts2 := acts ++ [AResolve; AStmt i (CSet a (SANum k) u)] in
  resolved acts2 s b -> all_ok start_session acts2 -> distinct_models acts2 -> readable_program acts2 ->
  In i (added acts) -> nth_error (views (acts ++ [AResolve])) i = Some v -> dget a (vw_things v) = Some t ->
  honest eng -> answer eng b out -> In x (view_writes (valued v a k)) -> asks x (bind_env out).
Proof. exact study_answer. Qed.
Print Assumptions C71_answer.

Definition plant_view : view := nth 1 (views (plant ++ [AResolve])) (mkView "" plant_sink []).
Lemma plant2_vars : b_varlist (the_block plant2) = ["q_S"; "p_R"; "z_R"].
Proof. vm_compute. reflexivity. Qed.
Lemma plant2_exprs : b_exprs (the_block plant2) =
  [SSub (SSym "q_S") (SNum (PInt 3)); SSub (SSym "z_R") (SMul (SNum (PInt 7)) (SSym "p_R"));
   SSub (SAdd (SSym "p_R") (SNum (PInt 0))) (SAdd (SSym "q_S") (SNum (PInt 0)))].
Proof. vm_compute. reflexivity. Qed.
Definition plant2_answer : dict R := [("q_S", 3%R); ("p_R", 3%R); ("z_R", 21%R)].
Lemma plant2_solved : answer checker (the_block plant2) plant2_answer.
Proof.
  pose proof (checker_answer (the_block plant2) plant2_answer [3; 3; 21]%R) as H. rewrite plant2_vars, plant2_exprs in H.
  apply H; [discriminate|reflexivity|]. split; [reflexivity|]. intros e [<-|[<-|[<-|[]]]]; cbn; f_equal; lra.
Qed.
Example C71_case : resolved plant (final plant) (the_block plant) /\ all_ok start_session plant /\ distinct_models plant /\
  made_once plant "k_R" /\ nth_error (views (plant ++ [AResolve])) 1 = Some plant_view /\
  dget "k" (vw_things plant_view) = Some (mkThing "k_R" (PInt 4) true) /\
  sim_getitem (sim_over (snd (final plant)) None None VNone None) (KStr "k_R") = Ok 2%nat /\
  In 1%nat (added plant) /\ answer checker (the_block plant2) plant2_answer.
Proof.
  split; [apply run_resolved; vm_compute; reflexivity|]. split; [apply runs_all; vm_compute; reflexivity|].
  split; [apply (two_distinct plant "S" "R"); [vm_compute; reflexivity|discriminate]|]. split; [apply once_by; vm_compute; reflexivity|].
  split; [reflexivity|]. split; [vm_compute; reflexivity|]. split; [vm_compute; reflexivity|].
  split; [replace (added plant) with [0%nat; 1%nat] by (vm_compute; reflexivity); right; now left|exact plant2_solved].
Qed.
