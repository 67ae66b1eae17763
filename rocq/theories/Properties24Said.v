(** C76: a problem asks what the whole program says; C69 for such programs. *)
From Verif Require Import Base BaseFacts Num UnitModel Sympy Node Build EquationModel ModelModel ProblemModel SpecUnits SpecExpr SpecModel SpecInc SpecCall SpecProblem
  ProblemFacts SessionFacts SpecLink SolverModel SpecSolver SolverFacts SpecSymbols OdeFacts DaeFacts SpecWritten SpecExact SpecOwn SpecSession StudyFacts SpecSaid SaidFacts Demo
  Properties07Problems Properties08Solvers Properties16Written Properties19Sessions Properties22Links.
From Coq Require Import Reals Lra.
Notation num := Verif.Num.num.

(** ** C76 *)
(** Full statement: the problem a program resolves is solved exactly when every
    equation of its text holds, the declared ones, the connections of all kinds and
    the single statements, also replaced ones.  Missing: incorporated models,
    programs that raise, names with the characters connections use, origins that
    are numerals. *)
Theorem C76_system_partial : forall acts s b en, resolved acts s b -> all_ok start_session acts -> distinct_models acts -> readable_program acts ->
  forallb tidy_act acts = true -> plain_origins acts -> known_statements acts ->
  (solved en b <-> forall x, program_says acts x -> asks x en).
Proof. exact system_said. Qed.
Print Assumptions C76_system_partial.

(** Equation by equation. *)
Theorem C76_equations_partial : forall acts s b, resolved acts s b -> all_ok start_session acts -> distinct_models acts -> readable_program acts ->
  forallb tidy_act acts = true -> plain_origins acts -> known_statements acts ->
  (forall x, program_says acts x -> exists e, In e (b_eqs b) /\ says x e) /\
  (forall e, In e (b_eqs b) -> exists x, program_says acts x /\ says x e).
Proof. exact block_says. Qed.
Print Assumptions C76_equations_partial.

(** What is brought is there also when declarations are not readable. *)
Theorem C76_brought_partial : forall acts s b j x, resolved acts s b -> all_ok start_session acts -> distinct_models acts ->
  forallb tidy_act acts = true -> plain_origins acts -> known_statements acts -> In j (added acts) -> brought acts j x ->
  exists e, In e (b_eqs b) /\ says x e.
Proof. exact block_said. Qed.
Print Assumptions C76_brought_partial.

Theorem C76_answer_partial : forall acts s b eng out x, resolved acts s b -> all_ok start_session acts -> distinct_models acts -> readable_program acts ->
  forallb tidy_act acts = true -> plain_origins acts -> known_statements acts -> honest eng -> answer eng b out ->
  program_says acts x -> asks x (bind_env out).
Proof. exact answer_said. Qed.
Print Assumptions C76_answer_partial.

(** q = 3 in S; in R u = 1 is declared, p = 2*q is given for the connection of q to
    p, z = q is a connection by expressions, w = 1 is replaced by w = z. *)
Definition basin : decls :=
  mkDecls [] [] [CVar "p" "p" u_m true "input" (PInt 0); CVar "z" "z" u_m true "input" (PInt 0);
                 CVar "w" "w" u_m true "input" (PInt 0); CVar "u" "u" u_m true "input" (PInt 0)]
    [CEq "e" "e" (UResid (UNumR BSub (UQty "u") (PInt 1))) true].
Definition network_start : list act := [ANew "S" (source_of 3); ANew "R" basin; ACall 0%nat; ACall 1%nat].
(** Locations: q 0, p 1, z 2, w 3, u 4. *)
Definition double : ueq loc := UResid (UBin BSub (UQty 1%nat) (UNumL BMul (PInt 2) (UQty 0%nat))).
Definition network_joins : list act :=
  [AConn (CMModel 0%nat) 1%nat (CVOne 0%nat) (CVOne 1%nat) (Some double); AConnN (CMName "") 1%nat (UQty 0%nat) (UQty 2%nat);
   AStmt 1%nat (CEq "g" "g" (UResid (UNumR BSub (UQty "w") (PInt 1))) true)].
Definition w_is_z : ueq string := UResid (UBin BSub (UQty "w") (UQty "z")).
Definition network_last : act := AStmt 1%nat (CEq "g" "g" w_is_z true).
Definition network : list act := (network_start ++ network_joins) ++ network_last :: [AAdd 0%nat; AAdd 1%nat].
Definition the_view (acts : list act) (j : nat) : view := nth j (views acts) (mkView "" (mkDecls [] [] [] []) []).

Lemma nothing_later acts (l : list act) j p : forallb (fun a => match a with AConn _ _ _ _ _ | AConnN _ _ _ _ | AStmt _ _ => false | _ => true end) l = true ->
  forall b1 b b2 y, l = b1 ++ b :: b2 -> bring (acts ++ b1) b <> Some (j, p, y).
Proof.
  intros H b1 b b2 y ->. rewrite forallb_app in H. apply andb_prop in H. destruct H as [_ H]. cbn [forallb] in H. apply andb_prop in H. destruct H as [H _].
  destruct b; try discriminate H; discriminate.
Qed.
Example C76_case : resolved network (final network) (the_block network) /\ all_ok start_session network /\ distinct_models network /\
  readable_program network /\ forallb tidy_act network = true /\ plain_origins network /\ known_statements network /\
  added network = [0%nat; 1%nat] /\
  brought network 1%nat (read_eq (vw_things (the_view (network_start ++ network_joins) 1)) "g" w_is_z) /\
  (forall en, wr_value (read_eq (vw_things (the_view (network_start ++ network_joins) 1)) "g" w_is_z) en = Some (e_sym en "w_R" - e_sym en "z_R")%R) /\
  b_exprs (the_block network) =
    [SSub (SSym "q_S") (SNum (PInt 3)); SSub (SSym "u_R") (SNum (PInt 1)); SSub (SSym "p_R") (SMul (SSym "q_S") (SNum (PInt 2)));
     SSub (SSym "z_R") (SSym "q_S"); SSub (SSym "w_R") (SSym "z_R")].
Proof.
  split; [apply run_resolved; vm_compute; reflexivity|]. split; [apply runs_all; vm_compute; reflexivity|].
  split; [apply (two_distinct network "S" "R"); [vm_compute; reflexivity|discriminate]|]. split; [apply readable_by; vm_compute; reflexivity|].
  split; [vm_compute; reflexivity|]. split; [apply origins_by; vm_compute; reflexivity|]. split; [apply known_by; vm_compute; reflexivity|].
  split; [vm_compute; reflexivity|]. split; [|split; [intros en; vm_compute; reflexivity|vm_compute; reflexivity]].
  exists (network_start ++ network_joins), network_last, [AAdd 0%nat; AAdd 1%nat], (PEq "g"). split; [reflexivity|]. split; [reflexivity|]. split.
  - intros b1 b b2 y E. replace ((network_start ++ network_joins) ++ network_last :: b1) with (((network_start ++ network_joins) ++ [network_last]) ++ b1)
      by (now rewrite <- app_assoc). refine (nothing_later _ _ _ _ _ b1 b b2 y E). reflexivity.
  - intros n M d E H. injection E as <-. cbn in H. injection H as <- <-. cbn. intuition discriminate.
Qed.

(** An origin named "1" and a drawn number are kept under one name: q = p is lost
    and p = 7 is reported with q = 3. *)
Definition clash_last : list act := [AConnN (CMName "") 1%nat (UQty 0%nat) (UQty 2%nat); AAdd 0%nat; AAdd 1%nat].
Definition clash : list act := twice_before ++ AConnN (CMName "1") 1%nat (UQty 0%nat) (UQty 1%nat) :: clash_last.
Lemma clash_solved : answer checker (the_block clash) twice_answer.
Proof.
  pose proof (checker_answer (the_block clash) twice_answer [3; 7; 3]%R) as H.
  assert (V : b_varlist (the_block clash) = ["q_S"; "p_R"; "z_R"]) by (vm_compute; reflexivity).
  assert (E : b_exprs (the_block clash) =
    [SSub (SSym "q_S") (SNum (PInt 3)); SSub (SSym "p_R") (SNum (PInt 7)); SSub (SSym "z_R") (SSym "q_S")]) by (vm_compute; reflexivity).
  rewrite V, E in H. apply H; [discriminate|reflexivity|]. split; [reflexivity|]. intros e [<-|[<-|[<-|[]]]]; cbn; f_equal; lra.
Qed.
Theorem C76_origins_refuted : exists acts s b eng out x, resolved acts s b /\ all_ok start_session acts /\ distinct_models acts /\ readable_program acts /\
  forallb tidy_act acts = true /\ known_statements acts /\ honest eng /\ answer eng b out /\ program_says acts x /\ ~ asks x (bind_env out).
Proof.
  exists clash, (final clash), (the_block clash), checker, twice_answer,
    (mkWritten "" (fun en => arith BSub (value_at (pw_heap (fst (run_acts start_session twice_before))) en (UQty 1%nat))
      (value_at (pw_heap (fst (run_acts start_session twice_before))) en (UQty 0%nat))) None).
  split; [apply run_resolved; vm_compute; reflexivity|]. split; [apply runs_all; vm_compute; reflexivity|].
  split; [apply (two_distinct clash "S" "R"); [vm_compute; reflexivity|discriminate]|]. split; [apply readable_by; vm_compute; reflexivity|].
  split; [vm_compute; reflexivity|]. split; [apply known_by; vm_compute; reflexivity|]. split; [exact checker_honest|]. split; [exact clash_solved|]. split.
  - right. exists 1%nat. assert (A : added clash = [0%nat; 1%nat]) by (vm_compute; reflexivity). rewrite A. split; [right; now left|].
    exists twice_before, (AConnN (CMName "1") 1%nat (UQty 0%nat) (UQty 1%nat)), clash_last, (PNamed "1").
    split; [reflexivity|]. split; [reflexivity|]. split; [|intros n M d E; discriminate E].
    intros b1 b b2 y E. destruct b1 as [|x b1]; [injection E as <- _; discriminate|]. injection E as <- E.
    replace (twice_before ++ AConnN (CMName "1") 1%nat (UQty 0%nat) (UQty 1%nat) :: AConnN (CMName "") 1%nat (UQty 0%nat) (UQty 2%nat) :: b1)
      with ((twice_before ++ [AConnN (CMName "1") 1%nat (UQty 0%nat) (UQty 1%nat); AConnN (CMName "") 1%nat (UQty 0%nat) (UQty 2%nat)]) ++ b1)
      by (now rewrite <- app_assoc). refine (nothing_later _ _ _ _ _ b1 b b2 y E). reflexivity.
  - unfold asks. cbn [wr_sides wr_value].
    rewrite (at_unknown _ _ 0%nat "q_S"), (at_unknown _ _ 1%nat "p_R") by (vm_compute; reflexivity). cbn. intros H. injection H as H. lra.
Qed.
Print Assumptions C76_origins_refuted.

(** ** C69 for programs that bring equations *)
(** Missing: as in [C69_program_rates_partial] and [C76_system_partial]. *)
Theorem C69_said_rates_partial : forall acts s b t pn init tn compile ds ode Y tau en, resolved acts s b -> all_ok start_session acts ->
  distinct_models acts -> readable_program acts -> forallb tidy_act acts = true -> plain_origins acts -> known_statements acts ->
  prints_numbers pn -> one_word t = true -> str_contains "_" t = true -> pr_time (snd s) = Some [t] ->
  Forall2 (explicit t) (b_diff b) ode -> closed_system t ode -> b_eqs b = b_diff b -> ode_unknowns t ode (b_varlist b) -> ode <> [] ->
  dsolver_init b init tn compile = Ok ds -> state_of t ode Y tau en ->
  exists vs, ode_interface pn (snd s) b ds Y tau = (b, Ok vs) /\
    (forall j x r, nth_error ode j = Some (x, r) -> exists w g, program_says acts w /\ rate w x t g /\ nth_error vs j = Some (g en)) /\
    (forall w x g, program_says acts w -> rate w x t g -> exists j r, nth_error ode j = Some (x, r) /\ nth_error vs j = Some (g en)).
Proof. exact rates_said. Qed.
Print Assumptions C69_said_rates_partial.
Theorem C69_said_residuals_partial : forall acts s b pn dae y yd en, resolved acts s b -> all_ok start_session acts -> distinct_models acts ->
  readable_program acts -> forallb tidy_act acts = true -> plain_origins acts -> known_statements acts ->
  Forall2 (residual_ode pn) (b_diff b) dae -> dae <> [] -> closed_dae b dae -> by_equation (b_varlist b) dae y yd en ->
  exists vs, dae_function pn b y yd = Ok vs /\
    Forall2 (fun e v => exists x, program_says acts x /\ says x e /\ v = wr_value x en) (b_eqs b) vs.
Proof. exact residuals_said. Qed.
Print Assumptions C69_said_residuals_partial.

(** The oscillator with dy/dt = 2*x stated from outside. *)
Definition push_start : list act :=
  [ANew "M" (mkDecls [] [] [] [CEq "e" "e" (UElem (UDiff "x" (Some "t")) (UQty "y")) true]);
   AStmt 0%nat (dvar "t"); AStmt 0%nat (dvar "y"); AStmt 0%nat (dvar "x");
   AStmt 0%nat (CDist "x"); AStmt 0%nat (CDist "y"); ACall 0%nat].
Definition push_eq : ueq string := UElem (UDiff "y" (Some "t")) (UNumL BMul (PInt 2) (UQty "x")).
Definition push_last : act := AStmt 0%nat (CEq "f" "f" push_eq true).
Definition push : list act := push_start ++ push_last :: [AAdd 0%nat; ATime ["t_M"]].
Definition push_ode : list (string * sx) := [("x_M", SSym "y_M"); ("y_M", SMul (SSym "x_M") (SNum (PInt 2)))].
Example C69_said_case : resolved push (final push) (the_block push) /\ all_ok start_session push /\ distinct_models push /\
  readable_program push /\ forallb tidy_act push = true /\ plain_origins push /\ known_statements push /\
  pr_time (snd (final push)) = Some ["t_M"] /\ Forall2 (explicit "t_M") (b_diff (the_block push)) push_ode /\ b_eqs (the_block push) = b_diff (the_block push) /\
  exists w g, program_says push w /\ rate w "y_M" "t_M" g /\ g oscillator_env = Some (2 * 4)%R.
Proof.
  split; [apply run_resolved; vm_compute; reflexivity|]. split; [apply runs_all; vm_compute; reflexivity|].
  split; [apply (one_distinct push "M"); vm_compute; reflexivity|]. split; [apply readable_by; vm_compute; reflexivity|].
  split; [vm_compute; reflexivity|]. split; [apply origins_by; vm_compute; reflexivity|]. split; [apply known_by; vm_compute; reflexivity|].
  split; [vm_compute; reflexivity|]. split; [apply OdeFacts.views_explicit; vm_compute; reflexivity|]. split; [vm_compute; reflexivity|].
  eexists (read_eq (vw_things (the_view push_start 0)) "f" push_eq), _. split.
  - right. exists 0%nat. replace (added push) with [0%nat] by (vm_compute; reflexivity). split; [now left|].
    exists push_start, push_last, [AAdd 0%nat; ATime ["t_M"]], (PEq "f"). split; [reflexivity|]. split; [reflexivity|]. split.
    + intros b1 b b2 y E. replace (push_start ++ push_last :: b1) with ((push_start ++ [push_last]) ++ b1)
        by (now rewrite <- app_assoc). refine (nothing_later _ _ _ _ _ b1 b b2 y E). reflexivity.
    + intros n M d E H. injection E as <-. cbn in H. injection H as <- <-. cbn. intuition discriminate.
  - split; [eexists; split; [reflexivity|reflexivity]|]. cbn. reflexivity.
Qed.
