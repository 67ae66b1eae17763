(** C82: what programs say whose models incorporate other models. *)
From Verif Require Import Base BaseFacts Num UnitModel Sympy Node Build EquationModel ModelModel ProblemModel SpecUnits SpecExpr SpecModel SpecInc SpecCall SpecProblem
  ProblemFacts SessionFacts SpecLink SolverModel DomainModel SpecSolver SolverFacts SpecSymbols OdeFacts DaeFacts SpecWritten SpecExact SpecOwn SpecSession StudyFacts
  SpecSaid SaidFacts SpecInit InitFacts RunModel SpecRun RunFacts DaeRunFacts SpecCompose ComposeFacts ComposeRunFacts Demo
  Properties07Problems Properties08Solvers Properties16Written Properties19Sessions Properties22Links Properties24Said Properties29Run Properties30Dae.
From Coq Require Import Reals Lra.
Notation num := Verif.Num.num.

(** Full statement: the problem a program resolves is solved exactly when every
    equation of its text holds: those declared, the connections, the single
    statements and those taken over from incorporated models, which speak of the
    quantities of the model they were taken over into.  Missing: incorporation without
    renaming; incorporated models that have connections, or quantities kept in
    attributes of other names; names that coincide after the change (refuted below);
    programs that raise, names with the characters connections use, origins that are
    numerals. *)
Theorem C82_system_partial : forall acts s b vs en, resolved acts s b -> all_ok start_session acts -> distinct_models acts -> forallb neat_act acts = true -> plain_origins acts ->
  accounts (acts ++ [AResolve]) = Some vs -> (solved en b <-> forall x, composed_says acts vs x -> asks x en).
Proof. exact system_composed. Qed.
Print Assumptions C82_system_partial.

(** Equation by equation. *)
Theorem C82_equations_partial : forall acts s b vs, resolved acts s b -> all_ok start_session acts -> distinct_models acts -> forallb neat_act acts = true -> plain_origins acts ->
  accounts (acts ++ [AResolve]) = Some vs ->
  (forall x, composed_says acts vs x -> exists e, In e (b_eqs b) /\ says x e) /\
  (forall e, In e (b_eqs b) -> exists x, composed_says acts vs x /\ says x e).
Proof. exact block_composed. Qed.
Print Assumptions C82_equations_partial.

Theorem C82_answer_partial : forall acts s b vs eng out x, resolved acts s b -> all_ok start_session acts -> distinct_models acts -> forallb neat_act acts = true ->
  plain_origins acts -> accounts (acts ++ [AResolve]) = Some vs -> honest eng -> answer eng b out -> composed_says acts vs x -> asks x (bind_env out).
Proof. exact answer_composed. Qed.
Print Assumptions C82_answer_partial.

(** The right-hand sides an integrator sees. *)
Theorem C82_rates_partial : forall acts s b vs t pn init tn compile ds ode Y tau en, resolved acts s b -> all_ok start_session acts -> distinct_models acts ->
  forallb neat_act acts = true -> plain_origins acts -> accounts (acts ++ [AResolve]) = Some vs ->
  prints_numbers pn -> one_word t = true -> str_contains "_" t = true -> pr_time (snd s) = Some [t] ->
  Forall2 (explicit t) (b_diff b) ode -> closed_system t ode -> b_eqs b = b_diff b -> ode_unknowns t ode (b_varlist b) -> ode <> [] ->
  dsolver_init b init tn compile = Ok ds -> state_of t ode Y tau en ->
  exists us, ode_interface pn (snd s) b ds Y tau = (b, Ok us) /\
    (forall j x r, nth_error ode j = Some (x, r) -> exists w g, composed_says acts vs w /\ rate w x t g /\ nth_error us j = Some (g en)) /\
    (forall w x g, composed_says acts vs w -> rate w x t g -> exists j r, nth_error ode j = Some (x, r) /\ nth_error us j = Some (g en)).
Proof. exact rates_composed. Qed.
Print Assumptions C82_rates_partial.

Theorem C82_residuals_partial : forall acts s b vs pn dae y yd en, resolved acts s b -> all_ok start_session acts -> distinct_models acts ->
  forallb neat_act acts = true -> plain_origins acts -> accounts (acts ++ [AResolve]) = Some vs ->
  Forall2 (residual_ode pn) (b_diff b) dae -> dae <> [] -> closed_dae b dae -> by_equation (b_varlist b) dae y yd en ->
  exists us, dae_function pn b y yd = Ok us /\
    Forall2 (fun e v => exists x, composed_says acts vs x /\ says x e /\ v = wr_value x en) (b_eqs b) us.
Proof. exact residuals_composed. Qed.
Print Assumptions C82_residuals_partial.

(** Recorded trajectories; compare C79 and C80. *)
Theorem C82_trajectory_partial : forall acts s b vs t pn ps tn compile ds ode odeint cvode eps o d d' ts rows, resolved acts s b -> all_ok start_session acts -> distinct_models acts -> forallb neat_act acts = true -> plain_origins acts ->
  accounts (acts ++ [AResolve]) = Some vs -> dictionaries acts ->
  prints_numbers pn -> one_word t = true -> str_contains "_" t = true -> times_by acts [t] ->
  Forall2 (explicit t) (b_diff b) ode -> closed_system t ode -> b_eqs b = b_diff b -> ode_unknowns t ode (b_varlist b) -> ode <> [] ->
  dsolver_init b (pr_init (snd s)) tn compile = Ok ds ->
  cleared d -> d_ind d = [t] -> d_dep d = map fst ode -> NoDup (map (header (oo_names o)) (d_ind d ++ d_dep d)) ->
  oo_solver o = None \/ oo_solver o = Some "ODEINT" -> odeint_solves odeint (rates pn (snd s) b ds) eps ->
  ode_solve odeint cvode pn ps (snd s) b ds o d = (d', Ok (ts, rows)) ->
  time_points o = Ok ts /\ (forall x, In x (map fst ode) <-> rated_in (composed_says acts vs) t x) /\
  exists sol, starts_right acts (map fst ode) (hd 0%R ts) sol /\ obeys_all (composed_says acts vs) t (map fst ode) (hd 0%R ts) ts sol /\
    recorded_as d' t (oo_names o) (map fst ode) ts sol eps.
Proof. exact odeint_composed. Qed.
Print Assumptions C82_trajectory_partial.

Theorem C82_cvode_partial : forall acts s b vs t pn ps tn compile ds ode odeint cvode eps o d d' ts rows, resolved acts s b -> all_ok start_session acts -> distinct_models acts -> forallb neat_act acts = true -> plain_origins acts ->
  accounts (acts ++ [AResolve]) = Some vs -> dictionaries acts ->
  prints_numbers pn -> one_word t = true -> str_contains "_" t = true -> times_by acts [t] ->
  Forall2 (explicit t) (b_diff b) ode -> closed_system t ode -> b_eqs b = b_diff b -> ode_unknowns t ode (b_varlist b) -> ode <> [] ->
  dsolver_init b (pr_init (snd s)) tn compile = Ok ds ->
  cleared d -> d_ind d = [t] -> d_dep d = map fst ode -> NoDup (map (header (oo_names o)) (d_ind d ++ d_dep d)) ->
  oo_solver o = Some "CVODE" -> cvode_solves cvode (rates pn (snd s) b ds) eps ->
  ode_solve odeint cvode pn ps (snd s) b ds o d = (d', Ok (ts, rows)) ->
  exists sol, starts_right acts (map fst ode) 0%R sol /\ obeys_all (composed_says acts vs) t (map fst ode) 0%R ts sol /\
    recorded_as d' t (oo_names o) (map fst ode) ts sol eps.
Proof. exact cvode_composed. Qed.
Print Assumptions C82_cvode_partial.

Theorem C82_dae_partial : forall acts s b vs t pn ps dae, resolved acts s b -> all_ok start_session acts -> distinct_models acts -> forallb neat_act acts = true -> plain_origins acts ->
  accounts (acts ++ [AResolve]) = Some vs -> dictionaries acts ->
  Forall2 (residual_ode pn) (b_diff b) dae -> dae <> [] -> closed_dae b dae -> states_first (b_varlist b) dae ->
  (exists rest, b_eqs b = b_diff b ++ rest) -> (forall x u r, In (x, u, r) dae -> u = t) -> ~ In t (b_varlist b) -> forall ida o d d' ts rows eps,
  ida_solves ida (dae_function pn b) eps ->
  cleared d -> d_ind d = [t] -> d_dep d = b_varlist b -> NoDup (map (header (oo_names o)) (d_ind d ++ d_dep d)) ->
  dae_solve ida pn ps (snd s) b o d = (d', Ok (ts, rows)) ->
  exists times sol, dae_points o = Ok times /\ starts_right acts (dnames dae) (oo_initial o) sol /\
    dae_obeys_all (composed_says acts vs) t (b_varlist b) (dnames dae) (oo_initial o) times sol /\
    recorded_as d' t (oo_names o) (b_varlist b) times sol eps.
Proof. exact dae_composed. Qed.
Print Assumptions C82_dae_partial.

(** ** Three models made one *)
(** M1 has d + f == 0 with f = 3, M1b has g + h == 0 with h = 7.  M4 incorporates both
    and uses their quantities: a + b + c == 0 with c = 2, b - f == 0, k - g - h == 0. *)
Definition dpar (x : string) : cmd := CPar x x u_one (PInt 0).
Definition dset_par (x : string) (v : Z) : cmd := CSet x (SANum (PInt v)) None.
Definition zero_of (n : string) (e : uexpr string) : cmd := CEq n n (UResid e) true.
Definition q (x : string) : uexpr string := UQty x.
Definition assembled : list act :=
  [ANew "M1" (mkDecls [] [] [] []); AStmt 0%nat (dvar "d"); AStmt 0%nat (dpar "f"); AStmt 0%nat (dset_par "f" 3);
   AStmt 0%nat (zero_of "eq1a" (UBin BAdd (q "d") (q "f")));
   ANew "M1b" (mkDecls [] [dpar "h"; dset_par "h" 7] [dvar "g"] [zero_of "eq1b" (UBin BAdd (q "g") (q "h"))]); ACall 1%nat;
   ANew "M4" (mkDecls [] [] [] [zero_of "eq31" (UBin BAdd (UBin BAdd (q "a") (q "b")) (q "c"));
                                zero_of "eq33" (UBin BSub (UBin BSub (q "k") (q "g")) (q "h"))]);
   AInc 2%nat 0%nat inc_default; AInc 2%nat 1%nat inc_default;
   AStmt 2%nat (dvar "a"); AStmt 2%nat (dvar "b"); AStmt 2%nat (dvar "k"); AStmt 2%nat (dpar "c"); AStmt 2%nat (dset_par "c" 2);
   AStmt 2%nat (zero_of "eq32" (UBin BSub (q "b") (q "f"))); AAdd 2%nat].
Definition the_accounts (acts : list act) : list account := match accounts (acts ++ [AResolve]) with Some vs => vs | None => [] end.
Lemma accounts_are acts : match accounts (acts ++ [AResolve]) with Some _ => true | None => false end = true -> accounts (acts ++ [AResolve]) = Some (the_accounts acts).
Proof. unfold the_accounts. destruct (accounts (acts ++ [AResolve])); [reflexivity|discriminate]. Qed.
Lemma names_distinct acts : NoDup (map (fun md => m_name (fst md)) (pw_models (fst (run_acts start_session acts)))) -> distinct_models acts.
Proof.
  intros N i j mi mj _ _ Hi Hj E. unfold model_of, get_model in *. set (l := pw_models (fst (run_acts start_session acts))) in *.
  assert (F : forall k m, option_map fst (nth_error l k) = Some m -> nth_error (map (fun md => m_name (fst md)) l) k = Some (m_name m)).
  { intros k m Hk. rewrite nth_error_map. destruct (nth_error l k) as [md|]; [|discriminate Hk]. injection Hk as <-. reflexivity. }
  apply (proj1 (NoDup_nth_error _) N); [|rewrite (F _ _ Hi), (F _ _ Hj); congruence]. apply nth_error_Some. rewrite (F _ _ Hi). discriminate.
Qed.
Ltac composed :=
  split; [apply run_resolved; vm_compute; reflexivity|]; split; [apply runs_all; vm_compute; reflexivity|];
  split; [apply names_distinct; vm_compute; repeat (constructor; [cbn; intuition discriminate|]); constructor|];
  split; [vm_compute; reflexivity|]; split; [apply origins_by; vm_compute; reflexivity|]; apply accounts_are; vm_compute; reflexivity.
Definition composed (acts : list act) : Prop := resolved acts (final acts) (the_block acts) /\ all_ok start_session acts /\ distinct_models acts /\
  forallb neat_act acts = true /\ plain_origins acts /\ accounts (acts ++ [AResolve]) = Some (the_accounts acts).
Lemma assembled_composed : composed assembled.
Proof. composed. Qed.

Definition assembled_values (en : env) : Prop :=
  e_sym en "d_M4" = (-3)%R /\ e_sym en "g_M4" = (-7)%R /\ e_sym en "b_M4" = 3%R /\ e_sym en "a_M4" = (-5)%R /\ e_sym en "k_M4" = 0%R.
Definition account_no (acts : list act) (i : nat) : account := nth i (the_accounts acts) (mkAccount (mkView "" (mkDecls [] [] [] []) []) [] []).
Definition assembled_answer : dict R := [("d_M4", -3); ("g_M4", -7); ("a_M4", -5); ("b_M4", 3); ("k_M4", 0)]%R.
Lemma assembled_exprs : b_exprs (the_block assembled) =
  [SAdd (SSym "d_M4") (SNum (PInt 3)); SAdd (SSym "g_M4") (SNum (PInt 7)); SSub (SSym "b_M4") (SNum (PInt 3));
   SAdd (SAdd (SSym "a_M4") (SSym "b_M4")) (SNum (PInt 2)); SSub (SSub (SSym "k_M4") (SSym "g_M4")) (SNum (PInt 7))].
Proof. vm_compute. reflexivity. Qed.
Lemma assembled_solved : answer checker (the_block assembled) assembled_answer.
Proof.
  pose proof (checker_answer (the_block assembled) assembled_answer [-3; -7; -5; 3; 0]%R) as H.
  assert (V : b_varlist (the_block assembled) = ["d_M4"; "g_M4"; "a_M4"; "b_M4"; "k_M4"]) by (vm_compute; reflexivity).
  rewrite V, assembled_exprs in H. apply H; [discriminate|reflexivity|]. split; [reflexivity|].
  intros e [<-|[<-|[<-|[<-|[<-|[]]]]]]; cbn; f_equal; lra.
Qed.
(** The equation taken over from M1 speaks of the quantities of M4. *)
Example C82_case : composed assembled /\ honest checker /\ answer checker (the_block assembled) assembled_answer /\ assembled_values (bind_env assembled_answer) /\
  added assembled = [2%nat] /\ map fst (ac_says (account_no assembled 2)) = [PEq "eq33"; PEq "eq31"; PEq "eq32"; PEq "eq1b"; PEq "eq1a"] /\
  map (fun px => wr_value (snd px) (bind_env [("d_M4", 10); ("g_M4", 20); ("a_M4", 30); ("b_M4", 40); ("k_M4", 50); ("d_M1", 60)]%R)) (ac_says (account_no assembled 2)) =
    [Some (50 - 20 - 7); Some (30 + 40 + 2); Some (40 - 3); Some (20 + 7); Some (10 + 3)]%R.
Proof.
  split; [exact assembled_composed|]. split; [exact checker_honest|]. split; [exact assembled_solved|].
  split; [repeat split|]. split; [vm_compute; reflexivity|]. split; [vm_compute; reflexivity|]. vm_compute. reflexivity.
Qed.

(** Parts of models: M takes from A the equation x + p == 0 only, and from B the
    parameter r = 5 only.  M has an x of its own, and a p = 4, but the equation keeps the
    3 of A. *)
Definition parts_only : list act :=
  [ANew "A" (mkDecls [] [dpar "p"; dset_par "p" 3] [dvar "x"] [zero_of "e" (UBin BAdd (q "x") (q "p"))]); ACall 0%nat;
   ANew "B" (mkDecls [] [dpar "r"; dset_par "r" 5] [dvar "x"] [zero_of "e" (UBin BSub (q "x") (q "r"))]); ACall 1%nat;
   ANew "M" (mkDecls [] [] [] []); AStmt 2%nat (dvar "x"); AStmt 2%nat (dvar "y"); AStmt 2%nat (dpar "p"); AStmt 2%nat (dset_par "p" 4);
   AInc 2%nat 0%nat (mkInc false false false true true); AInc 2%nat 1%nat (mkInc false true false false true);
   AStmt 2%nat (zero_of "g" (UBin BSub (q "y") (q "r"))); AAdd 2%nat].
Example C82_part_case : composed parts_only /\ added parts_only = [2%nat] /\ map fst (ac_says (account_no parts_only 2)) = [PEq "g"; PEq "e"] /\
  map (fun px => wr_value (snd px) (bind_env [("x_M", 10); ("y_M", 20); ("p_M", 4)]%R)) (ac_says (account_no parts_only 2)) = [Some (20 - 5); Some (10 + 3)]%R /\
  b_exprs (the_block parts_only) = [SAdd (SSym "x_M") (SNum (PInt 3)); SSub (SSym "y_M") (SNum (PInt 5))].
Proof. split; [composed|]. repeat (split; [vm_compute; reflexivity|]). vm_compute. reflexivity. Qed.

(** ** Runs *)
(** The model fall of C79 in two: the part has dx/dt == 3*t, the whole dy/dt == x. *)
Definition fall_parts : list act :=
  [ANew "P" (mkDecls [] [] [] [CEq "e" "e" (UElem (UDiff "x" (Some "t")) (UNumL BMul (PInt 3) (UQty "t"))) true]);
   AStmt 0%nat (dvar "t"); AStmt 0%nat (dvar "x"); AStmt 0%nat (CDist "x"); ACall 0%nat; ANew "M" (mkDecls [] [] [] []);
   AInc 1%nat 0%nat inc_default; AStmt 1%nat (dvar "y"); AStmt 1%nat (CDist "y");
   AStmt 1%nat (CEq "f" "f" (UElem (UDiff "y" (Some "t")) (UQty "x")) true);
   AAdd 1%nat; ATime ["t_M"]; AInit [("x_M", PInt 2); ("y_M", PInt 5); ("t_M", PInt 7)]].
Lemma fall_parts_composed : composed fall_parts.
Proof. composed. Qed.
Lemma fall_parts_dictionaries : dictionaries fall_parts /\ times_by fall_parts ["t_M"].
Proof.
  split.
  - intros c H. repeat (destruct H as [H|H]; [first [discriminate H|injection H as <-]|]); [|destruct H];
      repeat (constructor; [cbn; intuition discriminate|]); constructor.
  - exists (firstn 11 fall_parts), (skipn 12 fall_parts). split; [reflexivity|]. intros n [H|[]]; discriminate H.
Qed.
Lemma parts_explicit : Forall2 (explicit "t_M") (b_diff (the_block fall_parts)) fall_ode.
Proof. apply OdeFacts.views_explicit. vm_compute. reflexivity. Qed.
Lemma parts_unknowns : ode_unknowns "t_M" fall_ode (b_varlist (the_block fall_parts)).
Proof.
  assert (E : b_varlist (the_block fall_parts) = ["t_M"; "x_M"; "y_M"]) by (vm_compute; reflexivity). rewrite E.
  split; [repeat constructor; cbn; intuition discriminate|].
  assert (U : uses_time "t_M" fall_ode) by (exists "x_M", (SMul (SSym "t_M") (SNum (PInt 3))); split; [now left|now left]).
  intros x. cbn. intuition.
Qed.
Lemma parts_one_kind : b_eqs (the_block fall_parts) = b_diff (the_block fall_parts).
Proof. vm_compute. reflexivity. Qed.
Definition parts_init : dict num := pr_init (snd (final fall_parts)).
Definition parts_solver : dsolver :=
  match dsolver_init (the_block fall_parts) parts_init (TNames ["t_M"]) true with Ok ds => ds | Raise _ => mkDS [] [] None end.
Lemma parts_made : dsolver_init (the_block fall_parts) parts_init (TNames ["t_M"]) true = Ok parts_solver.
Proof. unfold parts_solver. destruct (ok_solver (the_block fall_parts) parts_init (TNames ["t_M"]) true) as (s & Es); [vm_compute; reflexivity|]. rewrite Es. reflexivity. Qed.
Notation parts_rates := (rates print_one (snd (final fall_parts)) (the_block fall_parts) parts_solver).
Lemma parts_rhs : fall_system parts_rates.
Proof.
  intros x y tau. set (en := mkEnv (fun z => if String.eqb z "t_M" then tau else nth (if String.eqb z "x_M" then 0 else 1) [x; y] 0%R) (fun _ _ => 0%R)).
  unfold rates.
  rewrite (ode_rhs "t_M" print_one (snd (final fall_parts)) (the_block fall_parts) parts_init (TNames ["t_M"]) true parts_solver fall_ode [x; y] tau en);
    [reflexivity|exact print_one_ok|reflexivity|reflexivity|vm_compute; reflexivity|exact parts_explicit|exact fall_closed|
     intros _; split; [exact parts_one_kind|exact parts_unknowns]|discriminate|exact parts_made|].
  split; [reflexivity|]. split; [|reflexivity]. intros [|[|j]] z r H; cbn in H; try (injection H as <- <-; reflexivity). destruct j; discriminate.
Qed.
Lemma parts_starts : initial_state no_print parts_solver (pr_init (snd (final fall_parts))) = Ok [PInt 2; PInt 5].
Proof. vm_compute. reflexivity. Qed.
Lemma parts_run o l : oo_solver o = Some "ODEINT" -> time_points o = Ok l ->
  ode_solve fall_odeint fall_cvode print_one no_print (snd (final fall_parts)) (the_block fall_parts) parts_solver o fall_domain =
    (fall_table (oo_names o) l (map (fall_curve (hd 0%R l) 2 5) l), Ok (l, map (fall_curve (hd 0%R l) 2 5) l)).
Proof.
  intros Es Et. unfold ode_solve. rewrite parts_starts. cbn [rbind]. rewrite Et. cbn [rbind].
  assert (M : map_res real_of [PInt 2; PInt 5] = Ok [2; 5]%R) by reflexivity. rewrite M. cbn [rbind].
  assert (J : forall f, integrate fall_odeint fall_cvode o f [2; 5]%R l = Ok (l, map (fall_curve (hd 0%R l) 2 5) l))
    by (intros f; unfold integrate; rewrite Es; reflexivity).
  rewrite J. cbn [rbind List.length]. rewrite fall_recorded. reflexivity.
Qed.
(** The run records what the model in one piece records. *)
Example C82_run_case : composed fall_parts /\ dictionaries fall_parts /\ times_by fall_parts ["t_M"] /\
  Forall2 (explicit "t_M") (b_diff (the_block fall_parts)) fall_ode /\ closed_system "t_M" fall_ode /\ b_eqs (the_block fall_parts) = b_diff (the_block fall_parts) /\
  ode_unknowns "t_M" fall_ode (b_varlist (the_block fall_parts)) /\
  dsolver_init (the_block fall_parts) (pr_init (snd (final fall_parts))) (TNames ["t_M"]) true = Ok parts_solver /\
  cleared fall_domain /\ d_ind fall_domain = ["t_M"] /\ d_dep fall_domain = map fst fall_ode /\
  odeint_solves fall_odeint parts_rates 0%R /\ cvode_solves fall_cvode parts_rates 0%R /\
  exists d ts rows col, ode_solve fall_odeint fall_cvode print_one no_print (snd (final fall_parts)) (the_block fall_parts) parts_solver fall_run fall_domain =
      (d, Ok (ts, rows)) /\
    column d "t_M" (LName "t_M") = Some ts /\ ts = [0; 1; 2]%R /\
    column d "t_M" (LName "height") = Some col /\ col = [5; 7 + 1 / 2; 13]%R.
Proof.
  destruct fall_parts_dictionaries as [Dc Tb]. split; [exact fall_parts_composed|]. split; [exact Dc|]. split; [exact Tb|].
  split; [exact parts_explicit|]. split; [exact fall_closed|]. split; [exact parts_one_kind|]. split; [exact parts_unknowns|]. split; [exact parts_made|].
  split; [exact fall_cleared|]. split; [reflexivity|]. split; [reflexivity|]. split; [exact (fall_odeint_solves _ parts_rhs)|].
  split; [exact (fall_cvode_solves _ parts_rhs)|].
  assert (T : time_points fall_run = Ok [0 + 0 * ((2 - 0) / 2); 0 + 1 * ((2 - 0) / 2); 0 + (1 + 1) * ((2 - 0) / 2)]%R) by reflexivity.
  eexists _, _, _, _. split; [apply parts_run; [reflexivity|exact T]|]. split; [reflexivity|]. split; [repeat f_equal; field|].
  split; [reflexivity|]. cbn. repeat f_equal; field.
Qed.

(** The same for the model growth of C80: the part has dx/dt == z, the whole z == 3*x. *)
Definition growth_parts : list act :=
  [ANew "P" (mkDecls [] [] [] (firstn 1 dae_equations)); AStmt 0%nat (dvar "t"); AStmt 0%nat (dvar "x"); AStmt 0%nat (dvar "z");
   AStmt 0%nat (CDist "x"); AStmt 0%nat (CDist "z"); ACall 0%nat; ANew "M" (mkDecls [] [] [] (skipn 1 dae_equations));
   AInc 1%nat 0%nat inc_default; AAdd 1%nat;
   ATime ["t_M"]; AInit [("t_M", PInt 0); ("x_M", PInt 1); ("z_M", PInt 9); ("x_M_d", PInt 3)]].
Lemma growth_parts_composed : composed growth_parts.
Proof. composed. Qed.
Lemma growth_parts_function y1 y2 p q : dae_function print_one (the_block growth_parts) [y1; y2] [p; q] = Ok [Some (p - y2); Some (y2 - y1 * 3)]%R.
Proof. vm_compute. reflexivity. Qed.
Lemma growth_parts_is_one : growth_system (dae_function print_one (the_block growth_parts)).
Proof. intros y1 y2 p q. rewrite growth_parts_function. eexists. split; [reflexivity|]. intros v [<-|[<-|[]]]; auto. Qed.
Lemma growth_parts_names : b_varlist (the_block growth_parts) = ["x_M"; "z_M"].
Proof. vm_compute. reflexivity. Qed.
Lemma growth_parts_parts : Forall2 (residual_ode print_one) (b_diff (the_block growth_parts)) the_dae /\ closed_dae (the_block growth_parts) the_dae.
Proof.
  apply dae_parts; [vm_compute; reflexivity|vm_compute; reflexivity|rewrite growth_parts_names..]; [|cbn; auto|cbn; auto].
  repeat constructor; cbn; intuition discriminate.
Qed.
Lemma growth_parts_done : dae_solve growth_ida print_one no_print (snd (final growth_parts)) (the_block growth_parts) growth_run growth_domain =
  (growth_table [("z_M", "rate")] growth_points (map (growth_curve 1 1) growth_points), Ok (growth_points, map (growth_curve 1 1) growth_points)).
Proof.
  apply growth_by_ida; [now left|now exists 3%R|reflexivity|vm_compute; reflexivity| |].
  - rewrite growth_parts_function. eexists. reflexivity.
  - assert (E : diff_flags (the_block growth_parts) = [true; false]) by (vm_compute; reflexivity). rewrite E. reflexivity.
Qed.
Example C82_dae_case : composed growth_parts /\ dictionaries growth_parts /\
  Forall2 (residual_ode print_one) (b_diff (the_block growth_parts)) the_dae /\ closed_dae (the_block growth_parts) the_dae /\
  states_first (b_varlist (the_block growth_parts)) the_dae /\ (exists rest, b_eqs (the_block growth_parts) = b_diff (the_block growth_parts) ++ rest) /\
  ida_solves growth_ida (dae_function print_one (the_block growth_parts)) 0%R /\
  cleared growth_domain /\ d_ind growth_domain = ["t_M"] /\ d_dep growth_domain = b_varlist (the_block growth_parts) /\
  dae_solve growth_ida print_one no_print (snd (final growth_parts)) (the_block growth_parts) growth_run growth_domain =
    dae_solve growth_ida print_one no_print (snd (final growth)) (the_block growth) growth_run growth_domain.
Proof.
  destruct growth_parts_parts as [A B]. split; [exact growth_parts_composed|]. split.
  { intros c H. repeat (destruct H as [H|H]; [first [discriminate H|injection H as <-]|]); [|destruct H];
      repeat (constructor; [cbn; intuition discriminate|]); constructor. }
  split; [exact A|]. split; [exact B|]. split; [rewrite growth_parts_names; exists ["z_M"]; reflexivity|].
  split. { exists (skipn 1 (b_eqs (the_block growth_parts))). vm_compute. reflexivity. }
  split; [apply growth_solves, growth_parts_is_one|]. split; [exact growth_cleared|]. split; [reflexivity|].
  split; [rewrite growth_parts_names; reflexivity|]. rewrite growth_done. exact growth_parts_done.
Qed.

(** ** Coinciding names *)
(** A says x == 1 and x_b == 1.  In b_A, x is called what x_b is called in A: both
    equations become equations for x_b, and x = 5 is accepted. *)
Definition captured_decls : decls :=
  mkDecls [] [] [dvar "x"; dvar "x_b"] [zero_of "e" (UNumR BSub (q "x") (PInt 1)); zero_of "f" (UNumR BSub (q "x_b") (PInt 1))].
Definition captured : list act :=
  [ANew "A" captured_decls; ACall 0%nat; ANew "b_A" (mkDecls [] [] [] []); AInc 1%nat 0%nat inc_default;
   AStmt 1%nat (dvar "y"); AStmt 1%nat (zero_of "g" (UBin BSub (q "y") (q "x"))); AAdd 1%nat].
Definition captured_answer : dict R := [("x_b_A", 5); ("x_b_b_A", 1); ("y_b_A", 5)]%R.
Lemma captured_solved : answer checker (the_block captured) captured_answer.
Proof.
  pose proof (checker_answer (the_block captured) captured_answer [5; 1; 5]%R) as H.
  assert (V : b_varlist (the_block captured) = ["x_b_A"; "x_b_b_A"; "y_b_A"]) by (vm_compute; reflexivity).
  assert (E : b_exprs (the_block captured) = [SSub (SSym "x_b_b_A") (SNum (PInt 1)); SSub (SSym "x_b_b_A") (SNum (PInt 1)); SSub (SSym "y_b_A") (SSym "x_b_A")])
    by (vm_compute; reflexivity).
  rewrite V, E in H. apply H; [discriminate|reflexivity|]. split; [reflexivity|].
  intros e [<-|[<-|[<-|[]]]]; cbn; f_equal; lra.
Qed.
Theorem C82_names_refuted : exists acts s b eng out M H d, resolved acts s b /\ all_ok start_session acts /\ distinct_models acts /\
  forallb neat_act acts = true /\ plain_origins acts /\ honest eng /\ answer eng b out /\
  nth_error (created acts) 0 = Some (M, d) /\ nth_error (created acts) 1 = Some (H, mkDecls [] [] [] []) /\ In (AInc 1 0 inc_default) acts /\ added acts = [1%nat] /\
  In (zero_of "e" (UNumR BSub (q "x") (PInt 1))) (d_eqs d) /\ dget ("x_" ++ H)%string out = Some 5%R.
Proof.
  exists captured, (final captured), (the_block captured), checker, captured_answer, "A", "b_A", captured_decls.
  split; [apply run_resolved; vm_compute; reflexivity|]. split; [apply runs_all; vm_compute; reflexivity|].
  split; [apply names_distinct; vm_compute; repeat (constructor; [cbn; intuition discriminate|]); constructor|].
  split; [vm_compute; reflexivity|]. split; [apply origins_by; vm_compute; reflexivity|]. split; [exact checker_honest|]. split; [exact captured_solved|].
  split; [reflexivity|]. split; [reflexivity|]. split; [right; right; right; now left|]. split; [vm_compute; reflexivity|]. split; [now left|reflexivity].
Qed.
Print Assumptions C82_names_refuted.
