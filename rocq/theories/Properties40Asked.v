(** Property theorems: what numeric routines are asked (C83), and refusals and
    texts left open by the other theorems (C17, C27, C28, C29, C37, C39, C49, C52,
    C61, C81). *)
From Verif Require Import Base BaseFacts Num UnitModel Sympy Node Build EquationModel ModelModel ProblemModel SpecUnits SpecExpr SpecModel SpecInc SpecCall SpecProblem
  ProblemFacts SessionFacts SpecLink SolverModel DomainModel SpecSolver SolverFacts SpecSymbols SpecWritten SimModel RunModel WholeModel SpecWhole WholeFacts OptimModel SpecOptim
  ReportModel UnitOpModel SpecAsked AskedFacts Demo
  Properties07Problems Properties08Solvers Properties16Written Properties24Said Properties29Run Properties30Dae Properties33Whole.
From Verif Require SpecSim PackageModel UnitResolveModel Properties20UnitResolve.
From Coq Require Import Reals Lra.
Notation num := Verif.Num.num.

(** ** C83 *)
(** The results of an algebraic simulation are the answer of the routine the
    options name, asked with the equations and the unknowns of the problem and
    started where the options say. *)
Theorem C83_asked : forall lib arrays pn ps h st doms sm sanity st' doms' out p b,
  sm_problem sm = Some p -> pr_block p = Some b -> whole_run lib arrays pn ps h st doms sm sanity = (st', doms', Ok (WDict out)) ->
  let eng := lib_roots lib in let es := b_exprs b in let vars := b_varlist b in
  (problem_type b = Some PTLinear ->
     (chosen sm "linear_solver" "sympy" \/ default sm "linear_solver" -> exists others, sympy_solve eng es vars = (others ++ [out])%list) /\
     (chosen sm "linear_solver" "scipy" -> exists x, dense_solve eng es vars = Ok x /\ out = by_name vars x) /\
     (chosen sm "linear_solver" "symbolicsys" -> exists g x, guessed sm vars g /\ root_find eng vars es g = (true, x) /\ out = by_name vars x)) /\
  (problem_type b = Some PTNonlinear ->
     (chosen sm "nonlinear_solver" "sympy" -> exists others, sympy_solve eng es vars = (others ++ [out])%list) /\
     (chosen sm "nonlinear_solver" "*" \/ chosen sm "nonlinear_solver" "symbolicsys" \/ default sm "nonlinear_solver" ->
        exists g g' x, guessed sm vars g /\ improved sm eng vars es g g' /\ root_find eng vars es g' = (true, x) /\ out = by_name vars x)).
Proof. exact asked. Qed.
Print Assumptions C83_asked.

(** x**2 - 9 == 0, started at 3. *)
Definition square : list act :=
  [ANew "M" (mkDecls [] [] [CVar "x" "x" u_dimless false "" (PInt 0)]
     [CEq "e" "e" (UResid (UNumR BSub (UNumR BPow (UQty "x") (PInt 2)) (PInt 9))) true]);
   ACall 0%nat; AAdd 0%nat].
Definition square_conf : confargs := mkConf [("initial_guess", VDict [("x_M", VNum (PInt 3))])] VNone None.
Lemma square_runs p b h : pr_block p = Some b -> choose_solver None b = Ok NLASolver -> create_solver b = Ok NLASolver -> dof_test print_one h p = Ok true ->
  b_varlist b = ["x_M"] -> root_of (b_varlist b) (b_exprs b) [3]%R ->
  whole_run test_library no_arrays print_one no_print h store0 [] (configured p square_conf) true = (store0, [], Ok (WDict [("x_M", 3)]%R)).
Proof.
  intros Hb T K D V Ro. eapply run_as; [reflexivity|exact Hb|reflexivity|reflexivity|reflexivity|exact T| |].
  - unfold make_solver. rewrite K. reflexivity.
  - unfold run_solver. rewrite D. cbn [rbind]. unfold nla_run.
    match goal with |- context [opt ?c "nonlinear_solver"] => change (opt c "nonlinear_solver") with (Ok (VStr "*")) end.
    cbn [rbind name_option]. change (nla_lookup (Some "*")) with (Ok MSymbolicSys). cbn [rbind].
    match goal with |- context [opt ?c "initial_guess"] => change (opt c "initial_guess") with (Ok (VDict [("x_M", VNum (PInt 3))])) end. cbn [rbind].
    match goal with |- context [guess_option ?v] => change (guess_option v) with (Ok [("x_M", 3)]%R) end. cbn [rbind].
    match goal with |- context [opt ?c "initial_guess_solver"] => change (opt c "initial_guess_solver") with (Ok VNone) end.
    cbn [rbind name_option test_library lib_roots]. unfold nla_solve. change (nla_lookup (Some "*")) with (Ok MSymbolicSys). cbn [rbind]. unfold symbolicsys. rewrite V in *.
    match goal with |- context [first_guess ?u ?a ?b] => change (first_guess u a b) with (Ok [3]%R) end. cbn [rbind]. apply checker_spec in Ro.
    match goal with |- context [root_find checker ?v ?e ?g] => change (root_find checker v e g) with (fst (root_find checker v e g), g) end.
    rewrite Ro. reflexivity.
Qed.
Example C83_asked_case : pr_block (snd (final square)) = Some (the_block square) /\
  whole_run test_library no_arrays print_one no_print (pw_heap (fst (final square))) store0 [] (configured (snd (final square)) square_conf) true =
    (store0, [], Ok (WDict [("x_M", 3)]%R)) /\
  problem_type (the_block square) = Some PTNonlinear /\ chosen (configured (snd (final square)) square_conf) "nonlinear_solver" "*" /\
  problem_type (the_block network) = Some PTLinear /\ chosen (configured (snd (final network)) network_conf) "linear_solver" "symbolicsys".
Proof.
  split; [vm_compute; reflexivity|]. split; [|split; [vm_compute; reflexivity|split; [vm_compute; reflexivity|split; vm_compute; reflexivity]]].
  assert (V : b_varlist (the_block square) = ["x_M"]) by (vm_compute; reflexivity).
  assert (X : b_exprs (the_block square) = [SSub (SPow (SSym "x_M") (SNum (PInt 2))) (SNum (PInt 9))]) by (vm_compute; reflexivity).
  apply square_runs with (b := the_block square); [vm_compute; reflexivity..|exact V|]. rewrite V, X. split; [reflexivity|].
  intros e [<-|[]]. cbn. unfold rpow. destruct (Rlt_dec 0 3) as [_|N]; [|lra]. cbn. f_equal.
  replace 2%R with (INR 2) by (simpl; lra). rewrite Rpower_pow by lra. simpl. lra.
Qed.

(** ** C17 *)
(** An equation between two sides has the sides 0 and 1 and no other. *)
Theorem C17_side_index : forall e i, eq_elementary e = true -> (2 <= i)%nat -> equation_call e i = Raise EUnexpectedValue.
Proof. exact side_index. Qed.
Print Assumptions C17_side_index.
Example C17_side_index_case : exists e, In e (b_eqs (the_block two_models)) /\ eq_elementary e = true.
Proof. apply (proj1 (existsb_exists _ _)). vm_compute. reflexivity. Qed.

(** ** C27 *)
(** The members into which an expression is taken apart add up, or multiply, to
    the expression. *)
Theorem C27_members : forall e v, match e with
  | SAdd _ _ | SSub _ _ => total_of (sx_args e) v = den e v
  | SMul _ _ | SDiv _ _ => product_of (sx_args e) v = den e v
  | _ => True end.
Proof. exact members_of. Qed.
Print Assumptions C27_members.
Example C27_members_case : sx_args (SSub (SSym "x") (SAdd (SSym "y") (SNum (PInt 2)))) =
  [SSym "x"; SMul (SNum (PInt (-1))) (SSym "y"); SMul (SNum (PInt (-1))) (SNum (PInt 2))].
Proof. reflexivity. Qed.

(** ** C28 *)
Theorem C28_variables : forall w outs ins a l, In l (ins ++ outs)%list -> (forall q, hget (w_heap w) l = Some q -> q_kind q <> KVariable) ->
  model_connection w outs ins a = (w, Raise EUnexpectedValue).
Proof. exact connection_variables. Qed.
Print Assumptions C28_variables.
Example C28_variables_case : In 2%nat ([2%nat] ++ [0%nat])%list /\ forall q, hget demo_heap 2%nat = Some q -> q_kind q <> KVariable.
Proof. split; [now left|]. intros q H. injection H as <-. discriminate. Qed.

(** ** C29 *)
(** A connection is kept under the names of what it connects. *)
Theorem C29_key : forall s m1 m2 outs ins e s', do_act s (AConn m1 m2 outs ins e) = (s', Ok tt) ->
  exists i s1 d1 s2 d2 os is en, m1 = CMModel i /\ get_model (fst s) i = Some (s1, d1) /\ get_model (fst s) m2 = Some (s2, d2) /\
    qty_names (pw_heap (fst s)) (cv_list outs) = Ok os /\ qty_names (pw_heap (fst s)) (cv_list ins) = Ok is /\
    dget (connection_text os (m_name s1) is (m_name s2)) (pr_conns (snd s')) = Some en.
Proof. exact key_of_connection. Qed.
Print Assumptions C29_key.
Example C29_key_case : dkeys (pr_conns (snd (run_acts start_session two_models))) = ["q_S@S ---> p_R@R"].
Proof. vm_compute. reflexivity. Qed.

(** ** C37 *)
(** After a dynamic problem the results are the tables of the domain of the
    options; without a domain there is an AttributeError. *)
Theorem C37_dynamic : forall tables s p b t v, sm_problem s = Some p -> pr_block p = Some b ->
  problem_type b = Some PTDiff \/ problem_type b = Some PTDae -> SpecSim.option_of s "domain" = Some v -> t <> ROther ->
  get_results tables s t = match v with
                           | VObj o => match tables o with Some f => Ok (RTables f) | None => Raise EAttribute end
                           | _ => Raise EAttribute
                           end.
Proof. exact dynamic_results. Qed.
Print Assumptions C37_dynamic.
Example C37_dynamic_case : problem_type (the_block fall) = Some PTDiff /\
  SpecSim.option_of (configured (snd (final fall)) (mkConf [] VNone None)) "domain" = Some VNone.
Proof. split; vm_compute; reflexivity. Qed.

(** ** C39 *)
(** Options read from a file in which something the mechanism needs is missing are
    refused with KeyError. *)
Theorem C39_missing : forall accepts simconf a m k d sc, sim_configuration (sa_simconf a) simconf = Ok sc -> sa_conf a = CFile (Ok d) ->
  sa_optimizer a = OName m -> known m -> requires m k -> dget k d = None -> new_study accepts simconf a = Raise EKey.
Proof. exact missing_option. Qed.
Print Assumptions C39_missing.
Example C39_missing_case : known "pso" /\ requires "pso" "omega_pso" /\ dget "omega_pso" [("number_of_generations", VNum (PInt 5))] = None /\
  sim_configuration (CDict []) None = Ok [].
Proof.
  split; [right; right; right; now left|]. split; [|split; reflexivity]. left. exists PSO, "omega". apply o_role, r_pso. right. now left.
Qed.

(** ** C49 *)
(** Constraints that are no list cannot be searched. *)
Theorem C49_no_list : forall p, op_ready p = false -> (forall l, op_bounds p <> VList l) -> get_bounds p = Raise EType.
Proof. exact bounds_type. Qed.
Print Assumptions C49_no_list.
Example C49_no_list_case : forall f, op_ready (new_oproblem 2 "p" VNone false f) = false /\ forall l, op_bounds (new_oproblem 2 "p" VNone false f) <> VList l.
Proof. intros f. split; [reflexivity|discriminate]. Qed.

(** ** C52 *)
Theorem C52_tank_refuted : forall w, run_script w tank_equations = (w, Raise EAttribute).
Proof. exact tank_refused. Qed.
Print Assumptions C52_tank_refuted.

(** The steady flash calls an undefined name after its first equations. *)
Theorem C52_flash_refuted : forall k w w1, run_cmds w (fst (flash_steady_equations (Some k))) = (w1, Ok tt) ->
  run_script w (flash_steady_equations (Some k)) = (w1, Raise EName).
Proof. exact flash_undefined. Qed.
Print Assumptions C52_flash_refuted.

(** A valve whose phase has no density cannot be used. *)
Theorem C52_density : forall lib k c w w1, (k_number k < 2)%Z -> k_star k = Ok c -> l_rho lib c = None ->
  run_cmds w valve_balances = (w1, Ok tt) -> run_script w (valve_equations lib (Some k)) = (w1, Raise EUnexpectedValue).
Proof. exact valve_no_density. Qed.
Print Assumptions C52_density.
Definition empty_pack : pack := mkPack 1 [] (Ok (PackageModel.mkChem "water" (PInt 300) (PInt 101325))).
Definition after (s : script) : mworld := fst (run_cmds (mkW [] (fun _ => 0%nat) (new_model "U")) (fst s)).
Example C52_refusals_case :
  snd (run_cmds (after ([var "ndot_in" u_molar_flow "input"; var "ndot_L_out" u_molar_flow "output"; var "ndot_V_out" u_molar_flow "output"], None)) (fst (flash_steady_equations (Some empty_pack)))) = Ok tt /\
  snd (run_cmds (after (valve_init (Some empty_pack))) valve_balances) = Ok tt.
Proof. vm_compute. split; reflexivity. Qed.

(** ** C61 *)
(** A table without names of columns numbers them. *)
Theorem C61_fields : forall A (rows : list (list A)) n, (0 < n)%nat -> rows <> [] -> (forall r, In r rows -> List.length r = n) ->
  exists ns, add_rows [] rows = Ok (ns, rows) /\ List.length ns = n /\
    forall k, (k < n)%nat -> nth_error ns k = Some ("Field " ++ str_nat (S k))%string.
Proof. exact @unnamed_fields. Qed.
Print Assumptions C61_fields.
Example C61_fields_case : add_rows [] [[1%Z; 2%Z]; [3%Z; 4%Z]] = Ok (["Field 1"; "Field 2"], [[1%Z; 2%Z]; [3%Z; 4%Z]]).
Proof. reflexivity. Qed.

(** ** C01 *)
(** What * and / of two units give, and of anything else. *)
Theorem C01_operators : forall u v k, a_unit u -> a_unit v ->
  (exists r, unit_mul_op u (UAUnit v) = Ok (URUnit r) /\ exponent r k = SpecUnits.combine (fun a b => nadd b a) (exponent u k) (exponent v k)) /\
  (exists r, unit_div_op u (UAUnit v) = Ok (URUnit r) /\ ((exponent v k = None -> exponent u k = None) -> exponent r k = quotient_exponent (exponent u k) (exponent v k))) /\
  unit_mul_op u UAOther = Raise EUnexpectedValue /\ unit_div_op u UAOther = Raise EUnexpectedValue.
Proof. exact unit_operators. Qed.
Print Assumptions C01_operators.

(** ** C72 *)
(** Before the inlets are set, resolve raises AttributeError after the
    declarations. *)
Theorem C72_unset : forall d k outs w w1, run_cmds w (d_cons d ++ d_pars d ++ d_vars d) = (w1, Ok tt) ->
  UnitResolveModel.unit_resolve d k None outs w = (w1, outs, Raise EAttribute).
Proof. exact unset_raises. Qed.
Print Assumptions C72_unset.
Example C72_unset_case : snd (run_cmds Properties20UnitResolve.a_model
  (d_cons Properties20UnitResolve.taking ++ d_pars Properties20UnitResolve.taking ++ d_vars Properties20UnitResolve.taking)) = Ok tt.
Proof. vm_compute. reflexivity. Qed.

(** ** C81 *)
(** A package that lists None as a phase cannot calculate: KeyError, nothing is
    changed. *)
Theorem C81_none : forall s i T P p r, nth_error (PackageModel.s_pkgs s) i = Some p ->
  PackageModel.the_list s (PackageModel.pk_names p) = None :: r -> PackageModel.calculate s i T P = (s, Raise EKey).
Proof. exact calculate_none. Qed.
Print Assumptions C81_none.
Definition unnamed_package : PackageModel.pstore :=
  fst (PackageModel.new_package (fun _ => true) PackageModel.initial_store 1 (PackageModel.LNew [None])).
Example C81_none_case : exists p, nth_error (PackageModel.s_pkgs unnamed_package) 0%nat = Some p /\
  PackageModel.the_list unnamed_package (PackageModel.pk_names p) = [None].
Proof. eexists. split; vm_compute; reflexivity. Qed.
