(** Facts about simulations from their options to their results (C83). *)
From Verif Require Import Base BaseFacts Num UnitModel Sympy Node Build EquationModel ModelModel ProblemModel SpecUnits SpecExpr SpecModel SpecInc SpecCall SpecProblem
  ProblemFacts SessionFacts DofFacts SpecLink SolverModel DomainModel SpecSolver SolverFacts SpecSymbols OdeFacts DaeFacts SpecWritten SpecExact SpecOwn SpecSession
  WrittenFacts SpecSaid SaidFacts SpecInit InitFacts RunModel SpecRun RunFacts DaeRunFacts SimModel SimFacts WholeModel SpecWhole.
From Verif Require SpecSim.
From Coq Require Import Reals Lra.
Notation num := Verif.Num.num.
Notation option_of := SpecSim.option_of.

Lemma opt_of s c k v : sm_conf s = Some c -> opt c k = Ok v -> option_of s k = Some v.
Proof. intros E H. unfold SpecSim.option_of. rewrite E. unfold opt in H. destruct (dget k c); congruence. Qed.
Lemma opt_same s c k v w : sm_conf s = Some c -> option_of s k = Some v -> opt c k = Ok w -> w = v.
Proof. intros E H O. apply (opt_of s) in O; [congruence|exact E]. Qed.
Lemma opt_is s c k v : sm_conf s = Some c -> option_of s k = Some v -> opt c k = Ok v.
Proof. intros E H. unfold SpecSim.option_of in H. rewrite E in H. unfold opt. now rewrite H. Qed.

Ltac bind H :=
  match type of H with
  | rbind ?e _ = Ok _ => let E := fresh "E" in destruct e as [?|?] eqn:E; [cbn [rbind] in H|discriminate H]
  end.

(** What a run that ended was made of. *)
Lemma whole_parts lib arrays pn ps h st doms s sanity st' doms' out p b :
  sm_problem s = Some p -> pr_block p = Some b ->
  whole_run lib arrays pn ps h st doms s sanity = (st', doms', Ok out) ->
  exists c sv, sm_conf s = Some c /\ create_solver b = Ok sv /\ run_solver lib arrays pn ps h p b c sv sanity doms = (doms', Ok out).
Proof.
  intros Hp Hb H. unfold whole_run in H. destruct (prepare st s false (Ok true)) as [st1 [[c sv]|x]] eqn:P; [|discriminate].
  rewrite Hp, Hb in H. destruct (run_solver lib arrays pn ps h p b c sv sanity doms) as [dm r] eqn:R. injection H as <- <- ->.
  unfold prepare in P. destruct (sm_conf s) as [c0|] eqn:C; [|discriminate]. rewrite Hp, Hb in P.
  destruct (let* t := opt c0 "problem_type" in _) as [[p0 b0]|x] eqn:E; [|discriminate]. bind E. bind E. bind E. injection E as <- <-.
  unfold make_solver in P. destruct (let* _ := opt c0 "linear_solver" in _) as [sv0|x] eqn:M; [|discriminate]. bind M. bind M. bind M. bind M.
  assert (Es : c0 = c /\ sv0 = sv).
  { destruct sv0.
    - injection P as _ <- <-. auto.
    - match type of P with match ?q with Ok _ => _ | Raise _ => _ end = _ => destruct q as [q0|x] eqn:Q; [|discriminate P] end. injection P as _ <- <-.
      split; [reflexivity|]. destruct a3; try discriminate Q; [congruence|]. bind Q. congruence.
    - destruct (let* _ := opt c0 "domain" in _) as [[u v]|x]; [|discriminate]. destruct (add_time_name st v u) as [st2 [[]|x]]; [|discriminate].
      injection P as _ <- <-. auto.
    - destruct (let* _ := opt c0 "domain" in _) as [[u v]|x]; [|discriminate]. destruct (add_time_name st v u) as [st2 [[]|x]]; [|discriminate].
      injection P as _ <- <-. auto. }
  destruct Es as [<- <-]. exists c0, sv0. auto.
Qed.

Lemma set_nth_only o (d d' : domain R) doms : nth_error doms o = Some d -> only_domain o d' doms (set_nth doms o d').
Proof.
  unfold only_domain. revert o. induction doms as [|x doms IH]; intros [|o] H; try discriminate H; cbn in *.
  - repeat split; auto. intros [|j] Hj; [congruence|reflexivity].
  - destruct (IH o H) as (A & B & C). repeat split; [lia|exact B|]. intros [|j] Hj; [reflexivity|]. cbn. apply C. congruence.
Qed.

(** Options of runs. *)
Lemma run_options_read arrays s c k w o : sm_conf s = Some c -> run_options arrays c k w = Ok o ->
  (forall name, uses s k name -> oo_solver o = None \/ oo_solver o = Some name) /\
  (forall a, option_of s "initial_time" = Some (VNum a) -> num_value a = Some (oo_initial o)) /\
  (forall a, option_of s "end_time" = Some (VNum a) -> exists e, num_value a = Some e /\ oo_end o = Some e) /\
  (forall n, option_of s "number_of_time_steps" = Some (VNum (PInt n)) -> oo_steps o = Some n) /\
  (option_of s "times_for_solution" = Some VNone -> oo_times o = None) /\
  (forall i l, w = true -> option_of s "times_for_solution" = Some (VObj i) -> arrays i = Some l -> oo_times o = Some l) /\
  (w = false -> oo_times o = None) /\
  (forall names, headed s names -> oo_names o = names).
Proof.
  intros C H. unfold run_options in H.
  bind H. bind H. bind H. bind H. bind H. bind H. bind H. bind H.
  match type of H with rbind ?e _ = Ok _ => destruct e as [ts|?] eqn:E7'; [cbn [rbind] in H|discriminate H] end.
  bind H. bind H. bind H. bind H. injection H as <-. cbn [oo_solver oo_initial oo_end oo_steps oo_times oo_names].
  split.
  { intros name [U|U]; rewrite (opt_same _ _ _ _ _ C U E); auto. }
  split.
  { intros av U. rewrite (opt_same _ _ _ _ _ C U E0) in E1. cbn in E1. unfold real_of in E1. destruct (num_value av); congruence. }
  split.
  { intros av U. rewrite (opt_same _ _ _ _ _ C U E2) in E3. unfold end_option, number_option, real_of in E3. destruct (num_value av) as [e|]; [|discriminate]. cbn in E3.
    exists e. split; congruence. }
  split.
  { intros nn U. rewrite (opt_same _ _ _ _ _ C U E5) in E6. cbn in E6. congruence. }
  split.
  { intros U. destruct w; [|congruence]. rewrite (opt_is _ _ _ _ C U) in E7'. cbn in E7'. congruence. }
  split.
  { intros i l -> U A. rewrite (opt_is _ _ _ _ C U) in E7'. cbn in E7'. rewrite A in E7'. congruence. }
  split; [intros ->; congruence|].
  intros names U. unfold headed in U. match goal with X : opt c "variable_name_map" = Ok ?v, Y : names_option ?v = Ok _ |- _ => rewrite (opt_same _ _ _ _ _ C U X) in Y; rename Y into Yn end.
  unfold names_option in Yn. clear -Yn.
  match type of Yn with _ = Ok ?r => assert (G : forall nm r, map_res (fun kv : string * cval => match snd kv with VStr s => Ok (fst kv, s) | _ => Raise EType end) (map (fun kv : string * string => (fst kv, VStr (snd kv))) nm) = Ok r -> r = nm) end.
  { induction nm as [|[a q] nm IH]; cbn; intros r Hr; [congruence|]. destruct (map_res _ (map _ nm)) as [r0|] eqn:Er; [|discriminate]. cbn in Hr. injection Hr as <-. f_equal. now apply IH. }
  now apply G.
Qed.

(** ** Algebraic problems *)
Lemma algebraic_dof pn acts s b : resolved acts s b -> b_diff b = [] ->
  dof_test pn (pw_heap (fst s)) (snd s) =
    if Nat.eqb (List.length (b_varlist b) + unspecified_pars (pw_heap (fst s)) (b_pars b)) (List.length (b_eqs b)) then Ok true else Raise EException.
Proof.
  intros R D. destruct (resolved_block _ _ _ R) as (G & B & _ & _). unfold dof_test.
  assert (HP : forall x l, In (x, l) (b_pars b) -> hget (pw_heap (fst s)) l <> None)
    by (intros x l Hin; apply (bf_pars _ _ B) in Hin; apply (g_pars _ G x), Hin).
  rewrite (proj2 R), (unspecified_count _ _ HP), D. cbn [rbind has_var any_res]. rewrite (bf_exprs _ _ B), Nat.add_0_r. reflexivity.
Qed.
Lemma no_differential b sv : create_solver b = Ok sv -> sv = LASolver \/ sv = NLASolver -> b_diff b = [].
Proof.
  unfold create_solver, problem_type. destruct (b_diff b) as [|e r]; [reflexivity|]. cbn [is_empty negb andb].
  destruct (negb (is_empty (b_lin b))), (negb (is_empty (b_nonlin b))); cbn; intros H [->| ->]; discriminate H.
Qed.

Lemma by_name_keys (vars : list string) (x : list R) : NoDup (dkeys (by_name vars x)).
Proof. unfold by_name, dof. apply nodup_dupdate. constructor. Qed.
Lemma symbolicsys_keys eng ps guess b (out : dict R) one : symbolicsys one eng ps guess b = Ok out -> NoDup (dkeys out).
Proof.
  unfold symbolicsys. intros H. bind H. destruct (root_find eng _ _ _) as [[] v]; [|discriminate]. injection H as <-. apply by_name_keys.
Qed.
Lemma la_keys eng name guess b (out : dict R) one : proper_answers eng -> la_solve one eng name guess b = Ok out -> NoDup (dkeys out).
Proof.
  intros P H. unfold la_solve in H. destruct (la_lookup name) as [[]|]; [| | |discriminate].
  - apply last_in in H. exact (P _ _ _ H).
  - bind H. injection H as <-. apply by_name_keys.
  - exact (symbolicsys_keys _ _ _ _ _ _ H).
Qed.
Lemma nla_keys eng name ps guess b (out : dict R) one : proper_answers eng -> nla_solve one eng name ps guess b = Ok out -> NoDup (dkeys out).
Proof.
  intros P H. unfold nla_solve in H. destruct (nla_lookup name) as [[]|]; [| | |discriminate]; cbn [rbind] in H.
  - apply last_in in H. exact (P _ _ _ H).
  - exact (symbolicsys_keys _ _ _ _ _ _ H).
  - exact (symbolicsys_keys _ _ _ _ _ _ H).
Qed.
Lemma la_run_answer eng b c out : la_run eng b c = Ok out -> answer eng b out /\ (proper_answers eng -> NoDup (dkeys out)).
Proof.
  unfold la_run. intros H. bind H. assert (A : exists g, la_solve 1%R eng (name_option a) g b = Ok out).
  { destruct (la_lookup (name_option a)) as [[]|]; [eauto|eauto| |eauto]. bind H. bind H. eauto. }
  destruct A as (g & A). split; [|intros P; exact (la_keys _ _ _ _ _ _ P A)]. exists 1%R, (name_option a), g, None. now left.
Qed.
Lemma nla_run_answer eng b c out : nla_run eng b c = Ok out -> answer eng b out /\ (proper_answers eng -> NoDup (dkeys out)).
Proof.
  unfold nla_run. intros H. bind H. bind H. assert (A : exists q g, nla_solve 1%R eng (name_option a) q g b = Ok out).
  { destruct a0; [eauto| |]; bind H; bind H; bind H; eauto. }
  destruct A as (q & g & A). split; [|intros P; exact (nla_keys _ _ _ _ _ _ _ P A)]. exists 1%R, (name_option a), g, q. now right.
Qed.

Lemma bind_results (out : dict R) : NoDup (dkeys out) -> bind_env (results_dict out) = bind_env out.
Proof.
  intros N. destruct (results_same out N) as [_ G]. unfold bind_env. f_equal. apply FunctionalExtensionality.functional_extensionality. intros x. now rewrite G.
Qed.

Lemma whole_algebraic acts s b lib arrays pn ps st doms sm st' doms' out : resolved acts s b ->
  sm_problem sm = Some (snd s) -> whole_run lib arrays pn ps (pw_heap (fst s)) st doms sm true = (st', doms', Ok (WDict out)) ->
  doms' = doms /\ List.length (b_eqs b) = (List.length (b_varlist b) + unspecified_pars (pw_heap (fst s)) (b_pars b))%nat /\
  answer (lib_roots lib) b out /\ (proper_answers (lib_roots lib) -> NoDup (dkeys out)).
Proof.
  intros R Hp H. destruct (whole_parts _ _ _ _ _ _ _ _ _ _ _ _ _ _ Hp (proj2 R) H) as (c & sv & C & S & X). clear H. unfold run_solver in X.
  assert (Al : forall f, b_diff b = [] -> (doms, let* _ := (let* _ := dof_test pn (pw_heap (fst s)) (snd s) in Ok tt) in let* d := f in Ok (WDict d)) = (doms', Ok (WDict out)) ->
    doms' = doms /\ List.length (b_eqs b) = (List.length (b_varlist b) + unspecified_pars (pw_heap (fst s)) (b_pars b))%nat /\ f = Ok out).
  { intros f D X0. injection X0 as <- X0. rewrite (algebraic_dof pn _ _ _ R D) in X0. split; [reflexivity|].
    destruct (Nat.eqb_spec (List.length (b_varlist b) + unspecified_pars (pw_heap (fst s)) (b_pars b)) (List.length (b_eqs b))) as [En|]; [|discriminate]. split; [easy|].
    cbn [rbind] in X0. destruct f; [cbn in X0; congruence|discriminate]. }
  destruct sv.
  - destruct (Al _ (no_differential _ _ S (or_introl eq_refl)) X) as (-> & L & F). destruct (la_run_answer _ _ _ _ F) as [A K]. auto.
  - destruct (Al _ (no_differential _ _ S (or_intror eq_refl)) X) as (-> & L & F). destruct (nla_run_answer _ _ _ _ F) as [A K]. auto.
  - exfalso. clear Al. match type of X with match ?e with Ok _ => _ | Raise _ => _ end = _ => destruct e as [[[ds o] [i d]]|]; [|discriminate X] end.
    destruct (ode_solve _ _ _ _ _ _ _ _ _) as [d' [[ts rows]|]]; discriminate X.
  - exfalso. clear Al. match type of X with match ?e with Ok _ => _ | Raise _ => _ end = _ => destruct e as [[o [i d]]|]; [|discriminate X] end.
    destruct (dae_solve _ _ _ _ _ _ _) as [d' [[ts rows]|]]; discriminate X.
Qed.

Lemma whole_answer acts s b lib arrays pn ps st doms sm st' doms' out r : resolved acts s b -> all_ok start_session acts -> distinct_models acts -> readable_program acts ->
  forallb tidy_act acts = true -> plain_origins acts -> known_statements acts -> honest (lib_roots lib) -> proper_answers (lib_roots lib) ->
  sm_problem sm = Some (snd s) -> whole_run lib arrays pn ps (pw_heap (fst s)) st doms sm true = (st', doms', Ok out) ->
  whole_results doms' sm out RDict = Ok (WByName r) ->
  List.length (b_eqs b) = (List.length (b_varlist b) + unspecified_pars (pw_heap (fst s)) (b_pars b))%nat /\ NoDup (dkeys r) /\
  forall x, program_says acts x -> asks x (bind_env r).
Proof.
  intros R O D L P Pl K Hh Pa Hp H W.
  destruct out as [out|ts rows].
  2: { exfalso. cbn in W. destruct (sm_conf sm) as [c|]; [|discriminate]. bind W. bind W. destruct (d_values (snd a0)); discriminate. }
  cbn in W. injection W as <-. destruct (whole_algebraic _ _ _ _ _ _ _ _ _ _ _ _ _ R Hp H) as (_ & Le & A & N). split; [exact Le|].
  split; [exact (proj1 (results_same out (N Pa)))|]. intros x Hx. rewrite (bind_results _ (N Pa)).
  exact (answer_said _ _ _ _ _ _ R O D L P Pl K Hh A Hx).
Qed.

(** Without any option. *)
Lemma whole_default acts s b lib arrays pn ps st doms sm0 sm : resolved acts s b -> sm_problem sm0 = Some (snd s) ->
  set_configurations sm0 (mkConf [] VNone None) = Ok sm -> problem_type b = Some PTLinear \/ problem_type b = Some PTNonlinear ->
  List.length (b_eqs b) = (List.length (b_varlist b) + unspecified_pars (pw_heap (fst s)) (b_pars b))%nat ->
  whole_run lib arrays pn ps (pw_heap (fst s)) st doms sm true =
    (st, doms, let '(success, x) := root_find (lib_roots lib) (b_varlist b) (b_exprs b) (repeat 1%R (List.length (b_varlist b))) in
               if success then Ok (WDict (by_name (b_varlist b) x)) else Raise ENumerical).
Proof.
  intros R Hp Hc T Le. assert (D : b_diff b = []).
  { destruct T as [T|T]; [apply (no_differential b LASolver)|apply (no_differential b NLASolver)]; unfold create_solver; rewrite ?T; auto. }
  assert (Dt := algebraic_dof pn _ _ _ R D). rewrite Le, Nat.eqb_refl in Dt.
  injection Hc as <-. set (c := dset "time_variable_name" VNone (kw_dict (mkConf [] VNone None))).
  assert (Pr : forall sv, create_solver b = Ok sv -> sv = LASolver \/ sv = NLASolver ->
    prepare st (mkSim (sm_problem sm0) (Some c) (sm_output sm0) (sm_domain sm0) (sm_status sm0)) false (Ok true) = (st, Ok (c, sv))).
  { intros sv Es Al. unfold prepare. cbn [sm_conf sm_problem]. rewrite Hp, (proj2 R).
    assert (Ch : choose_solver None b = Ok sv).
    { unfold choose_solver, create_solver in *. destruct (problem_type b) as [[]|]; cbn; [| | | |discriminate]; congruence. }
    change (opt c "problem_type") with (Ok VNone). change (opt c "number_parameters_to_optimize") with (Ok (VNum (PInt 0))). cbn [rbind]. rewrite Ch. cbn [rbind].
    unfold make_solver. change (opt c "linear_solver") with (Ok (VStr "symbolicsys")). change (opt c "nonlinear_solver") with (Ok (VStr "*")).
    change (opt c "differential_solver") with (Ok (VStr "ODEINT")). change (opt c "differential_algebraic_solver") with (Ok (VStr "IDA")). cbn [rbind]. rewrite Es.
    destruct Al as [-> | ->]; reflexivity. }
  unfold whole_run. match goal with |- context [prepare st ?m false (Ok true)] =>
    change m with (mkSim (sm_problem sm0) (Some c) (sm_output sm0) (sm_domain sm0) (sm_status sm0)) end.
  destruct T as [T|T]; (rewrite Pr with (sv := if match problem_type b with Some PTLinear => true | _ => false end then LASolver else NLASolver);
    [|unfold create_solver; now rewrite T|rewrite T; auto]); rewrite T; cbn [sm_problem]; rewrite Hp, (proj2 R); unfold run_solver; rewrite Dt; cbn [rbind].
  - unfold la_run. change (opt c "linear_solver") with (Ok (VStr "symbolicsys")). change (opt c "initial_guess") with (Ok (VDict [])).
    cbn [rbind name_option]. change (la_lookup (Some "symbolicsys")) with (Some MSymbolicSys). cbn [guess_option map_res rbind]. unfold la_solve.
    change (la_lookup (Some "symbolicsys")) with (Some MSymbolicSys). unfold symbolicsys. cbn [first_guess is_empty rbind].
    destruct (root_find _ _ _ _) as [[] x]; reflexivity.
  - unfold nla_run. change (opt c "nonlinear_solver") with (Ok (VStr "*")). change (opt c "initial_guess") with (Ok (VDict [])).
    change (opt c "initial_guess_solver") with (Ok VNone).
    cbn [rbind name_option]. change (nla_lookup (Some "*")) with (Ok MSymbolicSys). cbn [guess_option map_res rbind]. unfold nla_solve.
    change (nla_lookup (Some "*")) with (Ok MSymbolicSys). unfold symbolicsys. cbn [first_guess is_empty rbind].
    destruct (root_find _ _ _ _) as [[] x]; reflexivity.
Qed.

(** ** Differential problems *)
Lemma ode_kind s b sv : block_for s b -> b_eqs b = b_diff b -> b_diff b <> [] -> create_solver b = Ok sv -> sv = DSolver.
Proof.
  intros B Eb Ne H. destruct (bf_groups _ _ B) as (L1 & L2 & L3). unfold create_solver, problem_type in H.
  assert (Z : forall t, t <> CDifferential -> filter (has_type t) (b_eqs b) = []).
  { intros t Nt. destruct (filter (has_type t) (b_eqs b)) as [|e r] eqn:E; [reflexivity|]. exfalso.
    assert (He : In e (filter (has_type t) (b_eqs b))) by (rewrite E; now left). apply filter_In in He. destruct He as [He Te]. apply has_type_spec in Te.
    rewrite Eb, L3 in He. apply filter_In in He. destruct He as [_ Td]. apply has_type_spec in Td. congruence. }
  rewrite L1, L2, !Z in H by discriminate. destruct (b_diff b); [congruence|]. cbn in H. congruence.
Qed.
Lemma dae_kind s b sv : block_for s b -> b_diff b <> [] -> some_of CLinear (b_eqs b) \/ some_of CNonlinear (b_eqs b) -> create_solver b = Ok sv -> sv = DaeSolver.
Proof.
  intros B Ne A H. destruct (bf_groups _ _ B) as (L1 & L2 & L3).
  assert (A1 := group_some s b CLinear _ B L1). assert (A2 := group_some s b CNonlinear _ B L2).
  assert (T : problem_type b = Some PTDae).
  { apply (proj1 (proj2 (block_type s b B))). split; [|exact A]. apply (group_some s b CDifferential _ B L3). destruct (b_diff b); [congruence|reflexivity]. }
  unfold create_solver in H. rewrite T in H. congruence.
Qed.

Lemma domain_known doms v o d : v = VObj o -> nth_error doms o = Some d -> domain_option doms v = Ok (o, d).
Proof. intros -> H. cbn. now rewrite H. Qed.

Lemma ode_whole s b lib arrays pn ps h st doms sm sanity st' doms' out o d : block_for s b -> pr_block (snd s) = Some b -> b_eqs b = b_diff b -> b_diff b <> [] ->
  sm_problem sm = Some (snd s) -> option_of sm "domain" = Some (VObj o) -> nth_error doms o = Some d ->
  whole_run lib arrays pn ps h st doms sm sanity = (st', doms', Ok out) ->
  exists c tn k ds oo d' ts rows, sm_conf sm = Some c /\ dsolver_init b (pr_init (snd s)) tn k = Ok ds /\ run_options arrays c "differential_solver" true = Ok oo /\
    ode_solve (lib_odeint lib) (lib_cvode lib) pn ps (snd s) b ds oo d = (d', Ok (ts, rows)) /\ out = WRun ts rows /\ doms' = set_nth doms o d'.
Proof.
  intros B Hb Eb Ne Hp Ho Hd H. destruct (whole_parts _ _ _ _ _ _ _ _ _ _ _ _ _ _ Hp Hb H) as (c & sv & C & S & X). clear H.
  assert (sv = DSolver) as -> by exact (ode_kind s b sv B Eb Ne S). cbn [run_solver] in X.
  match type of X with match ?e with Ok _ => _ | Raise _ => _ end = _ => destruct e as [[[ds oo] [i d0]]|] eqn:E; [|discriminate X] end.
  bind E. bind E. bind E. bind E. bind E. bind E. bind E. bind E. injection E as <- <- ->.
  match goal with Y : opt c "domain" = Ok ?v, Z : domain_option doms ?v = Ok _ |- _ =>
    rewrite (domain_known doms v o d (opt_same _ _ _ _ _ C Ho Y) Hd) in Z; injection Z as <- <- end.
  destruct (ode_solve _ _ _ _ _ _ _ _ _) as [d' [[ts rows]|]] eqn:Q; [|discriminate X]. injection X as <- <-.
  do 8 eexists. split; [exact C|]. split; [eassumption|]. split; [eassumption|]. split; [exact Q|]. auto.
Qed.
Lemma dae_whole s b lib arrays pn ps h st doms sm sanity st' doms' out o d : block_for s b -> pr_block (snd s) = Some b -> b_diff b <> [] ->
  some_of CLinear (b_eqs b) \/ some_of CNonlinear (b_eqs b) ->
  sm_problem sm = Some (snd s) -> option_of sm "domain" = Some (VObj o) -> nth_error doms o = Some d ->
  whole_run lib arrays pn ps h st doms sm sanity = (st', doms', Ok out) ->
  exists c oo d' ts rows, sm_conf sm = Some c /\ run_options arrays c "differential_algebraic_solver" false = Ok oo /\
    dae_solve (lib_ida lib) pn ps (snd s) b oo d = (d', Ok (ts, rows)) /\ out = WRun ts rows /\ doms' = set_nth doms o d'.
Proof.
  intros B Hb Ne A Hp Ho Hd H. destruct (whole_parts _ _ _ _ _ _ _ _ _ _ _ _ _ _ Hp Hb H) as (c & sv & C & S & X). clear H.
  assert (sv = DaeSolver) as -> by exact (dae_kind s b sv B Ne A S). cbn [run_solver] in X.
  match type of X with match ?e with Ok _ => _ | Raise _ => _ end = _ => destruct e as [[oo [i d0]]|] eqn:E; [|discriminate X] end.
  bind E. bind E. bind E. bind E. bind E. injection E as <- ->.
  match goal with Y : opt c "domain" = Ok ?v, Z : domain_option doms ?v = Ok _ |- _ =>
    rewrite (domain_known doms v o d (opt_same _ _ _ _ _ C Ho Y) Hd) in Z; injection Z as <- <- end.
  destruct (dae_solve _ _ _ _ _ _ _) as [d' [[ts rows]|]] eqn:Q; [|discriminate X]. injection X as <- <-.
  do 5 eexists. split; [exact C|]. split; [eassumption|]. split; [exact Q|]. auto.
Qed.

Lemma explicit_nonempty t b ode : Forall2 (explicit t) (b_diff b) ode -> ode <> [] -> b_diff b <> [].
Proof. intros F N E. rewrite E in F. inversion F. congruence. Qed.

Lemma ode_simulated acts s b t pn ps ode :
  resolved acts s b -> all_ok start_session acts -> distinct_models acts -> readable_program acts ->
  forallb tidy_act acts = true -> plain_origins acts -> known_statements acts -> dictionaries acts ->
  prints_numbers pn -> one_word t = true -> str_contains "_" t = true -> times_by acts [t] ->
  Forall2 (explicit t) (b_diff b) ode -> closed_system t ode -> b_eqs b = b_diff b -> ode_unknowns t ode (b_varlist b) -> ode <> [] ->
  forall lib arrays h st doms sm sanity st' doms' out o d names eps,
  sm_problem sm = Some (snd s) -> option_of sm "domain" = Some (VObj o) -> nth_error doms o = Some d ->
  cleared d -> d_ind d = [t] -> d_dep d = map fst ode -> headed sm names -> NoDup (map (header names) (d_ind d ++ d_dep d)) ->
  uses sm "differential_solver" "ODEINT" ->
  (forall tn k ds, dsolver_init b (pr_init (snd s)) tn k = Ok ds -> odeint_solves (lib_odeint lib) (rates pn (snd s) b ds) eps) ->
  whole_run lib arrays pn ps h st doms sm sanity = (st', doms', Ok out) ->
  exists ts rows d', out = WRun ts rows /\ only_domain o d' doms doms' /\
    (forall t0 e n, timed sm t0 e n -> option_of sm "times_for_solution" = Some VNone -> even_points ts t0 e n) /\
    (forall k l, option_of sm "times_for_solution" = Some (VObj k) -> arrays k = Some l -> ts = l) /\
    (forall x, In x (map fst ode) <-> rated acts t x) /\
    exists sol, starts_right acts (map fst ode) (hd 0%R ts) sol /\ obeys acts t (map fst ode) (hd 0%R ts) ts sol /\
      recorded_as d' t names (map fst ode) ts sol eps.
Proof.
  intros Re O D Rd Ti Pl Kn Dc Pn Wt Ut Tt Fe Cl Eb Un Ne lib arrays h st doms sm sanity st' doms' out o d names eps Hp Ho Hd Cd Id Dd Hn Nd Hu Od H.
  destruct (resolved_block _ _ _ Re) as (_ & B & _ & _).
  destruct (ode_whole s b lib arrays pn ps h st doms sm sanity st' doms' out o d B (proj2 Re) Eb (explicit_nonempty _ _ _ Fe Ne) Hp Ho Hd H)
    as (c & tn & k & ds & oo & d' & ts & rows & C & In_ & Op & S & -> & ->).
  destruct (run_options_read _ _ _ _ _ _ C Op) as (O1 & O2 & O3 & O4 & O5 & O6 & _ & O8). rewrite <- (O8 _ Hn) in *.
  destruct (odeint_run acts s b t pn ps tn k ds ode (lib_odeint lib) (lib_cvode lib) eps oo d d' ts rows Re O D Rd Ti Pl Kn Dc Pn Wt Ut Tt Fe Cl Eb Un Ne In_ Cd Id Dd Nd
    (O1 _ Hu) (Od _ _ _ In_) S) as (Tp & Ra & sol & S1 & S2 & S3).
  exists ts, rows, d'. split; [reflexivity|]. split; [exact (set_nth_only _ _ _ _ Hd)|]. split; [|split; [|split; [exact Ra|exists sol; auto]]].
  - intros t0 e n ((a & A1 & A2) & (f & F1 & F2) & N1 & N2) Nt. assert (E0 := O2 _ A1). destruct (O3 _ F1) as (e' & E1 & E2). rewrite A2 in E0. rewrite F2 in E1.
    injection E0 as ->. injection E1 as <-. exact (points_even oo ts n e (O5 Nt) (O4 _ N1) E2 N2 Tp).
  - intros j l J A. exact (points_given _ _ _ (O6 j l eq_refl J A) Tp).
Qed.

Lemma cvode_simulated acts s b t pn ps ode :
  resolved acts s b -> all_ok start_session acts -> distinct_models acts -> readable_program acts ->
  forallb tidy_act acts = true -> plain_origins acts -> known_statements acts -> dictionaries acts ->
  prints_numbers pn -> one_word t = true -> str_contains "_" t = true -> times_by acts [t] ->
  Forall2 (explicit t) (b_diff b) ode -> closed_system t ode -> b_eqs b = b_diff b -> ode_unknowns t ode (b_varlist b) -> ode <> [] ->
  forall lib arrays h st doms sm sanity st' doms' out o d names eps,
  sm_problem sm = Some (snd s) -> option_of sm "domain" = Some (VObj o) -> nth_error doms o = Some d ->
  cleared d -> d_ind d = [t] -> d_dep d = map fst ode -> headed sm names -> NoDup (map (header names) (d_ind d ++ d_dep d)) ->
  option_of sm "differential_solver" = Some (VStr "CVODE") ->
  (forall tn k ds, dsolver_init b (pr_init (snd s)) tn k = Ok ds -> cvode_solves (lib_cvode lib) (rates pn (snd s) b ds) eps) ->
  whole_run lib arrays pn ps h st doms sm sanity = (st', doms', Ok out) ->
  exists ts rows d', out = WRun ts rows /\ only_domain o d' doms doms' /\
    exists sol, starts_right acts (map fst ode) 0%R sol /\ obeys acts t (map fst ode) 0%R ts sol /\
      recorded_as d' t names (map fst ode) ts sol eps.
Proof.
  intros Re O D Rd Ti Pl Kn Dc Pn Wt Ut Tt Fe Cl Eb Un Ne lib arrays h st doms sm sanity st' doms' out o d names eps Hp Ho Hd Cd Id Dd Hn Nd Hu Od H.
  destruct (resolved_block _ _ _ Re) as (_ & B & _ & _).
  destruct (ode_whole s b lib arrays pn ps h st doms sm sanity st' doms' out o d B (proj2 Re) Eb (explicit_nonempty _ _ _ Fe Ne) Hp Ho Hd H)
    as (c & tn & k & ds & oo & d' & ts & rows & C & In_ & Op & S & -> & ->).
  assert (Sv : oo_solver oo = Some "CVODE").
  { unfold run_options in Op. bind Op. repeat bind Op. injection Op as <-. cbn [oo_solver].
    match goal with X : opt c "differential_solver" = Ok _ |- _ => rewrite (opt_same _ _ _ _ _ C Hu X) end. reflexivity. }
  destruct (run_options_read _ _ _ _ _ _ C Op) as (O1 & O2 & O3 & O4 & O5 & O6 & _ & O8). rewrite <- (O8 _ Hn) in *.
  destruct (cvode_run acts s b t pn ps tn k ds ode (lib_odeint lib) (lib_cvode lib) eps oo d d' ts rows Re O D Rd Ti Pl Kn Dc Pn Wt Ut Tt Fe Cl Eb Un Ne In_ Cd Id Dd Nd
    Sv (Od _ _ _ In_) S) as (sol & S1 & S2 & S3).
  exists ts, rows, d'. split; [reflexivity|]. split; [exact (set_nth_only _ _ _ _ Hd)|]. exists sol. auto.
Qed.

Lemma dae_simulated acts s b t pn ps dae :
  resolved acts s b -> all_ok start_session acts -> distinct_models acts -> readable_program acts ->
  forallb tidy_act acts = true -> plain_origins acts -> known_statements acts -> dictionaries acts ->
  Forall2 (residual_ode pn) (b_diff b) dae -> dae <> [] -> closed_dae b dae -> states_first (b_varlist b) dae ->
  (exists rest, b_eqs b = b_diff b ++ rest) -> (forall x u r, In (x, u, r) dae -> u = t) -> ~ In t (b_varlist b) ->
  some_of CLinear (b_eqs b) \/ some_of CNonlinear (b_eqs b) ->
  forall lib arrays h st doms sm sanity st' doms' out o d names eps,
  sm_problem sm = Some (snd s) -> option_of sm "domain" = Some (VObj o) -> nth_error doms o = Some d ->
  cleared d -> d_ind d = [t] -> d_dep d = b_varlist b -> headed sm names -> NoDup (map (header names) (d_ind d ++ d_dep d)) ->
  ida_solves (lib_ida lib) (dae_function pn b) eps ->
  whole_run lib arrays pn ps h st doms sm sanity = (st', doms', Ok out) ->
  exists ts rows d' times, out = WRun ts rows /\ only_domain o d' doms doms' /\
    forall t0 e n, timed sm t0 e n -> even_points times t0 e n /\
    exists sol, starts_right acts (dnames dae) t0 sol /\ dae_obeys acts t (b_varlist b) (dnames dae) t0 times sol /\
      recorded_as d' t names (b_varlist b) times sol eps.
Proof.
  intros Re O D Rd Ti Pl Kn Dc Fe Ne Cl St Rest Tm Nt Al lib arrays h st doms sm sanity st' doms' out o d names eps Hp Ho Hd Cd Id Dd Hn Nd Od H.
  destruct (resolved_block _ _ _ Re) as (_ & B & _ & _).
  assert (Nb : b_diff b <> []) by (intros E; rewrite E in Fe; inversion Fe; congruence).
  destruct (dae_whole s b lib arrays pn ps h st doms sm sanity st' doms' out o d B (proj2 Re) Nb Al Hp Ho Hd H)
    as (c & oo & d' & ts & rows & C & Op & S & -> & ->).
  destruct (run_options_read _ _ _ _ _ _ C Op) as (O1 & O2 & O3 & O4 & O5 & O6 & _ & O8). rewrite <- (O8 _ Hn) in *.
  destruct (dae_run acts s b t pn ps dae Re O D Rd Ti Pl Kn Dc Fe Ne Cl St Rest Tm Nt (lib_ida lib) oo d d' ts rows eps Od Cd Id Dd Nd S) as (times & sol & Tp & S1 & S2 & S3).
  exists ts, rows, d', times. split; [reflexivity|]. split; [exact (set_nth_only _ _ _ _ Hd)|].
  intros t0 e n ((a & A1 & A2) & (f & F1 & F2) & N1 & N2). assert (E0 := O2 _ A1). destruct (O3 _ F1) as (e' & E1 & E2). rewrite A2 in E0. rewrite F2 in E1.
  injection E0 as ->. injection E1 as <-. split; [exact (dae_points_even oo times n e (O4 _ N1) E2 N2 Tp)|]. exists sol. auto.
Qed.

(** With the time variable taken from the problem a differential-algebraic problem
    cannot be run. *)
Lemma dae_dynamic lib arrays pn ps h st doms sm0 sm sanity a p b : set_configurations sm0 a = Ok sm -> ca_file a = None -> ca_dict a = VNone ->
  SpecSim.written (ca_kwargs a) "is_dynamic" (VBool true) -> SpecSim.written (ca_kwargs a) "time_variable_name" VNone ->
  sm_problem sm0 = Some p -> pr_block p = Some b -> problem_type b = Some PTDae ->
  exists x, snd (whole_run lib arrays pn ps h st doms sm sanity) = Raise x.
Proof.
  intros Sc Fi Di Dy Ti Hp0 Hb T. assert (Hp : sm_problem sm = Some p) by (rewrite <- Hp0; now apply conf_problem in Sc). destruct (conf_keywords _ _ _ Sc Fi Di) as (_ & _ & _ & K). destruct (K Ti Dy) as (p' & E' & Ot).
  rewrite Hp0 in E'. injection E' as <-.
  destruct (whole_run lib arrays pn ps h st doms sm sanity) as [[st' doms'] [out|x]] eqn:W.
  - exfalso. destruct (whole_parts _ _ _ _ _ _ _ _ _ _ _ _ _ _ Hp Hb W) as (c & sv & C & S & X). unfold whole_run in W.
    destruct (prepare st sm false (Ok true)) as [st1 [[c1 sv1]|x]] eqn:P; [|discriminate]. unfold prepare in P. rewrite C, Hp, Hb in P.
    match type of P with match ?e with Ok _ => _ | Raise _ => _ end = _ => destruct e as [[p0 b0]|] eqn:E; [|discriminate P] end.
    bind E. bind E. bind E. injection E as <- <-. unfold make_solver in P.
    match type of P with match match ?e with Ok _ => _ | Raise _ => _ end with _ => _ end = _ => destruct e as [sv0|] eqn:M; [|discriminate P] end.
    repeat bind M. assert (sv0 = DaeSolver) as -> by (unfold create_solver in M; rewrite T in M; congruence).
    match type of P with match match ?e with Ok _ => _ | Raise _ => _ end with _ => _ end = _ => destruct e as [[u v]|] eqn:Q; [|discriminate P] end.
    repeat bind Q. match goal with Y : opt c "time_variable_name" = Ok ?w, Z : daesolver_init _ (tname_of ?w) = Ok _ |- _ =>
      rewrite (opt_same _ _ _ _ _ C Ot Y) in Z; unfold time_value in Z; destruct (pr_time p); cbn in Z; try destruct (forallb _ _) in Z; discriminate Z end.
  - exists x. reflexivity.
Qed.
