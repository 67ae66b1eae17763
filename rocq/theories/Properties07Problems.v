(** Property theorems C24-C29 (problems, analysis, connections). *)
From Verif Require Import Base Num NumFacts UnitModel UnitFacts Sympy Node Build EquationModel ModelModel ProblemModel
  SpecUnits SpecExpr SpecDims SpecModel SpecInc SpecCall SpecProblem ProblemFacts SessionFacts UsualFacts DofFacts ConnFacts Demo.
From Coq Require Import Reals Permutation.
Notation num := Verif.Num.num.

(** A resolve run inside the kernel. *)
Definition no_block : block := mkB [] [] [] [] [] [] [] [] [].
Definition final (acts : list act) : session := fst (do_act (run_acts start_session acts) AResolve).
Definition the_block (acts : list act) : block := match pr_block (snd (final acts)) with Some b => b | None => no_block end.
Definition went_well (acts : list act) : bool :=
  match snd (do_act (run_acts start_session acts) AResolve), pr_block (snd (final acts)) with Ok _, Some _ => true | _, _ => false end.
Lemma run_resolved acts : went_well acts = true -> resolved acts (final acts) (the_block acts).
Proof.
  unfold went_well, the_block, resolved. intros H. destruct (snd (do_act (run_acts start_session acts) AResolve)) as [[]|] eqn:E; [|discriminate].
  destruct (pr_block (snd (final acts))) eqn:B; [|discriminate]. split; [|reflexivity].
  unfold final. destruct (do_act (run_acts start_session acts) AResolve). simpl in *. now subst.
Qed.
Lemma act_ok (s : session) a r : snd (do_act s a) = r -> do_act s a = (fst (do_act s a), r).
Proof. destruct (do_act s a). simpl. now intros ->. Qed.

Lemma model_number (s : session) i m : model_of s i = Some m -> (i < List.length (pw_models (fst s)))%nat.
Proof.
  unfold model_of, get_model. intros H. apply nth_error_Some. destruct (nth_error (pw_models (fst s)) i); [discriminate|discriminate H].
Qed.
Lemma model_exists (s : session) i : (i < List.length (pw_models (fst s)))%nat -> exists m d, get_model (fst s) i = Some (m, d).
Proof.
  intros H. apply nth_error_Some in H. unfold get_model. destruct (nth_error (pw_models (fst s)) i) as [[m d]|]; [eauto|congruence].
Qed.

(** A source q == 3 and a sink with dz/dt == z*p/t. *)
Definition source : decls :=
  mkDecls [CCon "c" "c" u_m (PInt 3)] [] [CVar "q" "q" u_m true "output" (PInt 0)]
          [CEq "e" "e" (UElem (UQty "q") (UQty "c")) true].
Definition sink : decls :=
  mkDecls [] [CPar "k" "k" u_m (PInt 2); CSet "k" (SANum (PInt 4)) None]
          [CVar "p" "p" u_m true "input" (PInt 0); CVar "z" "z" u_m false "" (PInt 0); CVar "t" "t" u_s false "" (PInt 0); CDist "z"]
          [CEq "e" "e" (UElem (UDiff "z" (Some "t")) (UBin BDiv (UBin BMul (UQty "z") (UQty "p")) (UBin BMul (UQty "t") (UQty "k")))) true].
(** Locations: c 0, q 1, k 2, p 3, z 4, t 5. *)
Definition two_models : list act :=
  [ANew "S" source; ANew "R" sink; ACall 0%nat; ACall 1%nat;
   AConn (CMModel 0%nat) 1%nat (CVOne 1%nat) (CVOne 3%nat) None; AAdd 0%nat; AAdd 1%nat; ATime ["t_R"]].

(** ** C24 *)
(** Full statement: [b_eqs b = equations_of s (added acts)] without the condition
    on names; refuted below. *)
Theorem C24_block_partial : forall acts s b, resolved acts s b -> distinct_models acts -> b_eqs b = equations_of s (added acts).
Proof. exact block_added. Qed.
Print Assumptions C24_block_partial.

(** In every case: each model of the problem once, each of its equations once, in
    exactly the group of its class. *)
Theorem C24_groups : forall acts s b, resolved acts s b ->
  NoDup (dvals (pr_models (snd s))) /\ b_eqs b = equations_of s (dvals (pr_models (snd s))) /\
  (forall i m, model_of s i = Some m -> NoDup (dkeys (m_eqs m))) /\
  Permutation (b_lin b ++ b_nonlin b ++ b_diff b) (b_eqs b) /\
  (forall e, In e (b_lin b) <-> In e (b_eqs b) /\ eq_type e = Some CLinear) /\
  (forall e, In e (b_nonlin b) <-> In e (b_eqs b) /\ eq_type e = Some CNonlinear) /\
  (forall e, In e (b_diff b) <-> In e (b_eqs b) /\ eq_type e = Some CDifferential).
Proof. exact block_equations. Qed.
Print Assumptions C24_groups.

(** Problems made of models whose declarations run can be resolved, whatever was
    done in between. *)
Theorem C24_resolves : forall acts, (forall n d, In (ANew n d) acts -> named d = true /\ runs n d) ->
  exists s b, resolved acts s b.
Proof. exact resolves. Qed.
Print Assumptions C24_resolves.

Example C24_case : resolved two_models (final two_models) (the_block two_models) /\ distinct_models two_models /\
  map eq_name (b_eqs (the_block two_models)) = ["e_S"; "e_R"; "q_S--->p_R"] /\
  map eq_name (b_lin (the_block two_models)) = ["e_S"; "q_S--->p_R"] /\
  map eq_name (b_diff (the_block two_models)) = ["e_R"] /\
  (forall n d, In (ANew n d) two_models -> named d = true /\ runs n d).
Proof.
  split; [apply run_resolved; vm_compute; reflexivity|]. split; [|split; [vm_compute; reflexivity|split; [vm_compute; reflexivity|split; [vm_compute; reflexivity|]]]].
  - intros i j mi mj Hi Hj Mi Mj E. replace (added two_models) with [0%nat; 1%nat] in Hi, Hj by (vm_compute; reflexivity).
    assert (N : forall i, In i [0%nat; 1%nat] -> option_map m_name (model_of (run_acts start_session two_models) i) = Some (match i with O => "S" | _ => "R" end)).
    { intros k [<-|[<-|[]]]; vm_compute; reflexivity. }
    assert (Ni := N i Hi). assert (Nj := N j Hj). rewrite Mi in Ni. rewrite Mj in Nj. simpl in Ni, Nj.
    destruct Hi as [<-|[<-|[]]], Hj as [<-|[<-|[]]]; try reflexivity; congruence.
  - intros n d H. simpl in H. repeat (destruct H as [H|H]; [try discriminate H; injection H as <- <-; vm_compute; auto|]). destruct H.
Qed.

(** Of two models with the same name only the second is in the block. *)
Definition same_names : list act :=
  [ANew "S" source; ANew "S" source; ACall 0%nat; ACall 1%nat; AAdd 0%nat; AAdd 1%nat].
Theorem C24_same_name_refuted : exists acts s b, resolved acts s b /\ added acts = [0%nat; 1%nat] /\
  List.length (equations_of s (added acts)) = 2%nat /\ List.length (b_eqs b) = 1%nat.
Proof.
  exists same_names, (final same_names), (the_block same_names). split; [apply run_resolved; vm_compute; reflexivity|].
  split; [vm_compute; reflexivity|]. split; vm_compute; reflexivity.
Qed.
Print Assumptions C24_same_name_refuted.

(** ** C25 *)
(** Full statement: for all [acts], [In x (b_varlist b)] iff some equation of the
    block uses a variable named [x].  Missing: variables a model did not have yet
    when it was added; refuted below. *)
Theorem C25_unknowns_partial : forall acts s b, resolved acts s b ->
  NoDup (b_varlist b) /\
  forall x, In x (b_varlist b) <->
    declared_when_added acts x /\ exists e, In e (b_eqs b) /\ uses_variable (pw_heap (fst s)) x e.
Proof. exact block_unknowns. Qed.
Print Assumptions C25_unknowns_partial.

(** Exact when models are called before they are added and only declare variables
    in their own functions. *)
Theorem C25_usual_partial : forall acts s b, resolved acts s b -> forallb plain acts = true -> called_then_added acts ->
  NoDup (b_varlist b) /\
  forall x, In x (b_varlist b) <-> exists e, In e (b_eqs b) /\ uses_variable (pw_heap (fst s)) x e.
Proof. exact unknowns_usual. Qed.
Print Assumptions C25_usual_partial.

Example C25_case : resolved two_models (final two_models) (the_block two_models) /\ forallb plain two_models = true /\
  called_then_added two_models /\ b_varlist (the_block two_models) = ["q_S"; "p_R"; "z_R"; "t_R"].
Proof.
  split; [apply run_resolved; vm_compute; reflexivity|]. split; [reflexivity|]. split; [|vm_compute; reflexivity].
  intros i m H. destruct i as [|[|i]].
  - exists (firstn 2 two_models), (firstn 2 (skipn 3 two_models)), (skipn 6 two_models). split; [reflexivity|vm_compute; reflexivity].
  - exists (firstn 3 two_models), (firstn 2 (skipn 4 two_models)), (skipn 7 two_models). split; [reflexivity|vm_compute; reflexivity].
  - exfalso. assert (L : List.length (pw_models (fst (run_acts start_session two_models))) = 2%nat) by (vm_compute; reflexivity).
    apply model_number in H. rewrite L in H. lia.
Qed.

(** A model added before it is called has equations but no unknowns. *)
Definition added_early : list act := [ANew "S" source; AAdd 0%nat; ACall 0%nat].
Theorem C25_added_early_refuted : exists acts s b, resolved acts s b /\ forallb plain acts = true /\
  map eq_name (b_eqs b) = ["e_S"] /\ (exists e, In e (b_eqs b) /\ uses_variable (pw_heap (fst s)) "q_S" e) /\ b_varlist b = [].
Proof.
  exists added_early, (final added_early), (the_block added_early). split; [apply run_resolved; vm_compute; reflexivity|].
  split; [reflexivity|]. split; [vm_compute; reflexivity|]. split; [|vm_compute; reflexivity].
  exists (hd (blank_eqn "") (b_eqs (the_block added_early))). split; [vm_compute; now left|].
  exists [("q_S", 3%nat); ("c_S", 2%nat)], "q_S", 3%nat, (mkQty KVariable "q_S" u_m (PInt 0) false "S" true "output" false).
  split; [vm_compute; reflexivity|]. split; [now left|]. split; [vm_compute; reflexivity|]. split; reflexivity.
Qed.
Print Assumptions C25_added_early_refuted.

(** ** C26 *)
Theorem C26_problem_type : forall acts s b, resolved acts s b ->
  (problem_type b = Some PTDiff <-> some_of CDifferential (b_eqs b) /\ ~ some_of CLinear (b_eqs b) /\ ~ some_of CNonlinear (b_eqs b)) /\
  (problem_type b = Some PTDae <-> some_of CDifferential (b_eqs b) /\ (some_of CLinear (b_eqs b) \/ some_of CNonlinear (b_eqs b))) /\
  (problem_type b = Some PTNonlinear <-> some_of CNonlinear (b_eqs b) /\ ~ some_of CDifferential (b_eqs b)) /\
  (problem_type b = Some PTLinear <-> some_of CLinear (b_eqs b) /\ ~ some_of CNonlinear (b_eqs b) /\ ~ some_of CDifferential (b_eqs b)) /\
  (problem_type b = None <-> b_eqs b = []).
Proof. exact (fun acts s b H => block_type s b (proj1 (proj2 (resolved_block acts s b H)))). Qed.
Print Assumptions C26_problem_type.

(** The configured type is checked to be a known one; the solver is that of the
    actual type. *)
Theorem C26_solver : forall b conf, choose_solver conf b =
  match conf with
  | Some s => if existsb (String.eqb s) ["linear"; "nonlinear"; "differential"; "differential-algebraic"]
              then match problem_type b with
                   | Some PTLinear => Ok LASolver | Some PTNonlinear => Ok NLASolver
                   | Some PTDiff => Ok DSolver | Some PTDae => Ok DaeSolver
                   | None => Raise EUnexpectedValue end
              else Raise EUnexpectedValue
  | None => match problem_type b with
            | Some PTLinear => Ok LASolver | Some PTNonlinear => Ok NLASolver
            | Some PTDiff => Ok DSolver | Some PTDae => Ok DaeSolver
            | None => Raise EUnexpectedValue end
  end.
Proof. exact (fun b conf => solver_choice b conf). Qed.
Print Assumptions C26_solver.

Example C26_case : resolved two_models (final two_models) (the_block two_models) /\
  problem_type (the_block two_models) = Some PTDae /\ choose_solver None (the_block two_models) = Ok DaeSolver /\
  resolved [] (final []) (the_block []) /\ choose_solver (Some "linear") (the_block []) = Raise EUnexpectedValue.
Proof.
  split; [apply run_resolved; vm_compute; reflexivity|]. split; [vm_compute; reflexivity|]. split; [vm_compute; reflexivity|].
  split; [apply run_resolved; vm_compute; reflexivity|vm_compute; reflexivity].
Qed.

(** ** C27 *)
(** Full statement: for all problems and time names, the check passes iff unknowns
    = equations + 1 if the time variable occurs in a differential equation.
    Missing: differential equations other than [lhs == rhs] with derivatives on the
    left only, a bare time symbol on the right, names of which the time name is a
    part, no time name; refuted below. *)
Theorem C27_dof_partial : forall pn acts s b t, prints_numbers pn -> resolved acts s b -> pr_time (snd s) = Some [t] ->
  one_word t = true -> str_contains "_" t = true ->
  (forall e r, In e (b_eqs b) -> eq_type e = Some CDifferential -> analysed e r ->
     der_free r = true /\ readable t r /\ r <> SSym t) ->
  exists known, (known = 1%nat /\ time_occurs t (b_eqs b) \/ known = 0%nat /\ ~ time_occurs t (b_eqs b)) /\
    dof_test pn (pw_heap (fst s)) (snd s) =
      if Nat.eqb (List.length (b_varlist b) + unspecified_pars (pw_heap (fst s)) (b_pars b)) (List.length (b_eqs b) + known)
      then Ok true else Raise EException.
Proof. exact dof_exact. Qed.
Print Assumptions C27_dof_partial.

Definition print_one (n : num) : string := "1".
Lemma print_one_ok : prints_numbers print_one.
Proof. split; reflexivity. Qed.

Definition the_rhs (acts : list act) (i : nat) : sx :=
  match nth_error (b_eqs (the_block acts)) i with
  | Some e => match get_symbolic e None SRhs with Ok r => r | _ => SNum (PInt 0) end
  | None => SNum (PInt 0) end.

Example C27_case : resolved two_models (final two_models) (the_block two_models) /\
  pr_time (snd (final two_models)) = Some ["t_R"] /\ one_word "t_R" = true /\ str_contains "_" "t_R" = true /\
  (forall e r, In e (b_eqs (the_block two_models)) -> eq_type e = Some CDifferential -> analysed e r ->
     der_free r = true /\ readable "t_R" r /\ r <> SSym "t_R") /\
  dof_test print_one (pw_heap (fst (final two_models))) (snd (final two_models)) = Ok true.
Proof.
  split; [apply run_resolved; vm_compute; reflexivity|]. split; [vm_compute; reflexivity|]. split; [reflexivity|]. split; [reflexivity|].
  split; [|vm_compute; reflexivity].
  assert (Ty : map eq_type (b_eqs (the_block two_models)) = [Some CLinear; Some CDifferential; Some CLinear]) by (vm_compute; reflexivity).
  assert (Rh : map (fun e => get_symbolic e None SRhs) (b_eqs (the_block two_models)) =
    [Ok (SSym "c_S"); Ok (SDiv (SMul (SSym "z_R") (SSym "p_R")) (SMul (SSym "t_R") (SNum (PInt 4))));
     Ok (SSub (SAdd (SSym "p_R") (SNum (PInt 0))) (SAdd (SSym "q_S") (SNum (PInt 0))))]) by (vm_compute; reflexivity).
  destruct (b_eqs (the_block two_models)) as [|e1 [|e2 [|e3 [|]]]]; try discriminate Ty.
  injection Ty as T1 T2 T3. injection Rh as R1 R2 R3.
  intros e r [<-|[<-|[<-|[]]]] T A; try congruence. unfold analysed in A. rewrite R2 in A. injection A as <-.
  split; [reflexivity|]. split; [|discriminate]. intros y Hy. simpl in Hy.
  repeat (destruct Hy as [<-|Hy]; [split; [intros H; first [reflexivity|discriminate H]|reflexivity]|]). destruct Hy.
Qed.

(** dx/dt == 2*mdot, mdot == 3*mdot: two equations for x and mdot, but t_M is part of mdot_M. *)
Definition part_of_name : list act :=
  [ANew "M" (mkDecls [] [] [CVar "x" "x" u_m false "" (PInt 0); CVar "f" "mdot" (unit_init "" [("m", PInt 1); ("s", PInt (-1))]) false "" (PInt 0);
                            CVar "t" "t" u_s false "" (PInt 0); CDist "x"]
     [CEq "e" "e" (UElem (UDiff "x" (Some "t")) (UNumL BMul (PInt 2) (UQty "f"))) true;
      CEq "g" "g" (UElem (UQty "f") (UNumL BMul (PInt 3) (UQty "f"))) true]);
   ACall 0%nat; AAdd 0%nat; ATime ["t_M"]].
Theorem C27_part_of_name_refuted : exists acts s b, resolved acts s b /\ pr_time (snd s) = Some ["t_M"] /\
  b_varlist b = ["x_M"; "mdot_M"] /\ List.length (b_eqs b) = 2%nat /\ ~ time_occurs "t_M" (b_eqs b) /\ b_pars b = [] /\
  dof_test print_one (pw_heap (fst s)) (snd s) = Raise EException.
Proof.
  exists part_of_name, (final part_of_name), (the_block part_of_name). split; [apply run_resolved; vm_compute; reflexivity|].
  split; [vm_compute; reflexivity|]. split; [vm_compute; reflexivity|]. split; [vm_compute; reflexivity|].
  split; [|split; vm_compute; reflexivity].
  intros (e & r & He & _ & A & Ht).
  assert (F : forall e, In e (b_eqs (the_block part_of_name)) -> forall r, get_symbolic e None SRhs = Ok r -> ~ In "t_M" (fsyms r)).
  { assert (Rh : map (fun e => get_symbolic e None SRhs) (b_eqs (the_block part_of_name)) =
      [Ok (SMul (SSym "mdot_M") (SNum (PInt 2))); Ok (SMul (SSym "mdot_M") (SNum (PInt 3)))]) by (vm_compute; reflexivity).
    destruct (b_eqs (the_block part_of_name)) as [|e1 [|e2 [|]]]; try discriminate Rh. injection Rh as R1 R2.
    intros e' [<-|[<-|[]]] r'; rewrite ?R1, ?R2; intros E; injection E as <-; simpl; intros [H|[]]; discriminate H. }
  exact (F e He r A Ht).
Qed.
Print Assumptions C27_part_of_name_refuted.

(** dx/dt == t is rejected although only x is unknown. *)
Definition bare_time : list act :=
  [ANew "M" (mkDecls [] [] [CVar "x" "x" (unit_init "" [("s", PInt 2)]) false "" (PInt 0); CVar "t" "t" u_s false "" (PInt 0); CDist "x"]
     [CEq "e" "e" (UElem (UDiff "x" (Some "t")) (UQty "t")) true]);
   ACall 0%nat; AAdd 0%nat; ATime ["t_M"]].
Theorem C27_bare_time_refuted : exists acts s b, resolved acts s b /\ pr_time (snd s) = Some ["t_M"] /\
  b_varlist b = ["x_M"; "t_M"] /\ List.length (b_eqs b) = 1%nat /\ time_occurs "t_M" (b_eqs b) /\
  dof_test print_one (pw_heap (fst s)) (snd s) = Raise EException.
Proof.
  exists bare_time, (final bare_time), (the_block bare_time). split; [apply run_resolved; vm_compute; reflexivity|].
  split; [vm_compute; reflexivity|]. split; [vm_compute; reflexivity|]. split; [vm_compute; reflexivity|].
  split; [|vm_compute; reflexivity].
  exists (hd (blank_eqn "") (b_eqs (the_block bare_time))), (SSym "t_M"). split; [vm_compute; now left|].
  split; [vm_compute; reflexivity|]. split; [vm_compute; reflexivity|now left].
Qed.
Print Assumptions C27_bare_time_refuted.

(** Without a time name the check of a dynamic problem raises TypeError. *)
Definition no_time : list act := firstn 7 two_models.
Theorem C27_no_time_refuted : exists acts s b, resolved acts s b /\ pr_time (snd s) = None /\
  dof_test print_one (pw_heap (fst s)) (snd s) = Raise EType.
Proof.
  exists no_time, (final no_time), (the_block no_time). split; [apply run_resolved; vm_compute; reflexivity|].
  split; vm_compute; reflexivity.
Qed.
Print Assumptions C27_no_time_refuted.

(** ** C28 *)
(** Successful calls: the variables are exposed, exactly one equation of the
    second model is written, with the right meaning, and nothing else changes. *)
Theorem C28_accepted : forall acts c s', let s := run_acts start_session acts in
  do_act s (conn_act c) = (s', Ok tt) ->
  exists m1 d1 m2 d2 e, get_model (fst s) (c_from c) = Some (m1, d1) /\ get_model (fst s) (c_to c) = Some (m2, d2) /\
    exposed m1 m2 (c_outs c) (c_ins c) /\
    (forall l, In l (cv_list (c_outs c) ++ cv_list (c_ins c)) -> is_variable (pw_heap (fst s)) l = true) /\
    pw_heap (fst s') = pw_heap (fst s) /\ pr_models (snd s') = pr_models (snd s) /\
    (forall k, k <> c_to c -> get_model (fst s') k = get_model (fst s) k) /\
    get_model (fst s') (c_to c) =
      Some (with_eqs m2 (dset (conn_name (fst (joined (pw_heap (fst s)) c)) (snd (joined (pw_heap (fst s)) c))) e (m_eqs m2)), d2) /\
    states_meaning (pw_heap (fst s)) c e /\ eqn_ok (pw_heap (fst s)) e.
Proof. exact (fun acts c s' => connect_accepted _ c s' (run_good acts _ start_good)). Qed.
Print Assumptions C28_accepted.

(** Exposed variables of one dimension can always be connected. *)
Theorem C28_succeeds : forall w K qdim d0 s i j outs ins m1 d1 m2 d2,
  incl base_keys K -> units_are w K qdim (pw_heap (fst s)) -> (forall k, In k K -> okz w (d0 k)) ->
  get_model (fst s) i = Some (m1, d1) -> get_model (fst s) j = Some (m2, d2) -> exposed m1 m2 outs ins ->
  (forall l, In l (cv_list ins ++ cv_list outs) -> is_variable (pw_heap (fst s)) l = true /\ same_dim K (qdim l) d0) ->
  cv_list ins ++ cv_list outs <> [] ->
  exists s', do_act s (AConn (CMModel i) j outs ins None) = (s', Ok tt).
Proof. exact connect_succeeds. Qed.
Print Assumptions C28_succeeds.

(** Full statement: [x = EExposedVariable] always.  Missing: lists of variables
    and given expressions that cannot be built; refuted below for lists. *)
Theorem C28_refused_partial : forall s i j outs ins e m1 d1 m2 d2,
  get_model (fst s) i = Some (m1, d1) -> get_model (fst s) j = Some (m2, d2) -> ~ exposed m1 m2 outs ins ->
  exists x, do_act s (AConn (CMModel i) j outs ins e) = (s, Raise x) /\
    (e = None -> x = match outs, ins with CVOne _, CVOne _ => EExposedVariable | _, _ => EAttribute end).
Proof. exact connect_refused. Qed.
Print Assumptions C28_refused_partial.

Definition before_conn : list act := firstn 4 two_models.
Definition the_conn : conn := mkConn 0%nat 1%nat (CVOne 1%nat) (CVOne 3%nat) None.
Example C28_case :
  snd (do_act (run_acts start_session before_conn) (conn_act the_conn)) = Ok tt /\
  joined (pw_heap (fst (run_acts start_session before_conn))) the_conn = (["q_S"], ["p_R"]) /\
  snd (do_act (run_acts start_session before_conn) (AConn (CMModel 0%nat) 1%nat (CVOne 1%nat) (CVOne 4%nat) None)) = Raise EExposedVariable.
Proof. vm_compute. repeat split. Qed.

(** With a list of variables the error is an AttributeError. *)
Theorem C28_list_refuted : exists s m1 d1 m2 d2 outs ins,
  get_model (fst s) 0%nat = Some (m1, d1) /\ get_model (fst s) 1%nat = Some (m2, d2) /\ ~ exposed m1 m2 outs ins /\
  do_act s (AConn (CMModel 0%nat) 1%nat outs ins None) = (s, Raise EAttribute).
Proof.
  assert (L : List.length (pw_models (fst (run_acts start_session before_conn))) = 2%nat) by (vm_compute; reflexivity).
  assert (I : option_map m_in (model_of (run_acts start_session before_conn) 1%nat) = Some [3%nat]) by (vm_compute; reflexivity).
  revert L I. generalize (run_acts start_session before_conn). intros s L I.
  destruct (model_exists s 0%nat) as (m1 & d1 & G1); [lia|]. destruct (model_exists s 1%nat) as (m2 & d2 & G2); [lia|].
  exists s, m1, d1, m2, d2, (CVList [1%nat]), (CVOne 4%nat). split; [exact G1|]. split; [exact G2|].
  assert (N : ~ exposed m1 m2 (CVList [1%nat]) (CVOne 4%nat)).
  { intros [_ H]. specialize (H 4%nat (or_introl eq_refl)).
    unfold model_of in I. rewrite G2 in I. simpl in I. injection I as I. rewrite I in H. destruct H as [H|[]]; discriminate. }
  split; [exact N|].
  destruct (connect_refused s 0%nat 1%nat (CVList [1%nat]) (CVOne 4%nat) None m1 d1 m2 d2 G1 G2 N) as (x & E & Hx).
  rewrite E. f_equal. f_equal. now apply Hx.
Qed.
Print Assumptions C28_list_refuted.

(** ** C29 *)
(** Full statement: in both modes.  Missing: connections of expressions; refuted
    below.  Successful connections of variables, in any order and between any
    models: each connection into a model appends one equation, which says what
    that connection says. *)
Theorem C29_connections_partial : forall acts cs s' j m d,
  connects (run_acts start_session acts) cs = Some s' ->
  let h := pw_heap (fst (run_acts start_session acts)) in
  get_model (fst (run_acts start_session acts)) j = Some (m, d) ->
  (forall k, In k (dkeys (m_eqs m)) -> has_char ">" k = false) ->
  (forall c, In c (into j cs) -> Forall simple_name (fst (joined h c)) /\ Forall simple_name (snd (joined h c))) ->
  NoDup (map (joined h) (into j cs)) ->
  exists m' new, get_model (fst s') j = Some (m', d) /\ m_eqs m' = m_eqs m ++ new /\
    Forall2 (fun c ke => states_meaning h c (snd ke)) (into j cs) new.
Proof. exact connections_kept. Qed.
Print Assumptions C29_connections_partial.

(** Two exposed inputs fed from one output. *)
Definition splitter : decls :=
  mkDecls [] [] [CVar "p" "p" u_m true "input" (PInt 0); CVar "r" "r" u_m true "input" (PInt 0)]
          [CEq "e" "e" (UElem (UQty "p") (UNumL BMul (PInt 2) (UQty "r"))) true].
Definition fan : list act := [ANew "S" source; ANew "R" splitter; ACall 0%nat; ACall 1%nat].
Definition fan_conns : list conn :=
  [mkConn 0%nat 1%nat (CVOne 1%nat) (CVOne 2%nat) None; mkConn 0%nat 1%nat (CVOne 1%nat) (CVOne 3%nat) None;
   mkConn 0%nat 1%nat (CVOne 1%nat) (CVList [2%nat; 3%nat]) None].
Example C29_case :
  option_map (fun s => option_map (fun m => dkeys (m_eqs m)) (model_of s 1%nat)) (connects (run_acts start_session fan) fan_conns) =
    Some (Some ["e_R"; "q_S--->p_R"; "q_S--->r_R"; "q_S--->p_R,r_R"]) /\
  map (joined (pw_heap (fst (run_acts start_session fan)))) (into 1%nat fan_conns) =
    [(["q_S"], ["p_R"]); (["q_S"], ["r_R"]); (["q_S"], ["p_R"; "r_R"])].
Proof. vm_compute. repeat split. Qed.

(** Connections of expressions between the same two models replace each other. *)
Theorem C29_nodes_refuted : exists s1 s2,
  do_act (run_acts start_session fan) (AConnN (CMModel 0%nat) 1%nat (UQty 1%nat) (UQty 2%nat)) = (s1, Ok tt) /\
  do_act s1 (AConnN (CMModel 0%nat) 1%nat (UQty 1%nat) (UQty 3%nat)) = (s2, Ok tt) /\
  option_map (fun m => List.length (m_eqs m)) (model_of s1 1%nat) = Some 2%nat /\
  option_map (fun m => List.length (m_eqs m)) (model_of s2 1%nat) = Some 2%nat.
Proof.
  do 2 eexists. split; [apply act_ok; vm_compute; reflexivity|]. split; [apply act_ok; vm_compute; reflexivity|].
  split; vm_compute; reflexivity.
Qed.
Print Assumptions C29_nodes_refuted.
