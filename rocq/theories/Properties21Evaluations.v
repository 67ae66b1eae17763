(** C73: evaluating candidates one after the other. *)
From Verif Require Import Base BaseFacts Num UnitModel Sympy Node Build EquationModel ModelModel ProblemModel SpecUnits SpecModel SpecInc SpecCall SpecProblem
  ProblemFacts SessionFacts SpecWritten SolverModel SimModel EvalModel SpecEval EvalFacts EvalStudyFacts
  Properties07Problems Properties08Solvers Demo Properties16Written Properties19Sessions.
From Verif Require DomainModel.
Notation num := Verif.Num.num.

(** ** C73 *)
(** Full statement: setting the parameters to a candidate and resolving gives the
    same problem whatever candidates were set and resolved before, also when some of
    those raised.  Missing: models whose declarations make quantities or leave
    equations unnamed. *)
Theorem C73_history_partial : forall acts s b ts xs x, resolved acts s b -> constructed acts -> List.length x = List.length ts ->
  let fresh := run_acts s (sets ts x) in
  let later := run_acts s (flat_map (evaluation ts) xs ++ sets ts x) in
  snd (do_act later AResolve) = snd (do_act fresh AResolve) /\
  (snd (do_act fresh AResolve) = Ok tt -> same_session (fst (do_act fresh AResolve)) (fst (do_act later AResolve))).
Proof. exact history_free. Qed.
Print Assumptions C73_history_partial.

(** Two parameters in two models (the plant of C70). *)
Definition plant_targets : list (nat * string) := [(0%nat, "c"); (1%nat, "k")].
Definition plant_later : list act := flat_map (evaluation plant_targets) [[PInt 5; PInt 6]; [PInt 7; PInt 8]] ++ sets plant_targets [PInt 1; PInt 2].
Example C73_case : resolved plant (final plant) (the_block plant) /\ constructed plant /\
  snd (do_act (run_acts (final plant) plant_later) AResolve) = Ok tt /\
  map (fun l => option_map q_value (hget (pw_heap (fst (run_acts (final plant) plant_later))) l)) [0%nat; 2%nat] = [Some (PInt 1); Some (PInt 2)] /\
  option_map b_exprs (pr_block (snd (fst (do_act (run_acts (final plant) plant_later) AResolve)))) <> Some (b_exprs (the_block plant)).
Proof.
  split; [apply run_resolved; vm_compute; reflexivity|]. split.
  - intros M d H. assert (E : created plant = [("S", plant_source); ("R", plant_sink)]) by (vm_compute; reflexivity). rewrite E in H.
    destruct H as [H|[H|[]]]; injection H as <- <-; vm_compute; reflexivity.
  - split; [vm_compute; reflexivity|]. split; [vm_compute; reflexivity|]. vm_compute. discriminate.
Qed.

(** An equation without a name is added again at each evaluation. *)
Definition unnamed_plant : list act :=
  [ANew "M" (mkDecls [] [] [] [CEq "e" "" (UResid (UBin BSub (UQty "z") (UQty "k"))) true]);
   AStmt 0%nat (CPar "k" "k" u_m (PInt 0)); AStmt 0%nat (CVar "z" "z" u_m false "" (PInt 0)); AStmt 0%nat (CSet "k" (SANum (PInt 4)) None); AAdd 0%nat].
Definition block_size (s : session) : nat := match pr_block (snd (fst (do_act s AResolve))) with Some b => List.length (b_eqs b) | None => 0%nat end.
Theorem C73_history_refuted : exists acts s b ts xs x, resolved acts s b /\ List.length x = List.length ts /\
  let fresh := run_acts s (sets ts x) in
  let later := run_acts s (flat_map (evaluation ts) xs ++ sets ts x) in
  snd (do_act fresh AResolve) = Ok tt /\ snd (do_act later AResolve) = Ok tt /\ block_size fresh = 2%nat /\ block_size later = 3%nat.
Proof.
  exists unnamed_plant, (final unnamed_plant), (the_block unnamed_plant), [(0%nat, "k")], [[PInt 5]], [PInt 7].
  split; [apply run_resolved; vm_compute; reflexivity|]. split; [reflexivity|]. cbv zeta.
  split; [vm_compute; reflexivity|]. split; [vm_compute; reflexivity|]. split; vm_compute; reflexivity.
Qed.
Print Assumptions C73_history_refuted.

(** Full statement: the value of an evaluation (set, resolve, configure, run, get the
    results, reset) is a function of the candidate: what is got for a candidate does
    not depend on the evaluations before.  For any solver that is a function of the
    quantities, the problem and the configuration.  Missing: as above, and evaluations
    before that raised. *)
Theorem C73_value_partial : forall A solve dof (objective : results -> res A) ts cfg sanity show acts b y xs x z vs,
  resolved acts (sy_session y) b -> constructed acts -> List.length x = List.length ts ->
  DomainModel.reset (sy_domain y) = sy_domain y ->
  evaluate_all solve dof objective ts cfg sanity show y xs = (z, vs) -> Forall returned vs ->
  snd (evaluate solve dof objective ts cfg sanity show z x) = snd (evaluate solve dof objective ts cfg sanity show y x) /\
  (returned (snd (evaluate solve dof objective ts cfg sanity show y x)) ->
   same_study (fst (evaluate solve dof objective ts cfg sanity show y x)) (fst (evaluate solve dof objective ts cfg sanity show z x))).
Proof. exact @evaluation_free. Qed.
Print Assumptions C73_value_partial.

(** What an evaluation that returns does: the problem solved is the one made by
    setting the candidate and resolving, and the value is the objective of what the
    solver returned for it. *)
Theorem C73_meaning : forall A solve dof (objective : results -> res A) ts cfg sanity show y x z v,
  evaluate solve dof objective ts cfg sanity show y x = (z, Ok v) ->
  let s := run_acts (sy_session y) (evaluation ts x) in
  sy_session z = s /\
  exists c out r, solve (pw_heap (fst s)) (snd s) c = Ok out /\ objective r = Ok v /\ means (sy_domain y) c (snd s) out r.
Proof. exact @evaluate_means. Qed.
Print Assumptions C73_meaning.

(** So a run of evaluations that all return is the map of one function. *)
Theorem C73_function_partial : forall A solve dof (objective : results -> res A) ts cfg sanity show acts b y,
  resolved acts (sy_session y) b -> constructed acts -> DomainModel.reset (sy_domain y) = sy_domain y ->
  forall xs, Forall (fun x => List.length x = List.length ts) xs -> Forall returned (snd (evaluate_all solve dof objective ts cfg sanity show y xs)) ->
  snd (evaluate_all solve dof objective ts cfg sanity show y xs) = map (fun x => snd (evaluate solve dof objective ts cfg sanity show y x)) xs.
Proof. exact @evaluations_function. Qed.
Print Assumptions C73_function_partial.

(** The oscillator of C69 with its parameter as the candidate; a solver that gives
    two rows with the parameter in the last column; the objective is that column,
    and raises when it is 5. *)
Definition swing_started : list act := swing ++ [AInit [("t_M", PInt 0); ("x_M", PInt 1); ("y_M", PInt 1)]].
Definition swing_solve (h : heap) (p : problem) (c : dict cval) : res sout :=
  match hget h 3%nat with
  | Some q => Ok (OutRun [PInt 0; PInt 1] [[PInt 1; q_value q]; [PInt 2; q_value q]])
  | None => Raise EName
  end.
Definition swing_rows (r : results) : option (list (list num)) :=
  match r with RTables t => option_map (@DomainModel.f_rows num) (dget "t_M" t) | _ => None end.
Definition swing_objective (r : results) : res (list num) :=
  match swing_rows r with
  | Some rows => if existsb (fun row => existsb (fun v => match v with PInt 5 => true | _ => false end) row) rows then Raise EException
                 else Ok (map (fun row => List.last row (PInt 0)) rows)
  | None => Raise EKey
  end.
Definition swing_conf : confargs :=
  mkConf [] (VDict [("domain", VObj 0%nat); ("time_variable_name", VStr "t_M"); ("is_dynamic", VBool true); ("end_time", VNum (PInt 1))]) None.
Definition swing_study : study :=
  mkStudy (fst (final swing_started)) (snd (final swing_started)) store0 new_sim
    (DomainModel.distribute (DomainModel.distribute (DomainModel.new_domain ["t_M"]) "x_M") "y_M").
Definition swing_values (xs : list (list num)) : study * list (res (list num)) :=
  evaluate_all swing_solve (fun _ _ => Ok true) swing_objective [(0%nat, "a")] swing_conf true true swing_study xs.
Lemma swing_constructed : constructed swing_started.
Proof.
  intros M d H. assert (E : created swing_started = match swing with ANew n d :: _ => [(n, d)] | _ => [] end) by (vm_compute; reflexivity). rewrite E in H.
  destruct H as [H|[]]; injection H as <- <-; vm_compute; reflexivity.
Qed.
Lemma swing_resolved : resolved swing_started (sy_session swing_study) (the_block swing_started).
Proof.
  assert (E : sy_session swing_study = final swing_started) by (unfold sy_session, swing_study; cbn [sy_world sy_problem]; now destruct (final swing_started)).
  rewrite E. apply run_resolved. vm_compute. reflexivity.
Qed.
Example C73_value_case : resolved swing_started (sy_session swing_study) (the_block swing_started) /\ constructed swing_started /\
  DomainModel.reset (sy_domain swing_study) = sy_domain swing_study /\
  snd (swing_values [[PInt 3]; [PInt 4]; [PInt 3]]) = [Ok [PInt 3; PInt 3]; Ok [PInt 4; PInt 4]; Ok [PInt 3; PInt 3]].
Proof. split; [exact swing_resolved|]. split; [exact swing_constructed|]. split; vm_compute; reflexivity. Qed.

(** When the objective raises, the results stay in the domain and the next
    evaluation fails. *)
Theorem C73_value_refuted : exists A solve dof (objective : results -> res A) ts cfg sanity show acts b y x1 x2 v,
  resolved acts (sy_session y) b /\ constructed acts /\ DomainModel.reset (sy_domain y) = sy_domain y /\
  List.length x1 = List.length ts /\ List.length x2 = List.length ts /\
  snd (evaluate solve dof objective ts cfg sanity show y x2) = Ok v /\
  snd (evaluate solve dof objective ts cfg sanity show (fst (evaluate solve dof objective ts cfg sanity show y x1)) x2) = Raise EValue.
Proof.
  exists (list num), swing_solve, (fun _ _ => Ok true), swing_objective, [(0%nat, "a")], swing_conf, true, true, swing_started, (the_block swing_started), swing_study,
    [PInt 5], [PInt 3], [PInt 3; PInt 3].
  split; [exact swing_resolved|]. split; [exact swing_constructed|]. split; [vm_compute; reflexivity|]. split; [reflexivity|]. split; [reflexivity|].
  split; vm_compute; reflexivity.
Qed.
Print Assumptions C73_value_refuted.
