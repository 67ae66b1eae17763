(** Property theorems C67 (models do not share objects), and more on C23 (resolving
    again) and C28 (exposed variables). *)
From Verif Require Import Base Num NumFacts UnitModel UnitFacts Sympy Node Build EquationModel ModelModel ProblemModel SolverModel
  SpecUnits SpecExpr SpecDims SpecModel SpecInc SpecCall SpecProblem SpecSolver SpecSymbols SpecWritten SpecOwn SpecRepeat
  ProblemFacts SessionFacts OwnFacts ShownFacts RepeatFacts Demo Properties07Problems Properties08Solvers Properties14Symbols Properties16Written.
Notation num := Verif.Num.num.

(** ** C67 *)
(** Whatever is done and however it ends, models the action is not about keep
    their state, their declarations and their objects. *)
Theorem C67_others_kept : forall acts a s' r j m d, let s := run_acts start_session acts in do_act s a = (s', r) -> ~ about s a j ->
  get_model (fst s) j = Some (m, d) ->
  get_model (fst s') j = Some (m, d) /\ forall l, holds_object m l -> hget (pw_heap (fst s')) l = hget (pw_heap (fst s)) l.
Proof. exact others_kept. Qed.
Print Assumptions C67_others_kept.

Theorem C67_not_shared : forall acts i j mi mj l, let s := run_acts start_session acts in
  model_of s i = Some mi -> model_of s j = Some mj -> holds_object mi l -> holds_object mj l -> i = j.
Proof. exact objects_apart. Qed.
Print Assumptions C67_not_shared.

(** Model R incorporates the parameters and constants of S, which is then changed: the copy is not. *)
Definition mixed : list act := flow_before ++ [AInc 1%nat 0%nat (mkInc false true true false true)].
Definition change : act := AStmt 0%nat (CSet "c" (SANum (PInt 9)) None).
Definition value_at (s : session) (l : loc) : option num := option_map q_value (hget (pw_heap (fst s)) l).
Definition con_of (s : session) (i : nat) (k : string) : option loc := match model_of s i with Some m => dget k (m_cons m) | None => None end.
Example C67_case : let s := run_acts start_session mixed in
  snd (do_act s change) = Ok tt /\ ~ about s change 1%nat /\
  option_map (value_at s) (con_of s 1 "c_R") = Some (Some (PInt 3)) /\
  option_map (value_at (fst (do_act s change))) (con_of s 1 "c_R") = Some (Some (PInt 3)) /\
  option_map (value_at (fst (do_act s change))) (con_of s 0 "c_S") = Some (Some (PInt 9)).
Proof. split; [vm_compute; reflexivity|]. split; [discriminate|]. repeat split; vm_compute; reflexivity. Qed.

(** ** C23 *)
(** Full statement: the same for every script.  Missing: scripts with unnamed
    equations (refuted in [C23_unnamed_refuted]) and scripts that only run because
    of earlier statements on the model. *)
Theorem C23_resolve_partial : forall acts s b n, resolved acts s b -> repeatable acts ->
  exists s2 b2, resolved (acts ++ repeat AResolve n) s2 b2 /\
    map (look (pw_heap (fst s2))) (b_eqs b2) = map (look (pw_heap (fst s))) (b_eqs b) /\
    b_exprs b2 = b_exprs b /\ b_varlist b2 = b_varlist b /\ b_vars b2 = b_vars b /\ b_pars b2 = b_pars b.
Proof. exact resolve_repeated. Qed.
Print Assumptions C23_resolve_partial.

Example C23_resolve_case : resolved flow (final flow) (the_block flow) /\ repeatable flow /\
  map eq_name (b_eqs (the_block flow)) = ["e_S"; "e_R"; "q_S--->p_R"].
Proof.
  split; [apply run_resolved; vm_compute; reflexivity|]. split; [|vm_compute; reflexivity].
  intros M d [E|[E|[]]]; injection E as <- <-; (split; [reflexivity|vm_compute; reflexivity]).
Qed.

(** ** C28 *)
(** What is exposed is what was declared so: in the exposure lists of a model are
    its own variables declared as exposed, and all of those it has. *)
Theorem C28_exposed_only : forall acts i m l, forallb own_work acts = true -> let s := run_acts start_session acts in model_of s i = Some m ->
  (In l (m_in m) -> exposed_as (pw_heap (fst s)) (m_name m) "input" l) /\
  (In l (m_out m) -> exposed_as (pw_heap (fst s)) (m_name m) "output" l).
Proof. exact exposed_only. Qed.
Print Assumptions C28_exposed_only.

Theorem C28_exposed_all : forall acts i m k l q, forallb own_work acts = true -> let s := run_acts start_session acts in model_of s i = Some m ->
  In (k, l) (m_vars m) -> hget (pw_heap (fst s)) l = Some q -> q_exposed q = true ->
  (q_type q = "input" -> In l (m_in m)) /\ (q_type q = "output" -> In l (m_out m)).
Proof. exact exposed_all. Qed.
Print Assumptions C28_exposed_all.

Theorem C28_variable_created : forall w a n u ex ty v w', run_cmd w (CVar a n u ex ty v) = (w', Ok tt) ->
  exists l q, hget (w_heap w') l = Some q /\ In (q_name q, l) (m_vars (w_mod w')) /\ dget a (m_attrs (w_mod w')) = Some (AQty l) /\
    q_name q = full_name n (m_name (w_mod w)) /\ q_units q = u /\ q_value q = v /\ q_kind q = KVariable /\
    q_exposed q = ex /\ q_type q = ty /\ q_owner q = m_name (w_mod w) /\ q_spec q = false /\
    m_in (w_mod w') = (if ex && String.eqb ty "input" then m_in (w_mod w) ++ [l] else m_in (w_mod w)) /\
    m_out (w_mod w') = (if ex && String.eqb ty "output" then m_out (w_mod w) ++ [l] else m_out (w_mod w)) /\
    (ex = true -> ty = "input" \/ ty = "output").
Proof. exact variable_created. Qed.
Print Assumptions C28_variable_created.

Theorem C28_bad_exposure : forall w a n u ty v, ty <> "input" -> ty <> "output" -> snd (run_cmd w (CVar a n u true ty v)) = Raise EKey.
Proof. exact bad_exposure. Qed.
Print Assumptions C28_bad_exposure.

Example C28_exposed_case : let s := run_acts start_session flow_before in
  forallb own_work flow_before = true /\
  option_map m_out (model_of s 0) = Some [1%nat] /\ option_map m_in (model_of s 0) = Some [] /\
  option_map m_in (model_of s 1) = Some [3%nat] /\
  option_map q_exposed (hget (pw_heap (fst s)) 4%nat) = Some false.
Proof. repeat split; vm_compute; reflexivity. Qed.
