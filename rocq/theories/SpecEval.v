(** Specification vocabulary: evaluating candidates one after the other (C73). *)
From Verif Require Import Base Num UnitModel Sympy Node Build EquationModel ModelModel ProblemModel SpecModel SpecProblem SpecWritten
  SolverModel SimModel EvalModel.
From Verif Require DomainModel.
Notation num := Verif.Num.num.

(** Models whose declarations write named equations and nothing else: quantities
    are made by the constructor. *)
Definition only_equations (d : decls) : bool :=
  forallb (fun c => match c with CEq _ n _ _ => negb (String.eqb n "") | _ => false end) (script d).
Definition constructed (acts : list act) : Prop := forall M d, In (M, d) (created acts) -> only_equations d = true.

(** [m.a.setValue(x)] for every target [(m, a)]. *)
Definition sets (ts : list (nat * string)) (x : list num) : list act :=
  map (fun tk => AStmt (fst (fst tk)) (CSet (snd (fst tk)) (SANum (snd tk)) None)) (List.combine ts x).
(** The problem is made again for the candidate [x]. *)
Definition evaluation (ts : list (nat * string)) (x : list num) : list act := sets ts x ++ [AResolve].

(** The same model: same equations in the same order, same attributes. *)
Definition same_model (m m' : mstate) : Prop :=
  m_name m' = m_name m /\ m_vars m' = m_vars m /\ m_pars m' = m_pars m /\ m_cons m' = m_cons m /\ m_eqs m' = m_eqs m /\
  m_in m' = m_in m /\ m_out m' = m_out m /\ forall a, dget a (m_attrs m') = dget a (m_attrs m).
Definition same_models (w w' : pworld) : Prop :=
  forall i, match get_model w i, get_model w' i with
            | Some (m, d), Some (m', d') => d' = d /\ same_model m m'
            | None, None => True
            | _, _ => False
            end.
(** The same quantities, problem and block, and the same models: everything but the
    counters of automatic names. *)
Definition same_session (s s' : session) : Prop :=
  pw_heap (fst s') = pw_heap (fst s) /\ snd s' = snd s /\ same_models (fst s) (fst s').

(** ** Studies *)
Definition sy_session (y : study) : session := (sy_world y, sy_problem y).
(** What results and resetting see of a simulation. *)
Definition core (s : sim) := (sm_problem s, sm_conf s, sm_output s, sm_domain s).
(** Same quantities, problem, models, simulation (but its status) and domain. *)
Definition same_study (y y' : study) : Prop :=
  same_session (sy_session y) (sy_session y') /\ core (sy_sim y') = core (sy_sim y) /\ sy_domain y' = sy_domain y.
Definition returned {A} (v : res A) : Prop := exists a, v = Ok a.

(** What the objective is given for what the solver returns: its numbers by name for
    a problem without differential equations, the trajectory as recorded in the
    domain otherwise, under the configured headers. *)
Definition means (d : DomainModel.domain num) (c : dict cval) (p : problem) (out : sout) (r : results) : Prop :=
  match out with
  | OutDict x => match pr_block p with
                 | Some b => b_diff b = [] -> exists e, r = RByName e /\ (NoDup (dkeys x) -> forall k, dget k e = dget k x)
                 | None => False
                 end
  | OutRun times rows => exists names d' t, (forall hs, dget "variable_name_map" c = Some (VDict (map (fun kv => (fst kv, VStr (snd kv))) hs)) -> names = hs) /\
                           DomainModel.record_run d times (matrix_of rows) names = (d', Ok tt) /\
                           DomainModel.d_values d' = Some t /\ r = RTables t
  end.
