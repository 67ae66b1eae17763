(** * Statements about operations that raise

    What a program may count on after an exception, said with the states
    before and after only. *)
From Coq Require Import ZArith List Bool String.
From Verif Require Import Base Num UnitModel Node Build Sympy EquationModel ModelModel ProblemModel SpecProblem.
Import ListNotations.
Local Open Scope list_scope.

(** The quantities, the models and the problem are the same ones, field by
    field.  The counters of automatic names are not compared: they only number
    names given later (core/equation.py lines 36-42). *)
Definition untouched (s s' : session) : Prop :=
  pw_heap (fst s') = pw_heap (fst s) /\ pw_models (fst s') = pw_models (fst s) /\ snd s' = snd s.

(** Operations that do one thing: not the calls, which run many statements
    (model.py lines 546-570), not incorporation, which copies many objects
    (lines 352-394), not resolve, which calls many models (problem.py lines
    380-390). *)
Definition single (a : act) : Prop :=
  match a with ACall _ | AInc _ _ _ | AResolve => False | _ => True end.

(** [self.createVariable(..., is_exposed=True, type=t)] with a [t] that is
    neither 'input' nor 'output' (model.py lines 667-717). *)
Definition mistyped (a : act) : Prop :=
  match a with
  | AStmt _ (CVar _ _ _ true t _) => t <> "input"%string /\ t <> "output"%string
  | _ => False
  end.

(** The statements of the four functions of a model, in the order of the call. *)
Definition statements (d : decls) : list cmd := d_cons d ++ d_pars d ++ d_vars d ++ d_eqs d.

(** After [s], nothing that was there is gone: the old quantities are the first
    quantities of the new state, every model has the names it had, models other
    than [i] and the problem are the same. *)
Definition only_added (i : nat) (s s' : session) : Prop :=
  (exists more, pw_heap (fst s') = pw_heap (fst s) ++ more) /\
  (forall j, j <> i -> get_model (fst s') j = get_model (fst s) j) /\
  (forall m d, get_model (fst s) i = Some (m, d) ->
     exists m', get_model (fst s') i = Some (m', d) /\ m_name m' = m_name m /\
       (forall x, In x (dkeys (m_vars m)) -> In x (dkeys (m_vars m'))) /\
       (forall x, In x (dkeys (m_pars m)) -> In x (dkeys (m_pars m'))) /\
       (forall x, In x (dkeys (m_cons m)) -> In x (dkeys (m_cons m'))) /\
       (forall x, In x (dkeys (m_eqs m)) -> In x (dkeys (m_eqs m'))) /\
       m_in m' = m_in m /\ m_out m' = m_out m) /\
  snd s' = snd s.
