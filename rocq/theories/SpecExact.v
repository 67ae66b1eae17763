(** Specification vocabulary: a problem says what was written and nothing else (C68). *)
From Verif Require Import Base Num UnitModel Sympy Node Build EquationModel ModelModel ProblemModel SpecExpr SpecModel SpecProblem SolverModel SpecSolver
  SpecSymbols SpecWritten.
From Coq Require Import Reals.

(** A connection into model [j] was made, of the variables named [os] to those
    named [is]. *)
Definition connected (acts : list act) (j : nat) (os is : list string) : Prop :=
  exists a1 i outs ins a2 s1, acts = a1 ++ AConn (CMModel i) j outs ins None :: a2 /\
    do_act (run_acts start_session a1) (AConn (CMModel i) j outs ins None) = (s1, Ok tt) /\
    os = var_names (pw_heap (fst (run_acts start_session a1))) (cv_list outs) /\
    is = var_names (pw_heap (fst (run_acts start_session a1))) (cv_list ins).

(** What is asked of the unknowns for a written equation: the residual is zero, or
    for [lhs == rhs] the right side is (C65). *)
Definition asks (x : written) (en : env) : Prop :=
  match wr_sides x with None => wr_value x en | Some (_, r) => r en end = Some 0%R.

(** All models can be read on their own. *)
Definition all_legible (acts : list act) : Prop := forall M d, In (M, d) (created acts) -> legible M d.

(** ** Differential equations *)
(** A written equation of a model of the problem. *)
Definition part_of (acts : list act) (w : written) : Prop :=
  exists i M d, In i (added acts) /\ nth_error (created acts) i = Some (M, d) /\ In w (written_by M d).
(** Written as a rate: the left side is the derivative of [x] by [t], the right
    side has the value [g]. *)
Definition rate (w : written) (x t : string) (g : env -> option R) : Prop :=
  exists f, wr_sides w = Some (f, g) /\ forall en, f en = Some (e_der en x t).
(** The value of what was written: left minus right side, or inputs minus outputs
    of a connection. *)
Definition written_value (acts : list act) (en : env) (e : eqn) (v : option R) : Prop :=
  (exists w, part_of acts w /\ says w e /\ v = wr_value w en) \/
  (exists j os is, In j (added acts) /\ connected acts j os is /\ v = Some (sum_named en is - sum_named en os)%R).
