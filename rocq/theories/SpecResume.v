(** Specification vocabulary: going on from where a simulation stopped (C100). *)
From Verif Require Import Base Num UnitModel Sympy Node EquationModel ModelModel ProblemModel SpecProblem SolverModel SpecSolver SpecWritten SpecExact
  SpecSaid SpecInit RunModel SpecRun SpecConserve SpecSymmetry.
From Verif Require DomainModel.
From Coq Require Import Reals.
Notation num := Verif.Num.num.
Open Scope R_scope.

(** The clock is set back by [h]; with [h] zero it goes on. *)
Definition set_back (h : R) : chart := mkChart (fun _ => 1) (fun _ => 0) 1 (- h).
(** The initial values given by the program are, up to [eta], those of row [k]. *)
Definition takes_up (eta : R) (acts : list act) (names : list string) (d : DomainModel.domain R) (t : string) (headers : dict string) (k : nat) : Prop :=
  forall x j w v, In x names -> starts_at acts x j -> num_value j = Some w -> row_says d t headers k x v -> Rabs (w - v) <= eta.
(** Wherever the two tables have rows for one time, they say the same up to [bound]. *)
Definition goes_on (h : R) (bound : R -> R) (t : string) (names : list string) (d : DomainModel.domain R) (headers : dict string)
    (d' : DomainModel.domain R) (headers' : dict string) : Prop :=
  forall i i' tau, row_says d t headers i t tau -> row_says d' t headers' i' t (tau - h) ->
  forall x, In x names -> exists v v', row_says d t headers i x v /\ row_says d' t headers' i' x v' /\ Rabs (v' - v) <= bound tau.
Close Scope R_scope.
