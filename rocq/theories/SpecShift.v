(** Specification vocabulary: algebraic problems that differ a little (C97). *)
From Verif Require Import Base Num UnitModel Sympy Node Build EquationModel ModelModel ProblemModel SpecExpr SpecProblem SolverModel SpecSolver SpecWritten SpecUnique SpecDepend SpecNearly.
From Coq Require Import Reals.
Notation num := Verif.Num.num.

(** In the states [here] the equations determine their unknowns: when the numbers that are
    to be zero differ by at most [d], the unknowns differ by at most [K * d]. *)
Definition conditioned_in (here : env -> Prop) (P : written -> Prop) (vars : list string) (K : R) : Prop :=
  forall en en' d, here en -> here en' -> (0 <= d)%R ->
    (forall x, P x -> exists a c, demanded x en = Some a /\ demanded x en' = Some c /\ (Rabs (a - c) <= d)%R) ->
    forall v, In v vars -> (Rabs (e_sym en v - e_sym en' v) <= K * d)%R.

(** Each equation of [P] has one of [P'] beside it which, in the states [here], asks nearly
    the same. *)
Definition asks_alike (here : env -> Prop) (delta : R) (P P' : written -> Prop) : Prop :=
  forall y, P y -> exists y', P' y' /\ forall en c, here en -> demanded y' en = Some c -> exists a, demanded y en = Some a /\ (Rabs (a - c) <= delta)%R.

(** The equations of [P] are written with the quantities of [D]; [P'] has the same
    equations, with other values given to the quantities.  What is to be zero has a value
    in the box [B] and sways by at most [delta]. *)
Definition rewritten (D D' : dict thing) (B : string -> R) (delta : R) (P P' : written -> Prop) (names : list string) : Prop :=
  forall y, P y -> exists n n' q e t L M, y = read_eq D n q /\ P' (read_eq D' n' q) /\ (q = UResid e \/ exists l, q = UElem l e) /\
    In t names /\ (forall en, boxed B names en -> expr_value D en e <> None) /\ sways D D' B t names e L delta M.

(** Each unknown has an equation [v - g], of which [g] changes at most [L] times as much as
    the unknowns together. *)
Definition fixed_point (here : env -> Prop) (L : R) (P : written -> Prop) (vars : list string) : Prop :=
  forall v, In v vars -> exists y g, P y /\
    (forall en, demanded y en = match g en with Some c => Some (e_sym en v - c)%R | None => None end) /\
    forall en en' a c, here en -> here en' -> g en = Some a -> g en' = Some c -> (Rabs (a - c) <= L * gap vars en en')%R.
