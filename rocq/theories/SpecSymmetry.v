(** Specification vocabulary: maps that carry equations into equations (C99). *)
From Verif Require Import Base Num UnitModel Sympy Node EquationModel ModelModel ProblemModel SpecProblem SolverModel SpecSolver SpecWritten SpecExact
  SpecSaid SpecInit RunModel SpecRun SpecConserve SpecNearly.
From Verif Require DomainModel.
From Coq Require Import Reals.
Notation num := Verif.Num.num.
Open Scope R_scope.

(** Each variable [x] is multiplied by [ch_mul x] and shifted by [ch_add x], time is
    multiplied by [ch_rate] and shifted by [ch_shift]: other units, another start. *)
Record chart := mkChart { ch_mul : string -> R; ch_add : string -> R; ch_rate : R; ch_shift : R }.
Definition image (c : chart) (x : string) (v : R) : R := ch_mul c x * v + ch_add c x.
Definition moment_image (c : chart) (tau : R) : R := ch_rate c * tau + ch_shift c.

(** A state, and the same state mapped. *)
Definition related (c : chart) (t : string) (names moves : list string) (en en' : env) : Prop :=
  e_sym en' t = moment_image c (e_sym en t) /\ (forall x, In x names -> e_sym en' x = image c x (e_sym en x)) /\
  (forall x, In x moves -> ch_rate c * e_der en' x t = ch_mul c x * e_der en x t).
(** Where the equations [P] are true, [P'] are true of what is mapped. *)
Definition carries (c : chart) (P P' : written -> Prop) (t : string) (names moves : list string) : Prop :=
  ch_rate c <> 0 /\ forall en en', (forall w, P w -> wr_value w en = Some 0) -> related c t names moves en en' -> forall w, P' w -> wr_value w en' = Some 0.
Definition starts_carried (c : chart) (acts acts' : list act) (names : list string) : Prop :=
  forall x k k' v v', In x names -> starts_at acts x k -> starts_at acts' x k' -> num_value k = Some v -> num_value k' = Some v' -> v' = image c x v.

(** Wherever the second table has a row for the image of a moment of the first, it says
    the images of what the first says, up to the errors of both. *)
Definition carried_within (c : chart) (eps eps' : R) (t : string) (names : list string) (d : DomainModel.domain R) (headers : dict string)
    (d' : DomainModel.domain R) (headers' : dict string) : Prop :=
  exists ts ts', DomainModel.column d t (DomainModel.LName (header headers t)) = Some ts /\ DomainModel.column d' t (DomainModel.LName (header headers' t)) = Some ts' /\
  forall k k' tau, nth_error ts k = Some tau -> nth_error ts' k' = Some (moment_image c tau) ->
  forall x, In x names -> exists v v', row_says d t headers k x v /\ row_says d' t headers' k' x v' /\ Rabs (v' - image c x v) <= Rabs (ch_mul c x) * eps + eps'.

(** A state in which nothing changes, whatever the time. *)
Definition at_rest (P : written -> Prop) (t : string) (names moves : list string) (y : string -> R) : Prop :=
  forall en, (forall x, In x names -> e_sym en x = y x) -> (forall x, In x moves -> e_der en x t = 0) -> forall w, P w -> wr_value w en = Some 0.

(** ** Algebraic problems *)
Definition image_env (c : chart) (en : env) : env := mkEnv (fun x => image c x (e_sym en x)) (e_der en).
(** Each equation of [P'] is, in what is mapped, at most [lam] times as far from zero as
    one of [P]. *)
Definition carries_demands (c : chart) (lam : R) (P P' : written -> Prop) : Prop :=
  forall y', P' y' -> exists y, P y /\ forall en a, demanded y en = Some a -> exists a', demanded y' (image_env c en) = Some a' /\ Rabs a' <= lam * Rabs a.
Close Scope R_scope.
