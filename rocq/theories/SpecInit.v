(** Specification vocabulary: which initial values and time variables count (C31). *)
From Verif Require Import Base Num ModelModel ProblemModel SpecProblem.

(** The last setInitialConditions that names [x] gives it [v]. *)
Definition starts_at (acts : list act) (x : string) (v : num) : Prop :=
  exists before c after, acts = before ++ AInit c :: after /\ dget x c = Some v /\ forall c', In (AInit c') after -> dget x c' = None.
(** The last setTimeVariableName. *)
Definition times_by (acts : list act) (names : list string) : Prop :=
  exists before after, acts = before ++ ATime names :: after /\ forall n, ~ In (ATime n) after.
(** Values are given in Python dictionaries: no name twice. *)
Definition dictionaries (acts : list act) : Prop := forall c, In (AInit c) acts -> NoDup (dkeys c).
