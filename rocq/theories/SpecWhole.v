(** Specification vocabulary: a simulation from its options to its results (C83). *)
From Verif Require Import Base Num UnitModel Sympy Node EquationModel ModelModel ProblemModel SpecProblem SolverModel SimModel SpecSim RunModel WholeModel.
From Verif Require DomainModel.
From Coq Require Import Reals.
Notation num := Verif.Num.num.

(** The options ask for [n] steps from [t0] to [e]. *)
Definition timed (s : sim) (t0 e : R) (n : Z) : Prop :=
  (exists a, option_of s "initial_time" = Some (VNum a) /\ num_value a = Some t0) /\
  (exists c, option_of s "end_time" = Some (VNum c) /\ num_value c = Some e) /\
  option_of s "number_of_time_steps" = Some (VNum (PInt n)) /\ (0 < n)%Z.
(** [n] steps of one length from [t0] to [e]. *)
Definition even_points (ts : list R) (t0 e : R) (n : Z) : Prop :=
  Z.of_nat (List.length ts) = (n + 1)%Z /\ nth_error ts 0 = Some t0 /\ nth_error ts (Z.to_nat n) = Some e /\
  forall i a c, nth_error ts i = Some a -> nth_error ts (S i) = Some c -> (c - a = (e - t0) / IZR n)%R.
(** The headers the options ask for. *)
Definition headed (s : sim) (names : dict string) : Prop :=
  option_of s "variable_name_map" = Some (VDict (map (fun kv => (fst kv, VStr (snd kv))) names)).
(** The option with the name of the mechanism is not set to another one. *)
Definition uses (s : sim) (k name : string) : Prop := option_of s k = Some VNone \/ option_of s k = Some (VStr name).

(** Only domain [o] changed. *)
Definition only_domain (o : nat) (d' : DomainModel.domain R) (doms doms' : list (DomainModel.domain R)) : Prop :=
  List.length doms' = List.length doms /\ nth_error doms' o = Some d' /\ forall j, j <> o -> nth_error doms' j = nth_error doms j.

(** Dictionaries answered by sympy are dictionaries. *)
Definition proper_answers (eng : engines R) : Prop := forall es vars sol, In sol (sympy_solve eng es vars) -> NoDup (dkeys sol).
