(** Specification vocabulary: derivatives with a factor (C80). *)
From Verif Require Import Base Num UnitModel Sympy Node Build EquationModel.
Notation num := Verif.Num.num.

(** [u] is one of the terms of a sum. *)
Inductive term_of (u : sx) : sx -> Prop :=
| term_itself : term_of u u
| term_add_l a b : term_of u a -> term_of u (SAdd a b)
| term_add_r a b : term_of u b -> term_of u (SAdd a b)
| term_sub_l a b : term_of u a -> term_of u (SSub a b)
| term_sub_r a b : term_of u b -> term_of u (SSub a b).
(** [k] times a derivative, for a number that is not 1 or -1. *)
Definition scaled (k : num) (u : sx) : Prop :=
  exists x t, k <> PInt 1 /\ k <> PInt (-1) /\ (u = SMul (SNum k) (SDer x t) \/ u = SMul (SDer x t) (SNum k)).
(** The residual of the equation is a sum with such a term. *)
Definition scaled_in (k : num) (u : sx) (e : eqn) : Prop :=
  exists n, eq_expr e = Some n /\ (exists a b, nd_sym n = SAdd a b \/ nd_sym n = SSub a b) /\ term_of u (nd_sym n) /\ scaled k u.
