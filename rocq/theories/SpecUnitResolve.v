(** Specification vocabulary for resolving unit operations. *)
From Verif Require Import Base Num UnitModel Sympy Node Build EquationModel ModelModel UnitOpModel SpecExpr.
From Coq Require Import Reals.

(** Model [m] holds an equation [name], and it says that the quantity [a] of the
    stream [o] equals the quantity [b] of the model: its residual is their
    difference. *)
Definition passes_on (h : heap) (o m : mstate) (name a b : string) : Prop :=
  exists l1 l2 e n, attr_qty o a = Ok l1 /\ attr_qty m b = Ok l2 /\
    dget (name ++ "_" ++ m_name m)%string (m_eqs m) = Some e /\ eq_expr e = Some n /\
    forall v en, env_for h v en ->
      den (nd_sym n) en = match qty_meaning h v l1, qty_meaning h v l2 with
                          | Some x, Some y => Some (x - y)%R
                          | _, _ => None
                          end.

(** The same, but the stream [o] holds the equation. *)
Definition gives_back (h : heap) (o m : mstate) (name a b : string) : Prop :=
  exists l1 l2 e n, attr_qty o a = Ok l1 /\ attr_qty m b = Ok l2 /\
    dget (name ++ "_" ++ m_name o)%string (m_eqs o) = Some e /\ eq_expr e = Some n /\
    forall v en, env_for h v en ->
      den (nd_sym n) en = match qty_meaning h v l1, qty_meaning h v l2 with
                          | Some x, Some y => Some (x - y)%R
                          | _, _ => None
                          end.
