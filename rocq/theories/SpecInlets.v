(** Specification vocabulary for the inlets of unit operations. *)
From Verif Require Import Base Num UnitModel Sympy Node Build EquationModel ModelModel UnitOpModel SpecExpr.
From Coq Require Import Reals.

(** Model [m] holds an equation named [prefix] and the name of the quantity [b] of
    the stream [s]; it says that the quantity [a] of the stream has its value. *)
Definition stays_at_value (h : heap) (s m : mstate) (prefix b a : string) : Prop :=
  exists lb la qb qa e n, attr_qty s b = Ok lb /\ hget h lb = Some qb /\ attr_qty s a = Ok la /\ hget h la = Some qa /\
    dget ((prefix ++ q_name qb) ++ "_" ++ m_name m)%string (m_eqs m) = Some e /\ eq_expr e = Some n /\
    forall v en, env_for h v en ->
      den (nd_sym n) en = match qty_meaning h v la, num_value (q_value qa) with
                          | Some x, Some y => Some (x - y)%R
                          | _, _ => None
                          end.

(** Streams whose quantities [b] have the same name are the same in [a]. *)
Definition told_apart (h : heap) (ss : list mstate) (b a : string) : Prop :=
  forall s s' l l' q q', In s ss -> In s' ss -> attr_qty s b = Ok l -> attr_qty s' b = Ok l' ->
    hget h l = Some q -> hget h l' = Some q' -> q_name q = q_name q' -> attr_qty s a = attr_qty s' a.
