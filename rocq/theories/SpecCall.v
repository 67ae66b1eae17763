(** Specification vocabulary for calling a model repeatedly. *)
From Verif Require Import Base Num UnitModel Sympy Node Build EquationModel ModelModel.
Notation num := Verif.Num.num.

(** [n] calls of the model in a row, stopping at an exception. *)
Fixpoint calls (n : nat) (d : decls) (w : mworld) : mworld * res Datatypes.unit :=
  match n with
  | O => (w, Ok tt)
  | S k => match model_call d w with
           | (w', Ok _) => calls k d w'
           | bad => bad
           end
  end.

(** Every equation is given a name. *)
Definition named_cmd (c : cmd) : bool :=
  match c with CEq _ n _ _ => negb (String.eqb n "") | _ => true end.
Definition named (d : decls) : bool := forallb named_cmd (d_cons d ++ d_pars d ++ d_vars d ++ d_eqs d).

(** Same names in the same order. *)
Definition same_keys (m m' : mstate) : Prop :=
  dkeys (m_vars m') = dkeys (m_vars m) /\ dkeys (m_pars m') = dkeys (m_pars m) /\
  dkeys (m_cons m') = dkeys (m_cons m) /\ dkeys (m_eqs m') = dkeys (m_eqs m).

(** Dictionaries referring to equal objects under the same names. *)
Definition same_objects (h h' : heap) (d d' : dict loc) : Prop :=
  forall k l, dget k d = Some l -> exists l' q, dget k d' = Some l' /\ hget h l = Some q /\ hget h' l' = Some q.

(** Equal nodes: same expressions, class and unit, over equal objects. *)
Definition same_node (h h' : heap) (n n' : node) : Prop :=
  nd_sym n' = nd_sym n /\ nd_repr n' = nd_repr n /\ nd_ty n' = nd_ty n /\ nd_unit n' = nd_unit n /\
  dkeys (nd_smap n') = dkeys (nd_smap n) /\ dkeys (nd_vmap n') = dkeys (nd_vmap n) /\
  same_objects h h' (nd_smap n) (nd_smap n') /\ same_objects h h' (nd_vmap n) (nd_vmap n').

Definition same_onode (h h' : heap) (n n' : option node) : Prop :=
  match n, n' with Some a, Some b => same_node h h' a b | None, None => True | _, _ => False end.

Definition same_eqn (h h' : heap) (e e' : eqn) : Prop :=
  eq_name e' = eq_name e /\ eq_type e' = eq_type e /\ eq_elementary e' = eq_elementary e /\ eq_owner e' = eq_owner e /\
  same_onode h h' (eq_expr e) (eq_expr e') /\
  match eq_elem e, eq_elem e' with
  | Some (a, b), Some (a', b') => same_node h h' a a' /\ same_node h h' b b'
  | None, None => True
  | _, _ => False
  end.

(** The model in [w'] has the objects and equations of the one in [w]. *)
Definition same_model (w w' : mworld) : Prop :=
  let m := w_mod w in let m' := w_mod w' in let h := w_heap w in let h' := w_heap w' in
  same_objects h h' (m_vars m) (m_vars m') /\ same_objects h h' (m_pars m) (m_pars m') /\
  same_objects h h' (m_cons m) (m_cons m') /\
  forall k e, dget k (m_eqs m) = Some e -> exists e', dget k (m_eqs m') = Some e' /\ same_eqn h h' e e'.
