(** Specification vocabulary for incorporation. *)
From Verif Require Import Base Num UnitModel Sympy Node Build EquationModel ModelModel SpecExpr SpecModel.
From Coq Require Import Reals.
Notation num := Verif.Num.num.

(** Every registered object exists, carries the name it is registered under, a
    local name with the model's suffix, and belongs to the model. *)
Definition objects_ok (h : heap) (model : string) (d : dict loc) : Prop :=
  NoDup (dkeys d) /\
  forall k l, In (k, l) d -> exists q a, hget h l = Some q /\ q_name q = k /\
                                         k = full_name a model /\ q_owner q = model.

Definition not_exposed (h : heap) (d : dict loc) : Prop :=
  forall k l q, In (k, l) d -> hget h l = Some q -> q_exposed q = false.

(** The equation is about declared objects and its working and display forms are
    sympy objects (not plain numbers). *)
Definition incorporable (m : mstate) (e : eqn) : Prop :=
  (exists n, eq_expr e = Some n /\ is_raw (nd_sym n) = false /\ is_raw (nd_repr n) = false /\
             incl (fsyms (nd_sym n)) (declared m) /\ incl (fsyms (nd_repr n)) (declared m)) /\
  (forall a b, eq_elem e = Some (a, b) ->
     is_raw (nd_repr a) = false /\ is_raw (nd_repr b) = false /\
     incl (fsyms (nd_repr a)) (declared m) /\ incl (fsyms (nd_repr b)) (declared m)).

Definition equations_ok (m : mstate) : Prop :=
  NoDup (dkeys (m_eqs m)) /\
  forall k e, In (k, e) (m_eqs m) -> eq_name e = k /\ (exists a, k = full_name a (m_name m)) /\
                                     eq_owner e = m_name m /\ incorporable m e.

Definition donor_ok (h : heap) (d : mstate) : Prop :=
  m_name d <> "" /\ objects_ok h (m_name d) (m_vars d) /\ objects_ok h (m_name d) (m_pars d) /\
  objects_ok h (m_name d) (m_cons d) /\ not_exposed h (m_vars d) /\ equations_ok d.

(** Dictionaries with unique keys (all that Python ones can be). *)
Definition host_ok (m : mstate) : Prop :=
  NoDup (dkeys (m_vars m)) /\ NoDup (dkeys (m_pars m)) /\ NoDup (dkeys (m_cons m)).

(** No renamed object takes the name of another object of the donor. *)
Definition no_capture (d : mstate) (host : string) : Prop :=
  forall a b, In (full_name a (m_name d)) (declared d) -> In (full_name b (m_name d)) (declared d) ->
    full_name a host = full_name b (m_name d) -> a = b.

(** What the host calls what the donor calls [x]; other symbols keep their name. *)
Definition new_name (d : mstate) (host x : string) : string :=
  if mem_str x (declared d) then full_name (strip_name x (m_name d)) host else x.

(** [en'] gives the host's objects the values [en] gives the donor's. *)
Definition renamed_env (d : mstate) (host : string) (en en' : env) : Prop :=
  (forall x, e_sym en' (new_name d host x) = e_sym en x) /\
  (forall x t, e_der en' (new_name d host x) (new_name d host t) = e_der en x t).

(** [q'] is a copy of [q] under local name [a] in model [host]. *)
Definition copy_of (q q' : qty) (a host : string) : Prop :=
  q_name q' = full_name a host /\ q_owner q' = host /\ q_kind q' = q_kind q /\ q_units q' = q_units q /\
  q_value q' = q_value q /\ q_spec q' = q_spec q /\ q_domain q' = q_domain q.

(** Every object of [old] has a new copy in [cur], a dictionary of [host]. *)
Definition copied (h h' : heap) (donor host : string) (old cur : dict loc) : Prop :=
  forall a l q, dget (full_name a donor) old = Some l -> hget h l = Some q ->
    exists l' q', dget (full_name a host) cur = Some l' /\ hget h' l' = Some q' /\
                  (List.length h <= l')%nat /\ copy_of q q' a host.

(** Entries of [before] whose names are not among the copied ones are still there. *)
Definition kept (donor host : string) (old before cur : dict loc) : Prop :=
  forall k, (forall a, k = full_name a host -> ~ In (full_name a donor) (dkeys old)) -> dget k cur = dget k before.

(** Equation [e'] of [host] says what equation [e] of [d] says. *)
Definition same_equation (d host : mstate) (e e' : eqn) : Prop :=
  eq_type e' = eq_type e /\ eq_elementary e' = eq_elementary e /\ eq_owner e' = m_name host /\
  exists n n', eq_expr e = Some n /\ eq_expr e' = Some n' /\
    (forall en en', renamed_env d (m_name host) en en' -> den (nd_sym n') en' = den (nd_sym n) en) /\
    (forall en en', renamed_env d (m_name host) en en' -> den (nd_repr n') en' = den (nd_repr n) en) /\
    incl (fsyms (nd_sym n')) (declared host) /\
    eq_objs e' = Some (nd_smap n') /\
    incl (fsyms (nd_repr n')) (dkeys (nd_smap n')) /\
    forall x l, dget x (nd_smap n') = Some l ->
      dget x (m_vars host) = Some l \/ dget x (m_pars host) = Some l \/ dget x (m_cons host) = Some l.

(** Sides of an elementary equation likewise. *)
Definition same_sides (d : mstate) (host : string) (e e' : eqn) : Prop :=
  match eq_elem e, eq_elem e' with
  | None, None => True
  | Some (a, b), Some (a', b') => forall en en', renamed_env d host en en' ->
      den (nd_sym a') en' = den (nd_sym a) en /\ den (nd_sym b') en' = den (nd_sym b) en
  | _, _ => False
  end.

(** Statements whose objects can be incorporated: nothing exposed, equations
    checked, with expressions (not a number) on both sides and no Min or Max. *)
Fixpoint minmax_free {A} (e : uexpr A) : bool :=
  match e with
  | UQty _ | UFunN _ _ | UDiff _ _ => true
  | UBin _ a b => minmax_free a && minmax_free b
  | UNumR _ a _ | UNumL _ _ a | UFun _ a => minmax_free a
  | UMinMax _ _ => false
  end.
Definition incorporable_cmd (c : cmd) : bool :=
  match c with
  | CVar _ _ _ ex _ _ => negb ex
  | CEq _ _ (UResid e) check => minmax_free e && check
  | CEq _ _ (UElem l r) check => minmax_free l && minmax_free r && check
  | CEq _ _ (UElemN _ _) _ => false
  | _ => true
  end.

(** Every equation still has an unknown in it. *)
Definition has_unknowns (m : mstate) : Prop :=
  forall k e n, In (k, e) (m_eqs m) -> eq_expr e = Some n -> fsyms (nd_sym n) <> [].

(** Incorporating into a new model, that into another new model, and so on. *)
Fixpoint inc_chain (h : heap) (d : mstate) (hosts : list string) (f : incflags) : heap * mstate * res Datatypes.unit :=
  match hosts with
  | [] => (h, d, Ok tt)
  | n :: r => match incorporate h (new_model n) d f with
              | (h', m, Ok _) => inc_chain h' m r f
              | bad => bad
              end
  end.

(** Incorporation without renaming: the copies go by the donor's names; entries
    of other names stay. *)
Definition kept_copies (h h' : heap) (host : string) (old before cur : dict loc) : Prop :=
  (forall k l q, dget k old = Some l -> hget h l = Some q ->
     exists l' q', dget k cur = Some l' /\ hget h' l' = Some q' /\ (List.length h <= l')%nat /\
       q_name q' = k /\ q_owner q' = host /\ q_kind q' = q_kind q /\ q_units q' = q_units q /\
       q_value q' = q_value q /\ q_spec q' = q_spec q /\ q_domain q' = q_domain q) /\
  (forall k, ~ In k (dkeys old) -> dget k cur = dget k before).
