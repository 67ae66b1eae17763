(** Specification vocabulary: sessions whose models also take in other models
    (C57). *)
From Verif Require Import Base Num UnitModel Sympy Node Build EquationModel ModelModel ProblemModel SpecExpr SpecModel SpecInc SpecProblem SpecSymbols
  SpecSettled.
Notation num := Verif.Num.num.

(** Model [d] can be taken into model [m]: if its equations are taken, so are its
    quantities, under new names; its equations are written with its own quantities
    (not with those of connected models); no parameter or constant of it has the
    name of one of its variables or of a variable of [m]. *)
Definition takes_whole (h : heap) (d m : mstate) (f : incflags) : Prop :=
  i_eqs f = true ->
  f = inc_default /\ donor_ok h d /\ no_capture d (m_name m) /\
  (forall k e o x l, In (k, e) (m_eqs d) -> eq_objs e = Some o -> In (x, l) o ->
     In (x, l) (m_vars d) \/ In (x, l) (m_pars d) \/ In (x, l) (m_cons d)) /\
  (forall a, In (full_name a (m_name d)) (dkeys (m_pars d)) \/ In (full_name a (m_name d)) (dkeys (m_cons d)) ->
     ~ In (full_name a (m_name d)) (dkeys (m_vars d)) /\ ~ In (full_name a (m_name m)) (dkeys (m_vars m))).

(** The statement may be given in this state: as in [settled], and variables may be
    declared and models taken in. *)
Definition gathered (fx : bool) (s : session) (a : act) : Prop :=
  match a with
  | AStmt _ (CVar _ _ _ _ _ _) => True
  | AInc i j f => forall m d, model_of s i = Some m -> model_of s j = Some d -> takes_whole (pw_heap (fst s)) d m f
  | _ => settled fx s a
  end.
Fixpoint all_gathered (fx : bool) (s : session) (acts : list act) : Prop :=
  match acts with
  | [] => True
  | a :: r => gathered fx s a /\ all_gathered fx (fst (do_act s a)) r
  end.

(** Every variable that the equations of the problem use belonged to a model when
    that model was added. *)
Definition added_with_variables (acts : list act) (s : session) (b : block) : Prop :=
  forall e x, In e (b_eqs b) -> uses_variable (pw_heap (fst s)) x e -> declared_when_added acts x.
