(** Specification vocabulary: sessions whose equations use quantities that are
    variables or have a value (C57). *)
From Verif Require Import Base Num UnitModel Sympy Node Build EquationModel ModelModel ProblemModel SpecExpr SpecModel SpecProblem SpecSymbols.
Notation num := Verif.Num.num.

(** The quantities in [use] are variables or have a value, and no other quantity
    among them has the name of a variable among them. *)
Definition known (h : heap) (use : loc -> Prop) : Prop :=
  (forall l, use l -> exists o, hget h l = Some o /\ (q_kind o = KVariable \/ q_spec o = true)) /\
  (forall l l' o o', use l -> use l' -> hget h l = Some o -> hget h l' = Some o' -> q_name o = q_name o' ->
     q_kind o = KVariable -> q_kind o' = KVariable).

(** The statement may be given in this state.  [fx]: variables may be given values. *)
Definition settled (fx : bool) (s : session) (a : act) : Prop :=
  match a with
  | ANew _ d => prepared fx d = true
  | AConn _ _ _ _ (Some q) => known (pw_heap (fst s)) (fun l => eq_occurs l q)
  | AConnN _ _ out inp => known (pw_heap (fst s)) (fun l => occurs l out \/ occurs l inp)
  | AStmt i (CEq _ _ q _) =>
      forall m q', model_of s i = Some m -> resolve_eq (attr_qty m) q = Ok q' -> known (pw_heap (fst s)) (fun l => eq_occurs l q')
  | AStmt i (CSet a _ _) =>
      fx = true \/ forall m l o, model_of s i = Some m -> attr_qty m a = Ok l -> hget (pw_heap (fst s)) l = Some o -> q_kind o <> KVariable
  | AStmt _ (CVar _ _ _ _ _ _) | AInc _ _ _ => False
  | _ => True
  end.
Fixpoint all_settled (fx : bool) (s : session) (acts : list act) : Prop :=
  match acts with
  | [] => True
  | a :: r => settled fx s a /\ all_settled fx (fst (do_act s a)) r
  end.
