(** Specification vocabulary: resolving again (C23). *)
From Verif Require Import Base Num UnitModel Sympy Node Build EquationModel ModelModel ProblemModel SpecModel SpecCall SpecProblem SpecWritten.

(** What can be seen of an expression and of an equation: expressions, class, unit,
    and the quantities it refers to (name, unit, value, ...) in order. *)
Definition node_look (n : node) := (nd_sym n, nd_repr n, nd_ty n, nd_unit n).
Definition objects_look (h : heap) (d : dict loc) : list (string * option qty) := map (fun kl => (fst kl, hget h (snd kl))) d.
Definition look (h : heap) (e : eqn) :=
  (eq_name e, eq_type e, eq_elementary e, eq_owner e, option_map node_look (eq_expr e),
   option_map (fun p => (node_look (fst p), node_look (snd p))) (eq_elem e), option_map (objects_look h) (eq_objs e)).

(** Every model names its equations, and its functions run on a new model. *)
Definition repeatable (acts : list act) : Prop :=
  forall M d, In (M, d) (created acts) -> named d = true /\ runs M d.
