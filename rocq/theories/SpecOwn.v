(** Specification vocabulary: the objects of a model (C67, C68). *)
From Verif Require Import Base Num UnitModel Sympy Node Build EquationModel ModelModel ProblemModel SpecModel SpecProblem.

(** A model holds a quantity in one of its dictionaries, in its exposure lists or as
    an attribute. *)
Definition holds_object (m : mstate) (l : loc) : Prop :=
  (exists k, In (k, l) (m_vars m)) \/ (exists k, In (k, l) (m_pars m)) \/ (exists k, In (k, l) (m_cons m)) \/
  In l (m_in m) \/ In l (m_out m) \/ exists a, In (a, AQty l) (m_attrs m).

(** The models an action is about: the one it is called on, the second one of a
    connection, those of the problem for a resolve. *)
Definition about (s : session) (a : act) (j : nat) : Prop :=
  match a with
  | AStmt i _ | ACall i | AInc i _ _ | AConn _ i _ _ _ | AConnN _ i _ _ => i = j
  | AResolve => In j (dvals (pr_models (snd s)))
  | ANew _ _ | AAdd _ | ATime _ | AInit _ => False
  end.

(** ** Exposed variables *)
(** Declared as exposed, as an input or an output of model [M]. *)
Definition exposed_as (h : heap) (M ty : string) (l : loc) : Prop :=
  exists q, hget h l = Some q /\ q_kind q = KVariable /\ q_exposed q = true /\ q_type q = ty /\ q_owner q = M.

(** Not incorporating. *)
Definition own_work (a : act) : bool := match a with AInc _ _ _ => false | _ => true end.
