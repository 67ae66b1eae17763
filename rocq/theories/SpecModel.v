(** Specification vocabulary for equations and models. *)
From Verif Require Import Base Num UnitModel Sympy Node Build EquationModel ModelModel SpecUnits SpecExpr SpecQty.
From Coq Require Import Reals.
Notation num := Verif.Num.num.

(** A sequence of Equation(...) calls by several threads. *)
Record creation := mkCreation {
  c_thread : nat; c_name : string; c_arg : option earg; c_owner : string }.

Fixpoint create_all (u : uids) (cs : list creation) : list (creation * res eqn) :=
  match cs with
  | [] => []
  | c :: r => let '(u', e) := equation_init u (c_thread c) (c_name c) (c_arg c) (c_owner c) in
              (c, e) :: create_all u' r
  end.

(** Value of a written equation's residual: left minus right, or the expression. *)
Definition residual_meaning (h : heap) (v : valuation) (q : ueq loc) : option R :=
  match q with
  | UResid e => meaning h v e
  | UElem l r => arith BSub (meaning h v l) (meaning h v r)
  | UElemN l k => arith BSub (meaning h v l) (num_value k)
  end.

(** Quantities written in an equation. *)
Definition eq_occurs (l : loc) (q : ueq loc) : Prop :=
  match q with
  | UResid e => occurs l e
  | UElem a b => occurs l a \/ occurs l b
  | UElemN a _ => occurs l a
  end.

(** The same counting the variables derivatives are taken with respect to. *)
Definition eq_mentions (l : loc) (q : ueq loc) : Prop :=
  match q with
  | UResid e => mentions l e
  | UElem a b => mentions l a \/ mentions l b
  | UElemN a _ => mentions l a
  end.

(** [m.createEquation(name, "", <equation>, check)] from evaluating the written
    equation to storing it. *)
Definition user_create (w : mworld) (name : string) (q : ueq loc) (check : bool) : mworld * res eqn :=
  match build_eq (w_heap w) q with
  | Raise x => (w, Raise x)
  | Ok arg => create_equation w name (Some arg) check
  end.

(** The written equation is an equation: its sides evaluate and have the same
    dimension (units of proper shape). *)
Definition well_formed_eq (h : heap) (q : ueq loc) : Prop :=
  match q with
  | UResid e => exists n, build h e = Ok n
  | UElem l r => exists a b, build h l = Ok a /\ build h r = Ok b /\
                   comparable (nd_unit a) (nd_unit b) /\ same_dimension (nd_unit a) (nd_unit b)
  | UElemN l _ => exists a, build h l = Ok a /\ comparable (nd_unit a) (nd_unit a)
  end.

(** Every quantity of the equation is declared, by name, in the model. *)
Definition uses_declared (w : mworld) (q : ueq loc) : Prop :=
  forall l o, eq_occurs l q -> hget (w_heap w) l = Some o -> In (q_name o) (declared (w_mod w)).

(** Statements that check the equations they declare. *)
Definition checked (c : cmd) : bool := match c with CEq _ _ _ b => b | _ => true end.

(** Symbols of all stored equations are declared names. *)
Definition own_equations (m : mstate) : Prop :=
  forall k e, In (k, e) (m_eqs m) ->
    exists n, eq_expr e = Some n /\ incl (fsyms (nd_sym n)) (declared m) /\
              exists d, eq_objs e = Some d /\ incl (dkeys d) (declared m).

(** No underscore in a name. *)
Fixpoint no_underscore (s : string) : Prop :=
  match s with
  | EmptyString => True
  | String c r => c <> "_"%char /\ no_underscore r
  end.
