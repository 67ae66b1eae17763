(** Specification vocabulary for printed units, reports, tables and plots
    (C59-C63). *)
From Verif Require Import Base Num UnitModel Sympy Node Build EquationModel ModelModel ProblemModel SolverModel DomainModel SimModel
  ReportModel SpecUnits SpecExpr SpecModel SpecProblem SpecSolver.
From Coq Require Import Reals.
Notation num := Verif.Num.num.

(** ** Units *)
Definition si_names : list string := ["m"; "kg"; "s"; "A"; "K"; "mol"; "cd"].
Definition si_only (u : unit) : Prop := forall k, exponent u k <> None -> In k si_names.
(** All exponents are of type int. *)
Definition whole (u : unit) : Prop := forall k x, exponent u k = Some x -> exists z, x = PInt z.
(** Numbers of different value print differently, and without blanks. *)
Definition honest_print (pn : num -> string) : Prop :=
  (forall x y r s, nvalue x r -> nvalue y s -> pn x = pn y -> r = s) /\ forall x, has_char " " (pn x) = false.

(** ** Reports *)
(** Object [q] is one of the objects of the equation. *)
Definition uses_object (h : heap) (e : eqn) (q : qty) : Prop :=
  exists d k l, eq_objs e = Some d /\ In (k, l) d /\ hget h l = Some q.
(** The name, marked if the object has a value. *)
Definition starred (q : qty) : string := if q_spec q then (q_name q ++ "(*)")%string else q_name q.

Definition class_word (c : option eclass) : string :=
  match c with
  | Some CLinear => "linear"
  | Some CNonlinear => "nonlinear"
  | Some CDifferential => "differential"
  | None => "none"
  end.

(** The row is about the equation: its name, the names of its variables, its
    parameters and constants with marks, its class. *)
Record describes (h : heap) (e : eqn) (r : rrow) : Prop := mkDescribes {
  ds_name : r_name r = eq_name e;
  ds_repr : exists n, eq_expr e = Some n /\ r_repr r = Some (nd_repr n);
  ds_vars : NoDup (r_vars r) /\ forall x, In x (r_vars r) <-> exists q, uses_object h e q /\ q_kind q = KVariable /\ q_name q = x;
  ds_pars : forall x, In x (r_pars r) <-> exists q, uses_object h e q /\ q_kind q = KParameter /\ starred q = x;
  ds_cons : forall x, In x (r_cons r) <-> exists q, uses_object h e q /\ q_kind q = KConstant /\ starred q = x;
  ds_type : r_type r = class_word (eq_type e) }.

(** Later states: quantities keep name and class. *)
Definition keeps_objects (h h' : heap) : Prop :=
  forall l q, hget h l = Some q -> exists q', hget h' l = Some q' /\ q_name q' = q_name q /\ q_kind q' = q_kind q.

(** ** Results *)
Definition proper_units (h : heap) : Prop := forall l q, hget h l = Some q -> a_unit (q_units q).

(** A row of the table of results: the value with the unit of the variable. *)
Definition states_value (pn : num -> string) (h : heap) (b : block) (xv : string * num) (r : string * string * num) : Prop :=
  exists l q, dget (fst xv) (b_vars b) = Some l /\ hget h l = Some q /\ q_kind q = KVariable /\ q_name q = fst xv /\
    r = (fst xv, snd (fst r), snd xv) /\ unit_str pn (q_units q) = Ok (snd (fst r)).

(** ** Residuals *)
(** The row has the name of the equation and the value of its residual at the
    results. *)
Definition states_residual (en : env) (e : eqn) (r : string * option R) : Prop :=
  fst r = eq_name e /\ exists n, eq_expr e = Some n /\ snd r = den (nd_sym n) en.

(** ** Plots *)
Definition is_curve {V} (x y : list V) (label : string) (c : curve V) : Prop :=
  cu_x c = x /\ cu_y c = y /\ cu_label c = label.
