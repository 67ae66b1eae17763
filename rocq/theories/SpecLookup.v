(** Specification vocabulary for numbers with units and for looking up parameters. *)
From Verif Require Import Base Num UnitModel Sympy Node EquationModel ModelModel ProblemModel SimModel SpecUnits SpecProblem SpecCall.
From Coq Require Import Reals.
Notation num := Verif.Num.num.

(** [n*u] and [u/n] as written by a user, [u * n] and [u / n]: a plain Quantity
    without name, unspecified (unit.py lines 206 and 299). *)
Definition literal (u : unit) (n : num) : qty := mkQty KQuantity "" u n false "" false "" false.

(** Two units a user cannot tell apart by their dimensions. *)
Definition same_exponents (u v : unit) : Prop := forall k, exponent u k = exponent v k.

(** The object at [l] is among the quantities of the expression of [e]. *)
Definition refers (e : eqn) (l : loc) : Prop :=
  exists n k, eq_expr e = Some n /\ (In (k, l) (nd_smap n) \/ In (k, l) (nd_vmap n)).

(** A Parameter named [x] is among the objects of the equation. *)
Definition uses_parameter (h : heap) (x : string) (e : eqn) : Prop :=
  exists d k l q, eq_objs e = Some d /\ In (k, l) d /\ hget h l = Some q /\ q_kind q = KParameter /\ q_name q = x.

(** The script declares an equation stored under [k]. *)
Definition declares (name : string) (d : decls) (k : string) : Prop :=
  In k (dkeys (m_eqs (w_mod (fst (model_call d (mkW [] (fun _ => 0%nat) (new_model name))))))).

(** Some model had a parameter named [x] when it was added. *)
Definition parameter_when_added (acts : list act) (x : string) : Prop :=
  exists before i after m, acts = before ++ AAdd i :: after /\
    model_of (run_acts start_session before) i = Some m /\ In x (dkeys (m_pars m)).

(** A simulation of the problem, in any configuration and with any results. *)
Definition sim_over (p : problem) (c : option (dict cval)) (o : option sout) (d : cval) (st : option nat) : SimModel.sim :=
  SimModel.mkSim (Some p) c o d st.
