(** Specification vocabulary: values of written equations (C85). *)
From Verif Require Import Base Num UnitModel Sympy Node Build EquationModel EqValueModel SpecExpr.
From Coq Require Import Reals.
Notation num := Verif.Num.num.

(** The expressions of the equation, or of a side of it; an equation written as a
    residual has no sides. *)
Definition parts (q : ueq loc) (s : option eside) : option (list (uexpr loc)) :=
  match q, s with
  | UResid x, None => Some [x]
  | UResid _, Some _ => None
  | UElem l r, None => Some [l; r]
  | UElem l _, Some SLhs => Some [l]
  | UElem _ r, Some SRhs => Some [r]
  | UElemN l _, None => Some [l]
  | UElemN l _, Some SLhs => Some [l]
  | UElemN _ _, Some SRhs => Some []
  end.
(** Their value: of the equation, the left side less the right side. *)
Definition amount (h : heap) (v : valuation) (q : ueq loc) (s : option eside) : option R :=
  match q, s with
  | UResid x, _ => meaning h v x
  | UElem l r, None => arith BSub (meaning h v l) (meaning h v r)
  | UElem l _, Some SLhs => meaning h v l
  | UElem _ r, Some SRhs => meaning h v r
  | UElemN l k, None => arith BSub (meaning h v l) (num_value k)
  | UElemN l _, Some SLhs => meaning h v l
  | UElemN _ k, Some SRhs => num_value k
  end.

(** The quantity [p] at [l] is written in [ps] and was given no value. *)
Definition open_in (h : heap) (ps : list (uexpr loc)) (l : loc) (p : qty) : Prop :=
  (exists x, In x ps /\ occurs l x) /\ hget h l = Some p /\ q_spec p = false.
(** [v] gives the quantities the numbers of the map, and otherwise what [en] says. *)
Definition valued (h : heap) (ps : list (uexpr loc)) (m : dict mval) (en : env) (v : valuation) : Prop :=
  forall l p, open_in h ps l p ->
    match dget (q_name p) m with Some (MNum k) => num_value k = Some (v_q v l) | _ => v_q v l = e_sym en (q_name p) end.
(** A map of finite numbers. *)
Definition of_numbers (m : dict mval) : Prop := forall x a, In (x, a) m -> exists k, a = MNum k /\ num_value k <> None.

(** What is returned, when the symbols left in it have the values [en]. *)
Definition worth (r : evald) (en : env) : option R := match r with EVal o => o | EPart s => den s en end.
Definition is_value (r : evald) : Prop := match r with EVal _ => True | EPart _ => False end.

(** The values of the quantities now, whether they were given or not. *)
Definition at_present (h : heap) (v : valuation) : Prop :=
  forall l p, hget h l = Some p -> num_value (q_value p) = Some (v_q v l).
