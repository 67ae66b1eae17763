(** Specification vocabulary for solver runs and recorded results. *)
From Verif Require Import Base Num UnitModel Sympy Node Build EquationModel ModelModel ProblemModel SpecExpr SpecProblem DomainModel SolverModel.
From Coq Require Import Reals.
Notation num := Verif.Num.num.

(** ** Algebraic results *)

(** [out] gives the [i]-th name the [i]-th value, every name once. *)
Definition labelled {V} (names : list string) (x : list V) (out : dict V) : Prop :=
  dkeys out = names /\ forall i v, nth_error names i = Some v -> dget v out = nth_error x i.

(** The values of [d] in the order of the names. *)
Definition in_order {V} (names : list string) (d : dict V) (x : list V) : Prop :=
  List.length x = List.length names /\ forall i v, nth_error names i = Some v -> nth_error x i = dget v d.

(** The equation holds: its residual (C17: left minus right) has value 0. *)
Definition holds (en : env) (e : eqn) : Prop :=
  exists n, eq_expr e = Some n /\ den (nd_sym n) en = Some 0%R.

(** Every expression handed to the solver is zero. *)
Definition solved (en : env) (b : block) : Prop := forall x, In x (b_exprs b) -> den x en = Some 0%R.

(** Values by name as an environment. *)
Definition assigns (out : dict R) (en : env) : Prop := forall x r, dget x out = Some r -> e_sym en x = r.

(** ** Differential equations *)

(** The equation [x.Diff(t) == r] as stored. *)
Definition explicit (t : string) (e : eqn) (xr : string * sx) : Prop :=
  exists a c n, eq_elementary e = true /\ eq_elem e = Some (a, c) /\ nd_sym a = SDer (fst xr) t /\
    dkeys (nd_smap a) = [fst xr] /\ nd_sym c = snd xr /\
    eq_expr e = Some n /\ nd_sym n = SSub (SDer (fst xr) t) (snd xr).

(** Time occurs in a right-hand side. *)
Definition uses_time (t : string) (ode : list (string * sx)) : Prop := exists x r, In (x, r) ode /\ In t (fsyms r).

(** Right-hand sides over the differentiated variables and time. *)
Definition closed_system (t : string) (ode : list (string * sx)) : Prop :=
  NoDup (map fst ode) /\ ~ In t (map fst ode) /\
  forall x r, In (x, r) ode -> incl (fsyms r) (t :: map fst ode) /\ der_free r = true /\ readable t r /\ r <> SSym t.

(** The environment has the values [Y] for the differentiated variables, in the
    order of the equations, and [tau] for time. *)
Definition state_of (t : string) (ode : list (string * sx)) (Y : list R) (tau : R) (en : env) : Prop :=
  List.length Y = List.length ode /\
  (forall j x r, nth_error ode j = Some (x, r) -> nth_error Y j = Some (e_sym en x)) /\ e_sym en t = tau.

(** The unknowns are the differentiated variables, and time if it is used. *)
Definition ode_unknowns (t : string) (ode : list (string * sx)) (vars : list string) : Prop :=
  NoDup vars /\ forall x, In x vars <-> In x (map fst ode) \/ (x = t /\ uses_time t ode).

(** The environment has derivative [D] for the differentiated variables. *)
Definition derivative_of (t : string) (ode : list (string * sx)) (D : list (option R)) (en : env) : Prop :=
  forall j x r, nth_error ode j = Some (x, r) -> nth_error D j = Some (Some (e_der en x t)).

(** Numbers and names do not print as "Derivative". *)
Definition plain_print (pn : num -> string) (s : sx) : Prop :=
  (forall n, str_contains "Derivative" (pn n) = false) /\ forall y, In y (fsyms s) -> str_contains "Derivative" y = false.

(** An expression without derivative, nor a name that reads as one. *)
Definition quiet (pn : num -> string) (s : sx) : Prop := der_free s = true /\ plain_print pn s.
(** A sum with the derivative of [x] by [t] once among its terms, as it is or with a
    minus, and no other derivative. *)
Inductive with_rate (pn : num -> string) (x t : string) : sx -> Prop :=
| rate_itself : with_rate pn x t (SDer x t)
| rate_negated : with_rate pn x t (SMul (SNum (PInt (-1))) (SDer x t))
| rate_turned : with_rate pn x t (SMul (SDer x t) (SNum (PInt (-1))))
| rate_add_l : forall a b, with_rate pn x t a -> quiet pn b -> with_rate pn x t (SAdd a b)
| rate_add_r : forall a b, quiet pn a -> with_rate pn x t b -> with_rate pn x t (SAdd a b)
| rate_sub_l : forall a b, with_rate pn x t a -> quiet pn b -> with_rate pn x t (SSub a b)
| rate_sub_r : forall a b, quiet pn a -> with_rate pn x t b -> with_rate pn x t (SSub a b).
(** The residual of the equation is such a sum, not the derivative alone, and is zero
    only where the derivative is worth [r]. *)
Definition residual_ode (pn : num -> string) (e : eqn) (xtr : string * string * sx) : Prop :=
  let '(x, t, r) := xtr in
  exists n, eq_expr e = Some n /\ with_rate pn x t (nd_sym n) /\
    (exists a b, nd_sym n = SAdd a b \/ nd_sym n = SSub a b) /\
    forall en, den (nd_sym n) en = Some 0%R -> den r en = Some (e_der en x t).

(** State components by position: unknown [i] is [y[i]] and its derivative [yd[i]]. *)
Definition paired (vars : list string) (y yd : list R) (en : env) : Prop :=
  List.length y = List.length vars /\ List.length yd = List.length vars /\
  forall i x, nth_error vars i = Some x ->
    nth_error y i = Some (e_sym en x) /\ forall t, nth_error yd i = Some (e_der en x t).

(** ** Tables *)

(** A domain without data: one empty table, of all names, for each independent
    variable. *)
Definition cleared {V} (d : domain V) : Prop :=
  exists t, d_values d = Some t /\ dkeys t = d_ind d /\
    forall k f, In (k, f) t -> f = mkF (map LName (d_ind d ++ d_dep d)) [].

(** What is done with a domain. *)
Inductive dact (V : Type) := DDist (x : string) | DReset | DRegister (m : matrix V) | DRename (m : dict string).
Arguments DDist {V}. Arguments DReset {V}. Arguments DRegister {V}. Arguments DRename {V}.
Definition do_dact {V} (d : domain V) (a : dact V) : domain V :=
  match a with
  | DDist x => distribute d x
  | DReset => reset d
  | DRegister m => fst (register d m)
  | DRename m => match rename_headers m d with Ok d' => d' | Raise _ => d end
  end.
Definition run_dacts {V} (d : domain V) (l : list (dact V)) : domain V := fold_left do_dact l d.

(** The header of [x] after renaming by a dictionary. *)
Definition header (names : dict string) (x : string) : string := match dget x names with Some y => y | None => x end.

(** [col] is component [j] of the rows. *)
Definition trajectory {V} (j : nat) (rows : list (list V)) (col : list V) : Prop :=
  Forall2 (fun r v => nth_error r j = Some v) rows col.

(** State components as they are used: unknown [i] is [y[i]], and the derivative of
    the [k]-th differential equation is [yd[k]]. *)
Definition by_equation (vars : list string) (dae : list (string * string * sx)) (y yd : list R) (en : env) : Prop :=
  List.length y = List.length vars /\ (List.length dae <= List.length yd)%nat /\
  (forall i x, nth_error vars i = Some x -> nth_error y i = Some (e_sym en x)) /\
  (forall k x t r, nth_error dae k = Some (x, t, r) -> nth_error yd k = Some (e_der en x t)).

(** Residuals over the unknowns and the derivatives of the differential equations. *)
Definition closed_dae (b : block) (dae : list (string * string * sx)) : Prop :=
  NoDup (b_varlist b) /\ NoDup (map fst dae) /\
  forall e, In e (b_eqs b) -> exists n, eq_expr e = Some n /\ incl (plain_syms (nd_sym n)) (b_varlist b) /\
    incl (ders (nd_sym n)) (map fst dae).

(** The values of the residuals. *)
Definition residual_values (en : env) (es : list eqn) (vs : list (option R)) : Prop :=
  Forall2 (fun e v => exists n, eq_expr e = Some n /\ v = den (nd_sym n) en) es vs.

(** Each name once, in the order of first occurrence. *)
Fixpoint once (l : list string) : list string :=
  match l with
  | [] => []
  | x :: r => x :: filter (fun y => negb (String.eqb x y)) (once r)
  end.
(** Names distributed on the domain. *)
Definition distributed {V} (l : list (dact V)) : list string :=
  once (flat_map (fun a => match a with DDist x => [x] | _ => [] end) l).
