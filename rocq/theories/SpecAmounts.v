(** Spec vocabulary: what a written expression comes to, as a relation that names
    none of the functions used to evaluate expressions (C09). *)
From Verif Require Import Base Num UnitModel Sympy Node Build EquationModel ModelModel ProblemModel SpecExpr SpecModel SpecProblem SolverModel SpecSolver SpecWritten.
From Coq Require Import Reals SpecFloat.
Notation num := Verif.Num.num.
Open Scope R_scope.

(** The real number a Python number is; infinities and NaN are none. *)
Definition number_is (n : num) (r : R) : Prop :=
  match n with
  | PInt z => r = IZR z
  | PFloat (S754_zero _) => r = 0
  | PFloat (S754_finite s m e) => r = (if s then -1 else 1) * IZR (Zpos m) * powerRZ 2 e
  | PFloat _ => False
  end.

(** Functions as their graphs: a logarithm by the power it is the exponent of, a
    root by its square, a tangent by sine and cosine. *)
Definition fn_graph (f : fn) (x y : R) : Prop :=
  match f with
  | FLog => exp y = x
  | FLog10 => Rpower 10 y = x
  | FSqrt => 0 <= y /\ y * y = x
  | FAbs => 0 <= y /\ (y = x \/ y = - x)
  | FExp => y = exp x
  | FSin => y = sin x
  | FCos => y = cos x
  | FTan => cos x <> 0 /\ y * cos x = sin x
  end.

(** Powers: repeated products, their inverses, real exponents of positive bases,
    positive exponents of zero. *)
Definition power_is (x y z : R) : Prop :=
  (exists n : nat, y = INR n /\ z = x ^ n) \/
  (exists n : nat, y = - INR n /\ x <> 0 /\ z * x ^ n = 1) \/
  (0 < x /\ exists l, exp l = x /\ z = exp (y * l)) \/
  (x = 0 /\ 0 < y /\ z = 0).

Definition op_is (o : bop) (x y z : R) : Prop :=
  match o with
  | BAdd => z = x + y
  | BSub => z + y = x
  | BMul => z = x * y
  | BDiv => y <> 0 /\ z * y = x
  | BPow => power_is x y z
  end.

(** [y] is the greatest, or the least, of [ys]. *)
Definition extreme (mx : bool) (ys : list R) (y : R) : Prop :=
  In y ys /\ forall x, In x ys -> if mx then x <= y else y <= x.

(** What an expression comes to, from what its quantities and its rates are; it
    need not come to anything. *)
Inductive comes_to {A} (is : A -> R -> Prop) (rate : A -> A -> R -> Prop) : uexpr A -> R -> Prop :=
| ct_qty a y : is a y -> comes_to is rate (UQty a) y
| ct_bin o a b x y z : comes_to is rate a x -> comes_to is rate b y -> op_is o x y z -> comes_to is rate (UBin o a b) z
| ct_right o a k x y z : comes_to is rate a x -> number_is k y -> op_is o x y z -> comes_to is rate (UNumR o a k) z
| ct_left o k a x y z : number_is k x -> comes_to is rate a y -> op_is o x y z -> comes_to is rate (UNumL o k a) z
| ct_fun f a x y : comes_to is rate a x -> fn_graph f x y -> comes_to is rate (UFun f a) y
| ct_fun_number f k x y : number_is k x -> fn_graph f x y -> comes_to is rate (UFunN f k) y
| ct_rate a t y : rate a t y -> comes_to is rate (UDiff a (Some t)) y
| ct_rate_self a y : rate a a y -> comes_to is rate (UDiff a None) y
| ct_best mx l ys y : come_to is rate l ys -> extreme mx ys y -> comes_to is rate (UMinMax mx l) y
with come_to {A} (is : A -> R -> Prop) (rate : A -> A -> R -> Prop) : uargs A -> list R -> Prop :=
| cs_nil : come_to is rate ANil []
| cs_expr e r y ys : comes_to is rate e y -> come_to is rate r ys -> come_to is rate (AExpr e r) (y :: ys)
| cs_num k r y ys : number_is k y -> come_to is rate r ys -> come_to is rate (ANum k r) (y :: ys).

(** A set quantity is its value, another what [v] says; the derivative of a set
    quantity is zero. *)
Definition qty_is (h : heap) (v : valuation) (l : loc) (y : R) : Prop :=
  exists q, hget h l = Some q /\ if q_spec q then number_is (q_value q) y else y = v_q v l.
Definition qty_rate (h : heap) (v : valuation) (l t : loc) (y : R) : Prop :=
  exists q, hget h l = Some q /\ y = if q_spec q then 0 else v_d v l t.
Definition amounts_to (h : heap) (v : valuation) : uexpr loc -> R -> Prop := comes_to (qty_is h v) (qty_rate h v).

(** The same for the attributes of a script. *)
Definition thing_is (D : dict thing) (en : env) (a : string) (y : R) : Prop :=
  exists t, dget a D = Some t /\ if th_set t then number_is (th_value t) y else y = e_sym en (th_name t).
Definition thing_rates (D : dict thing) (en : env) (a b : string) (y : R) : Prop :=
  exists t s, dget a D = Some t /\ dget b D = Some s /\ y = if th_set t then 0 else e_der en (th_name t) (th_name s).
Definition reads_as (D : dict thing) (en : env) : uexpr string -> R -> Prop := comes_to (thing_is D en) (thing_rates D en).

(** What the residual of a written equation comes to. *)
Definition leaves (D : dict thing) (en : env) (q : ueq string) (y : R) : Prop :=
  match q with
  | UResid e => reads_as D en e y
  | UElem l r => exists a b, reads_as D en l a /\ reads_as D en r b /\ y + b = a
  | UElemN l k => exists a b, reads_as D en l a /\ number_is k b /\ y + b = a
  end.
