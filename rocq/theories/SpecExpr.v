(** Specifications for written expressions, independent of how the operators
    compute: arithmetic meaning, dimensional analysis, affine functions. *)
From Verif Require Import Base Num NumFacts UnitModel UnitFacts Sympy Node Build.
From Coq Require Import Reals.
From Flocq Require Import Core.
Notation num := Verif.Num.num.
Open Scope Z_scope.

(** ** Arithmetic meaning *)

(** Values of the quantities and of the derivatives between quantities. *)
Record valuation := mkVal { v_q : loc -> R; v_d : loc -> loc -> R }.

(** A specified quantity stands for its value, an unspecified one is free. *)
Definition qty_meaning (h : heap) (v : valuation) (l : loc) : option R :=
  match hget h l with
  | None => None
  | Some q => if q_spec q then num_value (q_value q) else Some (v_q v l)
  end.

(** The derivative of a specified (constant) quantity is zero. *)
Definition der_meaning (h : heap) (v : valuation) (l : loc) (t : option loc) : option R :=
  match hget h l with
  | None => None
  | Some q => if q_spec q then Some 0%R
              else Some (v_d v l (match t with Some i => i | None => l end))
  end.

(** Ordinary arithmetic on possibly undefined values. *)
Definition arith (o : bop) (a b : option R) : option R :=
  match a, b with
  | Some x, Some y =>
      match o with
      | BAdd => Some (x + y)%R
      | BSub => Some (x - y)%R
      | BMul => Some (x * y)%R
      | BDiv => if Req_EM_T y 0 then None else Some (x / y)%R
      | BPow => rpow x y
      end
  | _, _ => None
  end.

Definition pick (mx : bool) (x y : R) : R := if mx then Rmax x y else Rmin x y.

(** Least or greatest of a list of values; none if one is undefined or the list is
    empty. *)
Fixpoint extremum (mx : bool) (l : list (option R)) : option R :=
  match l with
  | [] => None
  | [a] => a
  | a :: r => match a, extremum mx r with
              | Some x, Some y => Some (pick mx x y)
              | _, _ => None
              end
  end.

Fixpoint meaning (h : heap) (v : valuation) (e : uexpr loc) : option R :=
  match e with
  | UQty l => qty_meaning h v l
  | UBin o a b => arith o (meaning h v a) (meaning h v b)
  | UNumR o a k => arith o (meaning h v a) (num_value k)
  | UNumL o k a => arith o (num_value k) (meaning h v a)
  | UFun f a => match meaning h v a with Some x => fn_value f x | None => None end
  | UFunN f k => match num_value k with Some x => fn_value f x | None => None end
  | UDiff l t => der_meaning h v l t
  | UMinMax mx l => extremum mx (meanings h v l)
  end
with meanings (h : heap) (v : valuation) (l : uargs loc) : list (option R) :=
  match l with
  | ANil => []
  | AExpr e r => meaning h v e :: meanings h v r
  | ANum k r => num_value k :: meanings h v r
  end.

(** [env] gives every unspecified quantity (by name) the value [v] gives it. *)
Definition env_for (h : heap) (v : valuation) (en : env) : Prop :=
  (forall l q, hget h l = Some q -> q_spec q = false -> e_sym en (q_name q) = v_q v l) /\
  (forall l q i p, hget h l = Some q -> q_spec q = false -> hget h i = Some p -> q_spec p = false ->
     e_der en (q_name q) (q_name p) = v_d v l i).

(** [env] gives every specified quantity its value and derivative zero. *)
Definition env_specified (h : heap) (en : env) : Prop :=
  forall l q, hget h l = Some q -> q_spec q = true ->
    num_value (q_value q) = Some (e_sym en (q_name q)) /\
    forall t, e_der en (q_name q) t = 0%R.

(** ** Occurrences *)

(** Quantities written in the expression, derivatives counting the
    differentiated variable. *)
Fixpoint occurs (l : loc) (e : uexpr loc) : Prop :=
  match e with
  | UQty x => x = l
  | UBin _ a b => occurs l a \/ occurs l b
  | UNumR _ a _ | UNumL _ _ a | UFun _ a => occurs l a
  | UFunN _ _ => False
  | UDiff x _ => x = l
  | UMinMax _ r => occurs_args l r
  end
with occurs_args (l : loc) (r : uargs loc) : Prop :=
  match r with
  | ANil => False
  | AExpr e r => occurs l e \/ occurs_args l r
  | ANum _ r => occurs_args l r
  end.

(** The same, counting also the variable a derivative is taken with respect to. *)
Fixpoint mentions (l : loc) (e : uexpr loc) : Prop :=
  match e with
  | UQty x => x = l
  | UBin _ a b => mentions l a \/ mentions l b
  | UNumR _ a _ | UNumL _ _ a | UFun _ a => mentions l a
  | UFunN _ _ => False
  | UDiff x t => x = l \/ t = Some l
  | UMinMax _ r => mentions_args l r
  end
with mentions_args (l : loc) (r : uargs loc) : Prop :=
  match r with
  | ANil => False
  | AExpr e r => mentions l e \/ mentions_args l r
  | ANum _ r => mentions_args l r
  end.

(** Distinct quantities have distinct names. *)
Definition distinct_names (h : heap) : Prop :=
  forall l l' q q', hget h l = Some q -> hget h l' = Some q' -> q_name q = q_name q' -> l = l'.

(** ** Dimensional analysis, over whole-number exponents *)
Definition dim := string -> Z.

(** The dimension of an expression by the rules of dimensional analysis (a sum
    has the dimension of its left operand, a function value and a power with an
    expression exponent have none).  [whole k] is the whole number [k] stands
    for. *)
Section Dim.
Variable qdim : loc -> dim.          (* dimension of every quantity *)
Variable K : list string.            (* dimension names *)
Variable whole : num -> Z.

Fixpoint dimension (e : uexpr loc) : dim :=
  match e with
  | UQty l => qdim l
  | UBin BAdd a _ | UBin BSub a _ => dimension a
  | UBin BMul a b => fun k => dimension a k + dimension b k
  | UBin BDiv a b => fun k => dimension a k - dimension b k
  | UBin BPow _ _ => fun _ => 0
  | UNumR BPow a p => fun k => dimension a k * whole p
  | UNumR _ a _ => dimension a
  | UNumL BDiv _ a => fun k => - dimension a k
  | UNumL BPow _ _ => fun _ => 0
  | UNumL _ _ a => dimension a
  | UFun _ _ | UFunN _ _ => fun _ => 0
  | UDiff l t => match t with Some i => fun k => qdim l k - qdim i k | None => fun _ => 0 end
  | UMinMax _ l => arg_dimension l
  end
with arg_dimension (l : uargs loc) : dim :=
  match l with
  | ANil => fun _ => 0
  | AExpr e _ => dimension e
  | ANum _ r => arg_dimension r
  end.

Definition dimless_dim (d : dim) : Prop := forall k, In k K -> d k = 0.
Definition same_dim (d d' : dim) : Prop := forall k, In k K -> d k = d' k.

(** Dimensional homogeneity.  [strict]: a bare number added to an expression is
    dimensionless; otherwise it takes the dimension of the expression. *)
Fixpoint homogeneous (strict : bool) (e : uexpr loc) : Prop :=
  match e with
  | UQty _ | UFunN _ _ | UDiff _ _ => True
  | UBin o a b =>
      homogeneous strict a /\ homogeneous strict b /\
      match o with
      | BAdd | BSub => same_dim (dimension a) (dimension b)
      | BMul | BDiv => True
      | BPow => dimless_dim (dimension a) /\ dimless_dim (dimension b)
      end
  | UNumR o a _ | UNumL o _ a =>
      homogeneous strict a /\
      match o with
      | BAdd | BSub => strict = true -> dimless_dim (dimension a)
      | _ => True
      end
  | UFun _ a => homogeneous strict a /\ dimless_dim (dimension a)
  | UMinMax _ l => homogeneous_args strict l (arg_dimension l)
  end
with homogeneous_args (strict : bool) (l : uargs loc) (d : dim) : Prop :=
  match l with
  | ANil => True
  | AExpr e r => homogeneous strict e /\ same_dim (dimension e) d /\ homogeneous_args strict r d
  | ANum _ r => (strict = true -> dimless_dim d) /\ homogeneous_args strict r d
  end.
End Dim.

(** ** Affine functions *)

(** A weighted sum of symbol values. *)
Fixpoint lincomb (cs : list (string * R)) (en : env) : R :=
  match cs with
  | [] => 0%R
  | (x, c) :: r => (c * e_sym en x + lincomb r en)%R
  end.

(** The value is undefined everywhere, or a constant plus a weighted sum of
    the symbols, everywhere. *)
Definition affine (f : env -> option R) : Prop :=
  (forall en, f en = None) \/
  exists (c0 : R) (cs : list (string * R)), forall en, f en = Some (c0 + lincomb cs en)%R.

(** ** Derivatives and unknowns in written expressions *)

(** Contains the derivative of an unspecified variable. *)
Fixpoint has_derivative (h : heap) (e : uexpr loc) : bool :=
  match e with
  | UQty _ | UFunN _ _ => false
  | UBin _ a b => has_derivative h a || has_derivative h b
  | UNumR _ a _ | UNumL _ _ a | UFun _ a => has_derivative h a
  | UDiff l _ => match hget h l with Some q => negb (q_spec q) | None => false end
  | UMinMax _ l => has_derivative_args h l
  end
with has_derivative_args (h : heap) (l : uargs loc) : bool :=
  match l with
  | ANil => false
  | AExpr e r => has_derivative h e || has_derivative_args h r
  | ANum _ r => has_derivative_args h r
  end.

(** Contains an unspecified quantity. *)
Fixpoint has_unknown (h : heap) (e : uexpr loc) : bool :=
  match e with
  | UQty l | UDiff l _ => match hget h l with Some q => negb (q_spec q) | None => false end
  | UFunN _ _ => false
  | UBin _ a b => has_unknown h a || has_unknown h b
  | UNumR _ a _ | UNumL _ _ a | UFun _ a => has_unknown h a
  | UMinMax _ l => has_unknown_args h l
  end
with has_unknown_args (h : heap) (l : uargs loc) : bool :=
  match l with
  | ANil => false
  | AExpr e r => has_unknown h e || has_unknown_args h r
  | ANum _ r => has_unknown_args h r
  end.
