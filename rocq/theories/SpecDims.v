(** Hypotheses of the dimension, covariance and classification theorems. *)
From Verif Require Import Base Num NumFacts UnitModel UnitFacts Sympy Node Build SpecExpr.
From Coq Require Import Reals.
From Flocq Require Import Core.
Notation num := Verif.Num.num.
Open Scope Z_scope.

Section Fragment.
Variable w : world.                  (* int exponents of any size, or |z| <= 2^53 *)
Variable K : list string.            (* dimension names *)
Variable qdim : loc -> dim.
Variable whole : num -> Z.
Variable h : heap.

Definition in_range (d : dim) : Prop := forall k, In k K -> okz w (d k).

(** A power [p] on something of dimension [d]: a whole number, or any finite
    float on something dimensionless. *)
Definition power_ok (p : num) (d : dim) : Prop :=
  nrep w p (whole p) \/
  (w = WSmall /\ is_pint p = false /\ (exists r, num_value p = Some r) /\ dimless_dim K d).

(** The expression uses existing quantities, derivatives of distributed
    Variables with respect to unspecified quantities, whole powers, expression
    exponents only on dimensionless bases, functions of expressions, no Min or
    Max; all its dimensions stay in range. *)
Fixpoint plain (e : uexpr loc) : Prop :=
  in_range (dimension qdim whole e) /\
  match e with
  | UQty l => exists q, hget h l = Some q
  | UBin BPow a b => plain a /\ plain b /\ dimless_dim K (dimension qdim whole a)
  | UBin _ a b => plain a /\ plain b
  | UNumR BPow a p => plain a /\ power_ok p (dimension qdim whole a)
  | UNumR _ a _ => plain a
  | UNumL BPow _ _ => False
  | UNumL _ _ a => plain a
  | UFun _ a => plain a
  | UFunN _ _ => False
  | UDiff l t => (exists q, hget h l = Some q /\ q_kind q = KVariable /\ q_domain q = true) /\
                 (exists i p, t = Some i /\ hget h i = Some p /\ q_spec p = false)
  | UMinMax _ _ => False
  end.

(** Bare numbers are added only if they are zero. *)
Fixpoint no_added_number (e : uexpr loc) : Prop :=
  match e with
  | UQty _ | UFunN _ _ | UDiff _ _ => True
  | UBin _ a b => no_added_number a /\ no_added_number b
  | UNumR o a k | UNumL o k a =>
      no_added_number a /\
      match o with BAdd | BSub => num_value k = Some 0%R | _ => True end
  | UFun _ a => no_added_number a
  | UMinMax _ _ => True
  end.

(** Every quantity's unit has the whole-number exponents [qdim]. *)
Definition units_are : Prop := forall l q, hget h l = Some q -> urep w K (q_units q) (qdim l).
End Fragment.

(** Conversion factor of dimension [d] when base unit [k] is [lam k] new units. *)
Fixpoint factor (lam : string -> R) (K : list string) (d : dim) : R :=
  match K with
  | [] => 1%R
  | k :: r => (Rpower (lam k) (IZR (d k)) * factor lam r d)%R
  end.

(** [en'] is [en] expressed in the new base units. *)
Definition rescaled (lam : string -> R) (K : list string) (qdim : loc -> dim) (h : heap) (en en' : env) : Prop :=
  (forall l q, hget h l = Some q ->
     e_sym en' (q_name q) = (factor lam K (qdim l) * e_sym en (q_name q))%R) /\
  (forall l q i p, hget h l = Some q -> hget h i = Some p ->
     e_der en' (q_name q) (q_name p) =
     (factor lam K (fun k => (qdim l k - qdim i k)%Z) * e_der en (q_name q) (q_name p))%R).

(** No quotient of a known by an unknown, no Min or Max of an unknown. *)
Fixpoint no_hidden_nonlinearity (h : heap) (e : uexpr loc) : bool :=
  match e with
  | UQty _ | UFunN _ _ | UDiff _ _ => true
  | UBin o a b =>
      no_hidden_nonlinearity h a && no_hidden_nonlinearity h b &&
      match o with BDiv => has_unknown h a || negb (has_unknown h b) | _ => true end
  | UNumR _ a _ | UNumL _ _ a | UFun _ a => no_hidden_nonlinearity h a
  | UMinMax _ l => negb (has_unknown_args h l)
  end.

(** Derivatives only of unspecified variables, not inside functions, Min, Max
    or exponents, and multiplied or divided only by things without unknowns. *)
Fixpoint derivatives_outside (h : heap) (e : uexpr loc) : bool :=
  match e with
  | UQty _ | UFunN _ _ => true
  | UDiff l _ => match hget h l with Some q => negb (q_spec q) | None => true end
  | UBin o a b =>
      derivatives_outside h a && derivatives_outside h b &&
      match o with
      | BMul | BDiv => negb (has_derivative h a || has_derivative h b) ||
                       negb (has_unknown h a && has_unknown h b)
      | BPow => negb (has_derivative h b)
      | _ => true
      end
  | UNumR _ a _ | UNumL _ _ a => derivatives_outside h a
  | UFun _ a => derivatives_outside h a && negb (has_derivative h a)
  | UMinMax _ l => negb (has_derivative_args h l)
  end.

(** Derivatives are taken of unspecified variables only. *)
Fixpoint derivatives_unspecified (h : heap) (e : uexpr loc) : bool :=
  match e with
  | UQty _ | UFunN _ _ => true
  | UDiff l _ => match hget h l with Some q => negb (q_spec q) | None => true end
  | UBin _ a b => derivatives_unspecified h a && derivatives_unspecified h b
  | UNumR _ a _ | UNumL _ _ a | UFun _ a => derivatives_unspecified h a
  | UMinMax _ _ => true
  end.
