(** Specification vocabulary for units, independent of how the library computes
    products, quotients and coherence. *)
From Verif Require Import Base Num UnitModel.
From Coq Require Import Reals.
From Flocq Require Import Core BinarySingleNaN.
Notation num := Verif.Num.num.

(** What a user reads: the exponent of dimension name [k], if the unit has it. *)
Definition exponent (u : unit) (k : string) : option num := dget k (u_dim u).

(** A missing dimension name is absent, not zero: combining with an absent
    exponent keeps the other one. *)
Definition combine (f : num -> num -> num) (a b : option num) : option num :=
  match a, b with
  | Some x, Some y => Some (f x y)
  | Some x, None => Some x
  | None, Some y => Some y
  | None, None => None
  end.

(** Exponent of a quotient as dimensional analysis wants it. *)
Definition quotient_exponent (a b : option num) : option num :=
  match a, b with
  | Some x, Some y => Some (nsub x y)
  | Some x, None => Some x
  | None, Some y => Some (nopp y)
  | None, None => None
  end.

(** Every Unit object: built by the constructor from a Python dictionary
    (unique keys) or by the operators. *)
Inductive a_unit : unit -> Prop :=
| au_init n d : NoDup (dkeys d) -> a_unit (unit_init n d)
| au_mul u v : a_unit u -> a_unit v -> a_unit (unit_mul u v)
| au_div u v : a_unit u -> a_unit v -> a_unit (unit_div u v)
| au_pow u p : a_unit u -> a_unit (unit_pow_num u p)
| au_powu u v r : a_unit u -> a_unit v -> unit_pow_unit u v = Ok r -> a_unit r.

(** A finite Python number [x] whose exact mathematical value is [r]. *)
Definition nvalue (x : num) (r : R) : Prop :=
  match x with
  | PInt z => r = IZR z
  | PFloat f => exists b : binary_float 53 1024, B2SF b = f /\ is_finite b = true /\ B2R b = r
  end.

(** All exponents are finite numbers. *)
Definition finite_exponents (u : unit) : Prop :=
  forall k x, exponent u k = Some x -> exists r, nvalue x r.

(** Both units carry the same dimension names (as all SI units do). *)
Definition same_names (u v : unit) : Prop :=
  forall k, exponent u k = None <-> exponent v k = None.

(** Mathematically equal dimensions. *)
Definition same_dimension (u v : unit) : Prop :=
  forall k x y r s, exponent u k = Some x -> exponent v k = Some y ->
                    nvalue x r -> nvalue y s -> r = s.

(** All exponents are zero: a pure number. *)
Definition pure_number (u : unit) : Prop :=
  forall k x, exponent u k = Some x -> nvalue x 0%R.
