(** Python numbers: [int] (unbounded) and [float] (IEEE binary64), with the
    coercions of the Python operators that the library applies to dimension
    exponents and to literals. *)
From Coq Require Export Floats.SpecFloat.
From Verif Require Export Base.
Open Scope Z_scope.

(** A Python [int] or [float].  [bool] is an [int] in Python.  Used for every
    exponent of /repo/src/sloth/core/unit.py and every numeric literal accepted
    by isinstance(_, (int, float)) tests, e.g.
    /repo/src/sloth/core/expression_evaluation.py lines 180, 251, 327. *)
Inductive num :=
| PInt (z : Z)
| PFloat (f : spec_float).

(** [float(z)]: rounded to nearest even.  Simplification: an int too large for
    a double gives infinity here, OverflowError in Python. *)
Definition float_of_Z (z : Z) : spec_float := binary_normalize 53 1024 z 0 false.

Definition to_float (x : num) : spec_float :=
  match x with PInt z => float_of_Z z | PFloat f => f end.

(** Python [x + y] (unit.py line 192). *)
Definition nadd (x y : num) : num :=
  match x, y with
  | PInt a, PInt b => PInt (a + b)
  | _, _ => PFloat (SFadd 53 1024 (to_float x) (to_float y))
  end.

(** Python [x - y] (unit.py lines 238, 285). *)
Definition nsub (x y : num) : num :=
  match x, y with
  | PInt a, PInt b => PInt (a - b)
  | _, _ => PFloat (SFsub 53 1024 (to_float x) (to_float y))
  end.

(** Python [x * y] (unit.py line 327). *)
Definition nmul (x y : num) : num :=
  match x, y with
  | PInt a, PInt b => PInt (a * b)
  | _, _ => PFloat (SFmul 53 1024 (to_float x) (to_float y))
  end.

(** Python [-x] (unit.py lines 242, 289). *)
Definition nopp (x : num) : num :=
  match x with PInt a => PInt (- a) | PFloat f => PFloat (SFopp f) end.

(** Exact comparison of a double with an int, as Python does it. *)
Definition float_eq_Z (f : spec_float) (z : Z) : bool :=
  match f with
  | S754_zero _ => z =? 0
  | S754_finite s m e =>
      let v := if s then Zneg m else Zpos m in
      if 0 <=? e then z =? v * 2 ^ e else z * 2 ^ (- e) =? v
  | _ => false
  end.

(** Python [x == y] (unit.py lines 57, 379). *)
Definition neqb (x y : num) : bool :=
  match x, y with
  | PInt a, PInt b => a =? b
  | PFloat f, PFloat g => SFeqb f g
  | PFloat f, PInt b => float_eq_Z f b
  | PInt a, PFloat g => float_eq_Z g a
  end.

(** Python [1./x] (unit.py lines 252, 299): ZeroDivisionError on zero. *)
Definition ninv (x : num) : res num :=
  if neqb x (PInt 0) then Raise EZeroDivision
  else Ok (PFloat (SFdiv 53 1024 (float_of_Z 1) (to_float x))).

(** Doubles written in decimal in examples: the nearest double to m * 10^-k. *)
Definition fdec (m : Z) (k : nat) : num :=
  PFloat (SFdiv 53 1024 (float_of_Z m) (float_of_Z (10 ^ Z.of_nat k))).

Definition is_pint (x : num) : bool := match x with PInt _ => true | _ => false end.
