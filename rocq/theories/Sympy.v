(** Symbolic expressions, as the library builds them through sympy operators,
    and their real-valued meaning.

    Simplification (trusted base): sympy's automatic simplification is not
    modelled; an expression is the tree of the operations performed.  Python
    numbers occurring in expressions stand for their exact value and arithmetic
    between them is over the reals. *)
From Verif Require Export Base Num.
From Coq Require Import Reals.
From Flocq Require Import Core BinarySingleNaN.
Notation num := Verif.Num.num.

(** The functions of /repo/src/sloth/core/equation_operators.py lines 83-113. *)
Inductive fn := FLog | FLog10 | FSqrt | FAbs | FExp | FSin | FCos | FTan.

(** Symbolic objects.  [SDer x t] is sympy's unevaluated [Derivative(x, t)] of
    two symbols (equation_operators.py lines 341-352).  [SMin]/[SMax] are binary;
    n-ary ones are nested. *)
Inductive sx :=
| SNum (n : num)
| SSym (x : string)
| SAdd (a b : sx)
| SSub (a b : sx)
| SMul (a b : sx)
| SDiv (a b : sx)
| SPow (a b : sx)
| SFun (f : fn) (a : sx)
| SMin (a b : sx)
| SMax (a b : sx)
| SDer (x t : string).

(** Values of the symbols and of the derivatives. *)
Record env := mkEnv { e_sym : string -> R; e_der : string -> string -> R }.

(** Exact value of a finite Python number. *)
Definition num_value (n : num) : option R :=
  match n with
  | PInt z => Some (IZR z)
  | PFloat f => match f with
                | S754_zero _ | S754_finite _ _ _ => Some (SF2R radix2 f)
                | _ => None
                end
  end.

(** Real power where it is real: any exponent for a positive base, whole
    exponents for other bases, positive exponents for a zero base. *)
Definition rpow (x y : R) : option R :=
  if Rlt_dec 0 x then Some (Rpower x y)
  else
    let z := Int_part y in
    if Req_EM_T y (IZR z) then
      if Req_EM_T x 0 then (if Z_lt_dec z 0 then None else Some (powerRZ x z))
      else Some (powerRZ x z)
    else if Req_EM_T x 0 then (if Rlt_dec 0 y then Some 0%R else None)
    else None.

(** Meaning of the mathematical functions, undefined outside their real domain. *)
Definition fn_value (f : fn) (x : R) : option R :=
  match f with
  | FLog => if Rlt_dec 0 x then Some (ln x) else None
  | FLog10 => if Rlt_dec 0 x then Some (ln x / ln 10)%R else None
  | FSqrt => if Rle_dec 0 x then Some (sqrt x) else None
  | FAbs => Some (Rabs x)
  | FExp => Some (exp x)
  | FSin => Some (sin x)
  | FCos => Some (cos x)
  | FTan => if Req_EM_T (cos x) 0 then None else Some (tan x)
  end.

Definition obind {A B} (x : option A) (f : A -> option B) : option B :=
  match x with Some a => f a | None => None end.

Definition lift2 (f : R -> R -> R) (a b : option R) : option R :=
  obind a (fun x => obind b (fun y => Some (f x y))).

Definition rdiv (x y : R) : option R := if Req_EM_T y 0 then None else Some (x / y)%R.

(** Value of an expression; [None] where it has no real value (division by
    zero, logarithm of a negative number, ...).  Simplification: Python raises
    ZeroDivisionError when two plain numbers are divided by zero, sympy gives
    an infinity; both are "no value" here. *)
Fixpoint den (e : sx) (v : env) : option R :=
  match e with
  | SNum n => num_value n
  | SSym x => Some (e_sym v x)
  | SAdd a b => lift2 Rplus (den a v) (den b v)
  | SSub a b => lift2 Rminus (den a v) (den b v)
  | SMul a b => lift2 Rmult (den a v) (den b v)
  | SDiv a b => obind (den a v) (fun x => obind (den b v) (fun y => rdiv x y))
  | SPow a b => obind (den a v) (fun x => obind (den b v) (fun y => rpow x y))
  | SFun f a => obind (den a v) (fn_value f)
  | SMin a b => lift2 Rmin (den a v) (den b v)
  | SMax a b => lift2 Rmax (den a v) (den b v)
  | SDer x t => Some (e_der v x t)
  end.

(** [expr.free_symbols] (as a list with repetitions).  The differentiation
    variable of a derivative is not free. *)
Fixpoint fsyms (e : sx) : list string :=
  match e with
  | SNum _ => []
  | SSym x => [x]
  | SAdd a b | SSub a b | SMul a b | SDiv a b | SPow a b | SMin a b | SMax a b =>
      fsyms a ++ fsyms b
  | SFun _ a => fsyms a
  | SDer x _ => [x]
  end.

(** Does the expression contain an unevaluated derivative? *)
Fixpoint has_der (e : sx) : bool :=
  match e with
  | SNum _ | SSym _ => false
  | SAdd a b | SSub a b | SMul a b | SDiv a b | SPow a b | SMin a b | SMax a b =>
      has_der a || has_der b
  | SFun _ a => has_der a
  | SDer _ _ => true
  end.

(** Is the object a plain Python number (no [.subs], [.free_symbols], ...)?
    Arithmetic between plain numbers gives plain numbers; everything else is a
    sympy object. *)
Fixpoint is_raw (e : sx) : bool :=
  match e with
  | SNum _ => true
  | SAdd a b | SSub a b | SMul a b | SDiv a b | SPow a b => is_raw a && is_raw b
  | _ => false
  end.

(** [expr.subs({old: new})] for one pair of symbol names. *)
Definition ren1 (old new x : string) : string := if String.eqb x old then new else x.

Fixpoint rename1 (old new : string) (e : sx) : sx :=
  match e with
  | SNum n => SNum n
  | SSym x => SSym (ren1 old new x)
  | SAdd a b => SAdd (rename1 old new a) (rename1 old new b)
  | SSub a b => SSub (rename1 old new a) (rename1 old new b)
  | SMul a b => SMul (rename1 old new a) (rename1 old new b)
  | SDiv a b => SDiv (rename1 old new a) (rename1 old new b)
  | SPow a b => SPow (rename1 old new a) (rename1 old new b)
  | SFun f a => SFun f (rename1 old new a)
  | SMin a b => SMin (rename1 old new a) (rename1 old new b)
  | SMax a b => SMax (rename1 old new a) (rename1 old new b)
  | SDer x t => SDer (ren1 old new x) (ren1 old new t)
  end.

(** [expr.subs(mapping)]: sympy applies the pairs of a dictionary one after the
    other (not simultaneously).  The order sympy picks is not modelled; it is
    the order of the list. *)
Definition subs (m : list (string * string)) (e : sx) : sx :=
  fold_left (fun acc on => rename1 (fst on) (snd on) acc) m e.
