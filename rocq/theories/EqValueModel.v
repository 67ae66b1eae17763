(** Equation.eval, Equation.getResidual and Equation._getSymbolicMap, core/equation.py. *)
From Verif Require Import Base Num UnitModel Sympy Node EquationModel.
From Coq Require Import Reals.
Notation num := Verif.Num.num.

(** What a symbolic map holds under a name: a number given by the user, or a Quantity
    object as in EquationNode.symbolic_map (core/quantity.py lines 102-124). *)
Inductive mval := MNum (k : num) | MQty (l : loc).
Definition is_object (v : mval) : bool := match v with MQty _ => true | MNum _ => false end.

(** What eval returns: a number ([None]: no real value), or an expression in the
    symbols that were given no number. *)
Inductive evald := EVal (v : option R) | EPart (s : sx).

(** [expr.subs(map)] with numbers, core/equation.py line 448.  Derivatives are left as
    they are (simplification: the theorems are about expressions without them). *)
Fixpoint subs_num (m : dict mval) (e : sx) : sx :=
  match e with
  | SNum n => SNum n
  | SSym x => match dget x m with Some (MNum k) => SNum k | _ => SSym x end
  | SAdd a b => SAdd (subs_num m a) (subs_num m b)
  | SSub a b => SSub (subs_num m a) (subs_num m b)
  | SMul a b => SMul (subs_num m a) (subs_num m b)
  | SDiv a b => SDiv (subs_num m a) (subs_num m b)
  | SPow a b => SPow (subs_num m a) (subs_num m b)
  | SFun f a => SFun f (subs_num m a)
  | SMin a b => SMin (subs_num m a) (subs_num m b)
  | SMax a b => SMax (subs_num m a) (subs_num m b)
  | SDer x t => SDer x t
  end.

(** An environment for expressions without symbols; not in core/equation.py, line 448
    needs none. *)
Definition no_env : env := mkEnv (fun _ => 0%R) (fun _ _ => 0%R).
(** The value of an expression without symbols, or the expression (line 448). *)
Definition number_or_expr (s : sx) : evald := if is_empty (fsyms s) then EVal (den s no_env) else EPart s.

(** [symbolic_object.evalf(subs=eval_map)], core/equation.py line 448.  Sympy reaches for
    the map at the first symbol, and then converts every value of the map: objects that are
    no numbers are refused with SympifyError, a ValueError.  Simplification: symbols that
    sympy cancels (x - x) are still there; floating-point rounding is left out. *)
Definition evalf (m : dict mval) (s : sx) : res evald :=
  if is_empty (fsyms s) then Ok (EVal (den s no_env))
  else if existsb (fun p => is_object (snd p)) m then Raise EValue
  else Ok (number_or_expr (subs_num m s)).

(** The map used when none is given, core/equation.py lines 428-430: the names of the
    quantities with the Quantity objects themselves. *)
Definition default_map (e : eqn) : res (dict mval) :=
  match eq_expr e with
  | None => Raise EAttribute
  | Some n => Ok (map (fun p => (fst p, MQty (snd p))) (nd_smap n))
  end.

(** Equation.eval, core/equation.py lines 396-450. *)
Definition equation_eval (e : eqn) (m : option (dict mval)) (s : option eside) : res evald :=
  let* t := eval_target e s in
  let* m := match m with Some m => Ok m | None => default_map e end in
  match t with
  | None => Raise EAttribute
  | Some n => if is_raw (nd_sym n) then Ok (EVal (den (nd_sym n) no_env)) else evalf m (nd_sym n)
  end.

(** Equation.getResidual, core/equation.py lines 452-462. *)
Definition get_residual (e : eqn) : res evald := equation_eval e None None.

(** Equation._getSymbolicMap, core/equation.py lines 169-202. *)
Definition get_map (e : eqn) (form : option bool) (s : eside) : res (dict loc) :=
  let elementary := match form with None => eq_elementary e | Some b => b end in
  if elementary then
    match eq_elem e with
    | None => Raise EType
    | Some (a, b) => Ok (nd_smap (match s with SLhs => a | SRhs => b end))
    end
  else match eq_expr e with
       | None => Raise EAttribute
       | Some n => Ok (nd_smap n)
       end.
