(** Model of quantities and expression nodes:
    /repo/src/sloth/core/quantity.py, parameter.py, constant.py, variable.py,
    expression_evaluation.py, equation_operators.py. *)
From Verif Require Export Base Num UnitModel Sympy.

(** Identity of a Quantity object: index in the heap. *)
Definition loc := nat.

(** Class of the object: Quantity and its subclasses. *)
Inductive qkind := KQuantity | KVariable | KParameter | KConstant.

Definition qkind_eqb (a b : qkind) : bool :=
  match a, b with
  | KQuantity, KQuantity | KVariable, KVariable
  | KParameter, KParameter | KConstant, KConstant => true
  | _, _ => false
  end.

(** Quantity.__init__, quantity.py lines 35-70; Parameter.__init__ parameter.py
    lines 20-46; Constant.__init__ constant.py lines 36-60; Variable.__init__
    variable.py lines 20-101.  Description, LaTeX text and bounds are not
    modelled.  [q_exposed] is [is_exposed == True] (the string 'True' used in
    unit_op_library.py is not equal to True).  [q_domain]: is a Domain set. *)
Record qty := mkQty {
  q_kind : qkind;
  q_name : string;
  q_units : unit;
  q_value : num;
  q_spec : bool;        (* is_specified *)
  q_owner : string;     (* owner_model_name *)
  q_exposed : bool;
  q_type : string;
  q_domain : bool
}.

Definition heap := list qty.
Definition hget (h : heap) (l : loc) : option qty := nth_error h l.
Fixpoint hset (h : heap) (l : loc) (q : qty) : heap :=
  match h, l with
  | [], _ => []
  | _ :: r, O => q :: r
  | x :: r, S l' => x :: hset r l' q
  end.

(** isinstance(a, b.__class__): same class, or [b] is a plain Quantity. *)
Definition isinstance_of (a b : qty) : bool :=
  match q_kind b with KQuantity => true | k => qkind_eqb (q_kind a) k end.

(** Argument of setValue. *)
Inductive svarg := SVQty (q : qty) | SVNum (n : num) | SVOther.

Definition set_qvalue (q : qty) (v : num) : qty :=
  mkQty (q_kind q) (q_name q) (q_units q) v true (q_owner q) (q_exposed q) (q_type q) (q_domain q).

(** Quantity.setValue, quantity.py lines 73-105 (Parameter: parameter.py lines
    48-88, Constant: constant.py lines 62-102, same text).  Python's [or]/[and]
    precedence makes the second branch "float, or int without unit". *)
Definition set_value (q : qty) (a : svarg) (u : option unit) : res qty :=
  match a with
  | SVQty p =>
      if isinstance_of p q then
        match u with
        | None => let* b := coherent (q_units p) (q_units q) in
                  if b then Ok (set_qvalue q (q_value p)) else Raise EDimCoherence
        | Some _ => Raise EDimCoherence
        end
      else Raise EUnexpectedValue
  | SVNum (PFloat f) => Ok (set_qvalue q (PFloat f))
  | SVNum (PInt z) =>
      match u with
      | None => Ok (set_qvalue q (PInt z))
      | Some v => let* b := coherent v (q_units q) in
                  if b then Ok (set_qvalue q (PInt z)) else Raise EUnexpectedValue
      end
  | SVOther => Raise EUnexpectedValue
  end.

(** [q.setValue(v, u)] as a statement on the heap: a raised exception leaves all
    objects as they were (the assignments are the last statements of their
    branches, quantity.py lines 83-85, 93-95, 99-101). *)
Definition heap_set_value (h : heap) (l : loc) (a : svarg) (u : option unit) : heap * res Datatypes.unit :=
  match hget h l with
  | None => (h, Raise EName)
  | Some q => match set_value q a u with
              | Ok q' => (hset h l q', Ok tt)
              | Raise e => (h, Raise e)
              end
  end.

(** Quantity.__add__ / __sub__, quantity.py lines 143-193: after the coherence
    check the constructor is called without the required [name] argument. *)
Definition qty_add (q p : qty) : res qty :=
  let* b := coherent (q_units q) (q_units p) in
  if b then Raise EType else Raise EDimCoherence.
Definition qty_sub (q p : qty) : res qty :=
  let* b := coherent (q_units q) (q_units p) in
  if b then Raise EType else Raise EDimCoherence.
(** Quantity.__mul__, quantity.py lines 195-211. *)
Definition qty_mul (q p : qty) : res qty := Raise EType.
(** [q / p]: only __div__ is defined (lines 213-229), Python 3 needs
    __truediv__. *)
Definition qty_div (q p : qty) : res qty := Raise EType.
(** Quantity.__pow__, quantity.py lines 231-248: the unit power may raise
    nothing for a number, then the constructor fails.  Simplification: also where
    the power of the values raises before (0 to a negative power). *)
Definition qty_pow (q p : qty) : res qty := Raise EType.

(** equation_type dictionary, expression_evaluation.py lines 68-71. *)
Record ety := mkEty { t_lin : bool; t_nonlin : bool; t_diff : bool }.
Definition ty_lin := mkEty true false false.
Definition ty_nonlin := mkEty false true false.
Definition ty_diff := mkEty false false true.

(** EquationNode._checkEquationTypePrecedence, lines 81-103. *)
Definition ty_prec (a b : ety) : ety :=
  if t_diff a || t_diff b then ty_diff
  else if t_nonlin a || t_nonlin b then ty_nonlin
  else ty_lin.

(** class EquationNode, expression_evaluation.py lines 9-79.  Name and LaTeX
    text are not modelled. *)
Record node := mkNode {
  nd_sym : sx;            (* symbolic_object *)
  nd_smap : dict loc;     (* symbolic_map *)
  nd_vmap : dict loc;     (* variable_map *)
  nd_ty : ety;            (* equation_type *)
  nd_unit : unit;         (* unit_object *)
  nd_repr : sx            (* repr_symbolic *)
}.

(** Operand of an overloaded operator. *)
Inductive opd := ONode (n : node) | ONum (k : num) | OOther.

Definition is_empty {A} (l : list A) : bool := match l with [] => true | _ => false end.

(** Quantity.__call__, quantity.py lines 107-141. *)
Definition qty_call (l : loc) (q : qty) : node :=
  if q_spec q then
    mkNode (SNum (q_value q)) [(q_name q, l)] [] ty_lin (q_units q) (SSym (q_name q))
  else
    mkNode (SSym (q_name q)) [(q_name q, l)] [(q_name q, l)] ty_lin (q_units q) (SSym (q_name q)).

(** EquationNode.__add__ (and __radd__), lines 150-218. *)
Definition node_add (a : node) (o : opd) : res node :=
  match o with
  | ONode b =>
      let* u := unit_add (nd_unit a) (nd_unit b) in
      Ok (mkNode (SAdd (nd_sym a) (nd_sym b))
                 (dupdate (nd_smap a) (nd_smap b)) (dupdate (nd_vmap a) (nd_vmap b))
                 (ty_prec (nd_ty a) (nd_ty b)) u
                 (SAdd (nd_repr a) (nd_repr b)))
  | ONum k =>
      Ok (mkNode (SAdd (nd_sym a) (SNum k)) (nd_smap a) (nd_vmap a) (nd_ty a) (nd_unit a)
                 (SAdd (nd_repr a) (SNum k)))
  | OOther => Raise EUnexpectedValue
  end.

(** EquationNode.__sub__, lines 221-273. *)
Definition node_sub (a : node) (o : opd) : res node :=
  match o with
  | ONode b =>
      let* u := unit_sub (nd_unit a) (nd_unit b) in
      Ok (mkNode (SSub (nd_sym a) (nd_sym b))
                 (dupdate (nd_smap a) (nd_smap b)) (dupdate (nd_vmap a) (nd_vmap b))
                 (ty_prec (nd_ty a) (nd_ty b)) u
                 (SSub (nd_repr a) (nd_repr b)))
  | ONum k =>
      Ok (mkNode (SSub (nd_sym a) (SNum k)) (nd_smap a) (nd_vmap a) (nd_ty a) (nd_unit a)
                 (SSub (nd_repr a) (SNum k)))
  | OOther => Raise EUnexpectedValue
  end.

(** Classification of a product or quotient, lines 319-333 and 420-434. *)
Definition ty_product (a b : node) : ety :=
  if is_empty (nd_vmap b) then nd_ty a
  else if is_empty (nd_vmap a) then nd_ty b
  else ty_nonlin.

(** EquationNode.__mul__ (and __rmul__), lines 290-389.  The third branch
    (lines 353-370) is unreachable. *)
Definition node_mul (a : node) (o : opd) : res node :=
  match o with
  | ONode b =>
      Ok (mkNode (SMul (nd_sym a) (nd_sym b))
                 (dupdate (nd_smap a) (nd_smap b)) (dupdate (nd_vmap a) (nd_vmap b))
                 (ty_product a b) (unit_mul (nd_unit a) (nd_unit b))
                 (SMul (nd_repr a) (nd_repr b)))
  | ONum k =>
      Ok (mkNode (SMul (nd_sym a) (SNum k)) (nd_smap a) (nd_vmap a) (nd_ty a) (nd_unit a)
                 (SMul (nd_repr a) (SNum k)))
  | OOther => Raise EUnexpectedValue
  end.

(** EquationNode.__div__ / __truediv__, lines 391-474 and 491-504. *)
Definition node_div (a : node) (o : opd) : res node :=
  match o with
  | ONode b =>
      Ok (mkNode (SDiv (nd_sym a) (nd_sym b))
                 (dupdate (nd_smap a) (nd_smap b)) (dupdate (nd_vmap a) (nd_vmap b))
                 (ty_product a b) (unit_div (nd_unit a) (nd_unit b))
                 (SDiv (nd_repr a) (nd_repr b)))
  | ONum k =>
      Ok (mkNode (SDiv (nd_sym a) (SNum k)) (nd_smap a) (nd_vmap a) (nd_ty a) (nd_unit a)
                 (SDiv (nd_repr a) (SNum k)))
  | OOther => Raise EUnexpectedValue
  end.

(** EquationNode.__pow__, lines 521-580. *)
Definition node_pow (a : node) (o : opd) : res node :=
  match o with
  | ONode b =>
      if is_dimensionless (nd_unit b) then
        let* u := unit_pow_unit (nd_unit a) (nd_unit b) in
        Ok (mkNode (SPow (nd_sym a) (nd_sym b))
                   (dupdate (nd_smap a) (nd_smap b)) (dupdate (nd_vmap a) (nd_vmap b))
                   (ty_prec (nd_ty a) ty_nonlin) u
                   (SPow (nd_repr a) (nd_repr b)))
      else Raise EDimCoherence
  | ONum k =>
      Ok (mkNode (SPow (nd_sym a) (SNum k)) (nd_smap a) (nd_vmap a)
                 (ty_prec (nd_ty a) ty_nonlin) (unit_pow_num (nd_unit a) k)
                 (SPow (nd_repr a) (SNum k)))
  | OOther => Raise EUnexpectedValue
  end.

(** EquationNode.__rsub__, lines 275-288: [self*-1 + other]. *)
Definition node_rsub (a : node) (o : opd) : res node :=
  let* m := node_mul a (ONum (PInt (-1))) in node_add m o.

(** EquationNode.__rtruediv__ / __rdiv__, lines 476-519: [(self**(-1))*other]. *)
Definition node_rdiv (a : node) (o : opd) : res node :=
  let* p := node_pow a (ONum (PInt (-1))) in node_mul p o.

(** [2 ** node]: EquationNode has no __rpow__. *)
Definition node_rpow (a : node) (o : opd) : res node := Raise EType.

(** [-node]: EquationNode has no __neg__. *)
Definition node_neg (a : node) : res node := Raise EType.

(** wrapper, equation_operators.py lines 20-81, as called by Log ... Tan (lines
    83-113): a plain number reaches the undefined name [args] (line 49). *)
Definition node_fun (f : fn) (o : opd) : res node :=
  match o with
  | ONum _ => Raise EName
  | ONode a =>
      if is_dimensionless (nd_unit a) then
        Ok (mkNode (SFun f (nd_sym a)) (nd_smap a) (nd_vmap a) ty_nonlin (nd_unit a)
                   (SFun f (nd_repr a)))
      else Raise EType
  | OOther => Raise EType
  end.

(** ** Min and Max, equation_operators.py lines 115-212 and 214-310 *)

(** Symbolic argument of Min/Max, lines 157-163. *)
Definition opd_sym (o : opd) : sx :=
  match o with ONode n => nd_sym n | ONum k => SNum k | OOther => SNum (PInt 0) end.

(** Accumulated maps, lines 167-175. *)
Definition opd_smap (acc : dict loc) (o : opd) : dict loc :=
  match o with ONode n => dupdate acc (nd_smap n) | _ => acc end.
Definition opd_vmap (acc : dict loc) (o : opd) : dict loc :=
  match o with ONode n => dupdate acc (nd_vmap n) | _ => acc end.

(** sp.Min( *args, evaluate=False ): the identity (an infinity) for no argument. *)
Fixpoint sx_minmax (mx : bool) (l : list sx) : sx :=
  match l with
  | [] => SNum (PFloat (S754_infinity mx))
  | [a] => a
  | a :: r => if mx then SMax a (sx_minmax mx r) else SMin a (sx_minmax mx r)
  end.

Definition is_num_opd (o : opd) : bool := match o with ONum _ => true | _ => false end.
Definition is_node_opd (o : opd) : bool := match o with ONode _ => true | _ => false end.

(** First unit among the arguments, line 197. *)
Fixpoint first_unit (l : list opd) : option unit :=
  match l with
  | [] => None
  | ONode n :: _ => Some (nd_unit n)
  | _ :: r => first_unit r
  end.

(** Min (mx = false) and Max (mx = true).  All numbers: dimensionless.  All
    nodes: line 187 compares each *node* with a Unit through
    EquationNode.__eq__, which raises UnexpectedValueError.  Mixed: the unit of
    the first node, unchecked.  The class of the result is the default of the
    constructor (linear).  Both symbolic forms are built from the working
    expressions (lines 204, 209).  Arguments that are neither numbers nor nodes
    are not modelled (they count as a mixed list here). *)
Definition node_minmax (mx : bool) (l : list opd) : res node :=
  let e := sx_minmax mx (map opd_sym l) in
  let sm := fold_left opd_smap l [] in
  let vm := fold_left opd_vmap l [] in
  if forallb is_num_opd l then Ok (mkNode e sm vm ty_lin u_dimless e)
  else if forallb is_node_opd l then Raise EUnexpectedValue
  else match first_unit l with
       | None => Raise EIndex
       | Some u => Ok (mkNode e sm vm ty_lin u e)
       end.

(** ** Derivatives *)

(** Variable.Diff (variable.py lines 118-130) with _Diff
    (equation_operators.py lines 312-368).  [ind]: the independent variable.
    The derivative of a specified variable (a number) is represented by the
    number 0 (sympy keeps an unevaluated derivative of a constant, or 0).
    Differentiating with respect to a specified variable makes sympy raise
    ValueError.  Without [ind], sympy differentiates with respect to the only
    free symbol. *)
Definition var_diff (l : loc) (q : qty) (ind : option qty) : res node :=
  if negb (q_domain q) then Raise EAbsentRequired
  else
    let a := qty_call l q in
    match ind with
    | None =>
        Ok (mkNode (if q_spec q then SNum (PInt 0) else SDer (q_name q) (q_name q))
                   (nd_smap a) (nd_vmap a) ty_diff u_dimless (SDer (q_name q) (q_name q)))
    | Some t =>
        if q_spec t then Raise EValue
        else
          Ok (mkNode (if q_spec q then SNum (PInt 0) else SDer (q_name q) (q_name t))
                     (nd_smap a) (nd_vmap a) ty_diff (unit_div (nd_unit a) (q_units t))
                     (SDer (q_name q) (q_name t)))
    end.
