(** The Python expressions a user can write over declared quantities, and how
    they run through the overloaded operators. *)
From Verif Require Export Node.

Inductive bop := BAdd | BSub | BMul | BDiv | BPow.

(** Written expressions.  [UQty a] is [a()]; [UNumR o e k] is [e o k] and
    [UNumL o k e] is [k o e] with a Python number [k]; [UFunN f k] is [Log(2)];
    [UDiff x t] is [x.Diff(t)]; [UMinMax] is [Min( *args )] or [Max( *args )].  The
    type of atoms is a parameter (object locations, or attribute names). *)
Inductive uexpr (A : Type) :=
| UQty (a : A)
| UBin (o : bop) (e1 e2 : uexpr A)
| UNumR (o : bop) (e : uexpr A) (k : num)
| UNumL (o : bop) (k : num) (e : uexpr A)
| UFun (f : fn) (e : uexpr A)
| UFunN (f : fn) (k : num)
| UDiff (a : A) (t : option A)
| UMinMax (mx : bool) (l : uargs A)
with uargs (A : Type) :=
| ANil
| AExpr (e : uexpr A) (r : uargs A)
| ANum (k : num) (r : uargs A).
Arguments UQty {A}. Arguments UBin {A}. Arguments UNumR {A}. Arguments UNumL {A}.
Arguments UFun {A}. Arguments UFunN {A}. Arguments UDiff {A}. Arguments UMinMax {A}.
Arguments ANil {A}. Arguments AExpr {A}. Arguments ANum {A}.

Scheme uexpr_mind := Induction for uexpr Sort Prop
with uargs_mind := Induction for uargs Sort Prop.
Combined Scheme uexpr_uargs_ind from uexpr_mind, uargs_mind.

(** [a o b] dispatched to the method of the left operand,
    expression_evaluation.py lines 150-580. *)
Definition node_op (o : bop) (a : node) (b : opd) : res node :=
  match o with
  | BAdd => node_add a b
  | BSub => node_sub a b
  | BMul => node_mul a b
  | BDiv => node_div a b
  | BPow => node_pow a b
  end.

(** [k o a] dispatched to the reflected method of the right operand:
    __radd__ lines 205-218, __rsub__ 275-288, __rmul__ 376-389, __rtruediv__
    506-519; no __rpow__. *)
Definition node_rop (o : bop) (a : node) (k : num) : res node :=
  match o with
  | BAdd => node_add a (ONum k)
  | BSub => node_rsub a (ONum k)
  | BMul => node_mul a (ONum k)
  | BDiv => node_rdiv a (ONum k)
  | BPow => node_rpow a (ONum k)
  end.

(** [x()], quantity.py lines 107-141; a dangling reference is a NameError. *)
Definition build_qty (h : heap) (l : loc) : res node :=
  match hget h l with None => Raise EName | Some q => Ok (qty_call l q) end.

(** [x.Diff(t)], variable.py lines 118-130; only Variable has the method. *)
Definition build_diff (h : heap) (l : loc) (t : option loc) : res node :=
  match hget h l with
  | None => Raise EName
  | Some q =>
      if negb (qkind_eqb (q_kind q) KVariable) then Raise EAttribute
      else match t with
           | None => var_diff l q None
           | Some i => match hget h i with
                       | None => Raise EName
                       | Some p => var_diff l q (Some p)
                       end
           end
  end.

(** Running a written expression: operands left to right, then the operator. *)
Fixpoint build (h : heap) (e : uexpr loc) : res node :=
  match e with
  | UQty l => build_qty h l
  | UBin o a b =>
      let* x := build h a in let* y := build h b in node_op o x (ONode y)
  | UNumR o a k => let* x := build h a in node_op o x (ONum k)
  | UNumL o k a => let* x := build h a in node_rop o x k
  | UFun f a => let* x := build h a in node_fun f (ONode x)
  | UFunN f k => node_fun f (ONum k)
  | UDiff l t => build_diff h l t
  | UMinMax mx l => let* os := build_args h l in node_minmax mx os
  end
with build_args (h : heap) (l : uargs loc) : res (list opd) :=
  match l with
  | ANil => Ok []
  | AExpr e r => let* x := build h e in let* os := build_args h r in Ok (ONode x :: os)
  | ANum k r => let* os := build_args h r in Ok (ONum k :: os)
  end.

(** Resolving the atoms of an expression (attribute look-up), left to right. *)
Fixpoint resolve {A B} (f : A -> res B) (e : uexpr A) : res (uexpr B) :=
  match e with
  | UQty a => let* b := f a in Ok (UQty b)
  | UBin o x y => let* x' := resolve f x in let* y' := resolve f y in Ok (UBin o x' y')
  | UNumR o x k => let* x' := resolve f x in Ok (UNumR o x' k)
  | UNumL o k x => let* x' := resolve f x in Ok (UNumL o k x')
  | UFun g x => let* x' := resolve f x in Ok (UFun g x')
  | UFunN g k => Ok (UFunN g k)
  | UDiff a None => let* b := f a in Ok (UDiff b None)
  | UDiff a (Some t) => let* b := f a in let* t' := f t in Ok (UDiff b (Some t'))
  | UMinMax mx l => let* l' := resolve_args f l in Ok (UMinMax mx l')
  end
with resolve_args {A B} (f : A -> res B) (l : uargs A) : res (uargs B) :=
  match l with
  | ANil => Ok ANil
  | AExpr e r => let* e' := resolve f e in let* r' := resolve_args f r in Ok (AExpr e' r')
  | ANum k r => let* r' := resolve_args f r in Ok (ANum k r')
  end.
