(** Model of /repo/src/sloth/core/equation.py (Equation and the automatic
    names) and /repo/src/sloth/connection.py. *)
From Verif Require Export Build.

(** ** Automatic names: gen_rnd_str, equation.py lines 15-23 (problem.py lines
    20-28 is a second copy with a counter of its own). *)

(** str(n) for a natural number. *)
Definition digit (n : nat) : ascii := ascii_of_nat (48 + n).
Fixpoint str_nat_aux (fuel n : nat) (acc : string) : string :=
  match fuel with
  | O => acc
  | S f => let acc' := String (digit (Nat.modulo n 10)) acc in
           match Nat.div n 10 with O => acc' | m => str_nat_aux f m acc' end
  end.
Definition str_nat (n : nat) : string := str_nat_aux (S n) n "".

(** Thread-local counters: [uids t] is [_uid.uid] of thread [t], 0 standing for
    "not set yet" (lines 19-21). *)
Definition uids := nat -> nat.
(** gen_rnd_str() called by thread [t], lines 17-23. *)
Definition gen_rnd_str (u : uids) (t : nat) : uids * string :=
  let n := S (u t) in (fun x => if Nat.eqb x t then n else u x, str_nat n).

(** ** Equation objects *)

Inductive eclass := CLinear | CNonlinear | CDifferential.

(** class Equation, lines 31-76 (description and unused [residual] left out).
    [eq_objs = None] is the value None left by lines 378 and 388.  The second
    component of [eq_elem] is always a node (numbers are wrapped, line 367). *)
Record eqn := mkEqn {
  eq_name : string;
  eq_expr : option node;              (* equation_expression *)
  eq_elem : option (node * node);     (* elementary_equation_expression *)
  eq_elementary : bool;               (* equation_form == 'elementary' *)
  eq_type : option eclass;            (* type *)
  eq_objs : option (dict loc);        (* objects_declared *)
  eq_owner : string                   (* owner_model_name *)
}.

(** What setResidual can be given: a node; a tuple whose first component is a
    node; anything else. *)
Inductive earg := EANode (n : node) | EATuple (a : node) (b : opd) | EAOther.

(** EquationNode.__eq__, expression_evaluation.py lines 129-148. *)
Definition node_eq (a : node) (b : opd) : res earg :=
  match b with OOther => Raise EUnexpectedValue | _ => Ok (EATuple a b) end.

(** Equation._getTypeFromExpression, lines 106-132. *)
Definition type_of (n : node) : option eclass :=
  if t_lin (nd_ty n) then Some CLinear
  else if t_nonlin (nd_ty n) then Some CNonlinear
  else if t_diff (nd_ty n) then Some CDifferential
  else None.

(** The node a numeric right-hand side is wrapped in, lines 367-370. *)
Definition number_node (k : num) (u : unit) : node :=
  mkNode (SNum k) [] [] ty_lin u (SNum k).

Definition with_expr (e : eqn) (n : node) : eqn :=
  mkEqn (eq_name e) (Some n) (eq_elem e) (eq_elementary e) (eq_type e) (eq_objs e) (eq_owner e).
Definition with_elem (e : eqn) (a b : node) : eqn :=
  mkEqn (eq_name e) (eq_expr e) (Some (a, b)) (eq_elementary e) (eq_type e) (eq_objs e) (eq_owner e).
Definition with_form (e : eqn) (f : bool) : eqn :=
  mkEqn (eq_name e) (eq_expr e) (eq_elem e) f (eq_type e) (eq_objs e) (eq_owner e).
Definition with_type (e : eqn) (t : option eclass) : eqn :=
  mkEqn (eq_name e) (eq_expr e) (eq_elem e) (eq_elementary e) t (eq_objs e) (eq_owner e).
Definition with_objs (e : eqn) (o : option (dict loc)) : eqn :=
  mkEqn (eq_name e) (eq_expr e) (eq_elem e) (eq_elementary e) (eq_type e) o (eq_owner e).
Definition with_ename (e : eqn) (n : string) : eqn :=
  mkEqn n (eq_expr e) (eq_elem e) (eq_elementary e) (eq_type e) (eq_objs e) (eq_owner e).
Definition with_eowner (e : eqn) (o : string) : eqn :=
  mkEqn (eq_name e) (eq_expr e) (eq_elem e) (eq_elementary e) (eq_type e) (eq_objs e) o.

(** Equation._sweepObjects, lines 204-213. *)
Definition sweep_objects (e : eqn) : eqn * res Datatypes.unit :=
  match eq_expr e with
  | None => (e, Raise EAttribute)
  | Some n => (with_objs e (Some (nd_smap n)), Ok tt)
  end.

(** Lines 378-380 and 388-390: sweep, assign its result (None) and take the
    type from the expression. *)
Definition finish_residual (e : eqn) : eqn * res Datatypes.unit :=
  match eq_expr e with
  | None => (e, Raise EAttribute)
  | Some n => (with_type (with_objs e None) (type_of n), Ok tt)
  end.

(** Equation.setResidual, lines 341-394.  An exception leaves the assignments
    made before it. *)
Definition set_residual (e : eqn) (a : earg) : eqn * res Datatypes.unit :=
  match a with
  | EATuple l r =>
      match r with
      | ONode n =>
          let e1 := with_elem e l n in
          match node_sub l (ONode n) with
          | Raise x => (e1, Raise x)
          | Ok d => finish_residual (with_form (with_expr e1 d) true)
          end
      | ONum k =>
          let n := number_node k (nd_unit l) in
          let e1 := with_elem e l n in
          match node_sub l (ONode n) with
          | Raise x => (e1, Raise x)
          | Ok d => finish_residual (with_form (with_expr e1 d) true)
          end
      | OOther => finish_residual (with_form e true)
      end
  | EANode n => finish_residual (with_expr e n)
  | EAOther => (e, Raise EUnexpectedValue)
  end.

(** Number of calls of gen_rnd_str inside setResidual (line 367). *)
Definition residual_draws (a : earg) : nat :=
  match a with EATuple _ (ONum _) => 1 | _ => 0 end.

(** A new Equation before setResidual, lines 56-70. *)
Definition blank_eqn (name : string) : eqn :=
  mkEqn name None None false None (Some []) "".

(** Equation.__init__, lines 31-76, run by thread [t]: an empty name is replaced
    by a drawn one (lines 50-52). *)
Definition equation_init (u : uids) (t : nat) (name : string) (a : option earg) (owner : string)
  : uids * res eqn :=
  let '(u1, nm) := if String.eqb name "" then gen_rnd_str u t else (u, name) in
  match a with
  | None => (u1, Ok (with_eowner (blank_eqn nm) owner))
  | Some x =>
      let u2 := match residual_draws x with O => u1 | S _ => fst (gen_rnd_str u1 t) end in
      match set_residual (blank_eqn nm) x with
      | (e, Ok _) => (u2, Ok (with_eowner e owner))
      | (_, Raise ex) => (u2, Raise ex)
      end
  end.

(** Equation.__call__, lines 78-103: index 0 is the left side, 1 the right side. *)
Definition equation_call (e : eqn) (i : nat) : res (option node) :=
  if eq_elementary e then
    match eq_elem e, i with
    | Some (a, _), O => Ok (Some a)
    | Some (_, b), 1%nat => Ok (Some b)
    | _, _ => Raise EUnexpectedValue
    end
  else Ok (eq_expr e).

Inductive eside := SLhs | SRhs.

(** Equation._getSymbolicObject, lines 134-167.  [form = None]: the declared
    form. *)
Definition get_symbolic (e : eqn) (form : option bool) (s : eside) : res sx :=
  let elementary := match form with None => eq_elementary e | Some b => b end in
  if elementary then
    match eq_elem e with
    | None => Raise EType
    | Some (a, b) => Ok (nd_sym (match s with SLhs => a | SRhs => b end))
    end
  else match eq_expr e with
       | None => Raise EAttribute
       | Some n => Ok (nd_sym n)
       end.

(** Equation._convertToResidualForm, lines 215-227. *)
Definition to_residual_form (e : eqn) : eqn * res Datatypes.unit :=
  match eq_expr e with
  | None => (e, Raise EAttribute)
  | Some n =>
      let e1 := with_type e (type_of n) in
      match eq_type e1 with
      | Some CDifferential =>
          if eq_elementary e1 then
            match eq_elem e1 with
            | None => (e1, Raise EType)
            | Some (a, b) =>
                match node_sub a (ONode b) with
                | Raise x => (e1, Raise x)
                | Ok d => (with_form (with_expr e1 d) false, Ok tt)
                end
            end
          else (e1, Ok tt)
      | _ => (e1, Ok tt)
      end
  end.

(** The expression Equation.eval evaluates, lines 412-426 (also
    _convertToFunction, lines 248-262). *)
Definition eval_target (e : eqn) (s : option eside) : res (option node) :=
  match s with
  | None => Ok (eq_expr e)
  | Some s => match eq_elem e with
              | None => Raise EAbsentRequired
              | Some (a, b) => Ok (Some (match s with SLhs => a | SRhs => b end))
              end
  end.

(** [.subs(names_map)] on a symbolic form; plain Python numbers have no such
    method.  Sympy sorts the replaced symbols by name and replaces one after the
    other. *)
Definition subs_obj (m : dict string) (e : sx) : res sx :=
  if is_raw e then Raise EAttribute else Ok (subs (sort_items m) e).

(** Free symbols without repetition (a set in Python; here in order of first
    occurrence). *)
Fixpoint uniq (l : list string) : list string :=
  match l with
  | [] => []
  | x :: r => x :: filter (fun y => negb (String.eqb x y)) (uniq r)
  end.

(** [{k: whole_obj_map[k] for k in symbols_used}] *)
Fixpoint pick_all (w : dict loc) (ks : list string) : res (dict loc) :=
  match ks with
  | [] => Ok []
  | k :: r => match dget k w with
              | None => Raise EKey
              | Some l => let* d := pick_all w r in Ok ((k, l) :: d)
              end
  end.

Definition node_with (n : node) (s r : sx) (sm : dict loc) : node :=
  mkNode s sm (nd_vmap n) (nd_ty n) (nd_unit n) r.

(** Sides of an elementary equation, lines 299-331: the display forms must have
    [.subs]; a plain number as working form is left alone. *)
Definition subs_try (m : dict string) (e : sx) : sx :=
  match subs_obj m e with Ok s => s | Raise _ => e end.
Definition convert_sides (m : dict string) (w : dict loc) (a b : node) : res (node * node) :=
  let* ra := subs_obj m (nd_repr a) in
  let* rb := subs_obj m (nd_repr b) in
  let* ma := pick_all w (uniq (fsyms ra)) in
  let* mb := pick_all w (uniq (fsyms rb)) in
  Ok (node_with a (subs_try m (nd_sym a)) ra ma, node_with b (subs_try m (nd_sym b)) rb mb).

(** Equation._convertEquationSymbolicExpression, lines 280-339, as run by
    Model._addEquationDirectly on a fresh deep copy; if it raises the copy is
    dropped, so no partial result is kept here. *)
Definition convert_symbolic (m : dict string) (w : dict loc) (e : eqn) : res eqn :=
  match eq_expr e with
  | None => Raise EAttribute
  | Some n =>
      let* r := subs_obj m (nd_repr n) in
      let* s := subs_obj m (nd_sym n) in
      let* el := match eq_elem e with
                 | None => Ok None
                 | Some (a, b) => let* ab := convert_sides m w a b in Ok (Some ab)
                 end in
      let* sm := pick_all w (uniq (fsyms r)) in
      Ok (mkEqn (eq_name e) (Some (node_with n s r sm)) el (eq_elementary e) (eq_type e)
                (Some sm) (eq_owner e))
  end.

(** ** Written equations *)

(** [expr] and [lhs == rhs] with an expression or a number on the right. *)
Inductive ueq (A : Type) :=
| UResid (e : uexpr A)
| UElem (l r : uexpr A)
| UElemN (l : uexpr A) (k : num).
Arguments UResid {A}. Arguments UElem {A}. Arguments UElemN {A}.

(** Running the written equation down to the argument of setResidual. *)
Definition build_eq (h : heap) (q : ueq loc) : res earg :=
  match q with
  | UResid e => let* n := build h e in Ok (EANode n)
  | UElem l r => let* a := build h l in let* b := build h r in node_eq a (ONode b)
  | UElemN l k => let* a := build h l in node_eq a (ONum k)
  end.

Definition resolve_eq {A B} (f : A -> res B) (q : ueq A) : res (ueq B) :=
  match q with
  | UResid e => let* e' := resolve f e in Ok (UResid e')
  | UElem l r => let* l' := resolve f l in let* r' := resolve f r in Ok (UElem l' r')
  | UElemN l k => let* l' := resolve f l in Ok (UElemN l' k)
  end.
