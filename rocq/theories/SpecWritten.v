(** Specification vocabulary: what the declarations of a model say, read off the
    written statements alone (C64 and later). *)
From Verif Require Import Base Num UnitModel Sympy Node Build EquationModel ModelModel ProblemModel SpecExpr SpecModel SpecProblem SolverModel SpecSolver.
From Coq Require Import Reals.
Notation num := Verif.Num.num.

(** What an attribute stands for: the name of the quantity, the last value it was
    given, and whether [setValue] was called. *)
Record thing := mkThing { th_name : string; th_value : num; th_set : bool }.

Definition forget (a : string) (D : dict thing) : dict thing := filter (fun kv => negb (String.eqb a (fst kv))) D.

(** The value handed to [setValue]. *)
Definition handed (D : dict thing) (x : sarg) : option num :=
  match x with SANum k => Some k | SAAttr b => option_map th_value (dget b D) end.

(** Reading one statement of a model named [M]. *)
Definition note (M : string) (D : dict thing) (c : cmd) : dict thing :=
  match c with
  | CVar a n _ _ _ v | CPar a n _ v | CCon a n _ v => dset a (mkThing (n ++ "_" ++ M) v false) D
  | CSet a x _ => match dget a D, handed D x with
                  | Some t, Some k => dset a (mkThing (th_name t) k true) D
                  | _, _ => forget a D
                  end
  | CDist _ => D
  | CEq a _ _ _ => forget a D
  end.

(** A quantity that was set is a number, one that was not is an unknown; the
    derivative of a number is zero. *)
Definition thing_value (en : env) (t : thing) : option R :=
  if th_set t then num_value (th_value t) else Some (e_sym en (th_name t)).
Definition thing_rate (en : env) (t s : thing) : option R :=
  if th_set t then Some 0%R else Some (e_der en (th_name t) (th_name s)).

(** The value of a written expression. *)
Fixpoint expr_value (D : dict thing) (en : env) (e : uexpr string) : option R :=
  match e with
  | UQty a => match dget a D with Some t => thing_value en t | None => None end
  | UBin o a b => arith o (expr_value D en a) (expr_value D en b)
  | UNumR o a k => arith o (expr_value D en a) (num_value k)
  | UNumL o k a => arith o (num_value k) (expr_value D en a)
  | UFun f a => match expr_value D en a with Some x => fn_value f x | None => None end
  | UFunN f k => match num_value k with Some x => fn_value f x | None => None end
  | UDiff a None => match dget a D with Some t => thing_rate en t t | None => None end
  | UDiff a (Some b) => match dget a D, dget b D with Some t, Some s => thing_rate en t s | _, _ => None end
  | UMinMax mx l => extremum mx (args_values D en l)
  end
with args_values (D : dict thing) (en : env) (l : uargs string) : list (option R) :=
  match l with
  | ANil => []
  | AExpr e r => expr_value D en e :: args_values D en r
  | ANum k r => num_value k :: args_values D en r
  end.

(** A written equation: its name, the value of left side minus right side (or of
    the written residual), and the values of the two sides. *)
Record written := mkWritten {
  wr_name : string; wr_value : env -> option R; wr_sides : option ((env -> option R) * (env -> option R)) }.

Definition read_eq (D : dict thing) (n : string) (q : ueq string) : written :=
  match q with
  | UResid e => mkWritten n (fun en => expr_value D en e) None
  | UElem l r => mkWritten n (fun en => arith BSub (expr_value D en l) (expr_value D en r))
                           (Some (fun en => expr_value D en l, fun en => expr_value D en r))
  | UElemN l k => mkWritten n (fun en => arith BSub (expr_value D en l) (num_value k))
                            (Some (fun en => expr_value D en l, fun en => num_value k))
  end.

(** The equations a script writes, in order. *)
Fixpoint equations_written (M : string) (D : dict thing) (cs : list cmd) : list written :=
  match cs with
  | [] => []
  | c :: r => match c with CEq _ n q _ => [read_eq D n q] | _ => [] end ++ equations_written M (note M D c) r
  end.

(** Every attribute used was assigned before in the same script. *)
Definition in_dict (D : dict thing) (a : string) : bool := match dget a D with Some _ => true | None => false end.
Fixpoint uses_known (D : dict thing) (e : uexpr string) : bool :=
  match e with
  | UQty a | UDiff a None => in_dict D a
  | UDiff a (Some b) => in_dict D a && in_dict D b
  | UBin _ a b => uses_known D a && uses_known D b
  | UNumR _ a _ | UNumL _ _ a | UFun _ a => uses_known D a
  | UFunN _ _ => true
  | UMinMax _ l => uses_known_args D l
  end
with uses_known_args (D : dict thing) (l : uargs string) : bool :=
  match l with
  | ANil => true
  | AExpr e r => uses_known D e && uses_known_args D r
  | ANum _ r => uses_known_args D r
  end.
Definition eq_known (D : dict thing) (q : ueq string) : bool :=
  match q with
  | UResid e | UElemN e _ => uses_known D e
  | UElem l r => uses_known D l && uses_known D r
  end.
Fixpoint self_contained (M : string) (D : dict thing) (cs : list cmd) : bool :=
  match cs with
  | [] => true
  | c :: r =>
      match c with
      | CSet a (SANum _) _ => in_dict D a
      | CSet a (SAAttr b) _ => in_dict D a && in_dict D b
      | CDist a => in_dict D a
      | CEq _ n q _ => eq_known D q && negb (String.eqb n "")
      | _ => true
      end && self_contained M (note M D c) r
  end.

Definition script (d : decls) : list cmd := d_cons d ++ d_pars d ++ d_vars d ++ d_eqs d.

(** The equations of the declarations of a model named [M]. *)
Definition written_by (M : string) (d : decls) : list written := equations_written M [] (script d).
(** Declarations that can be read on their own, with different names for their
    equations. *)
Definition legible (M : string) (d : decls) : Prop :=
  self_contained M [] (script d) = true /\ NoDup (map wr_name (written_by M d)).

(** The stored equation says what was written. *)
Definition says (w : written) (e : eqn) : Prop :=
  (exists n, eq_expr e = Some n /\ forall en, den (nd_sym n) en = wr_value w en) /\
  match wr_sides w with
  | None => eq_elementary e = false
  | Some (f, g) => eq_elementary e = true /\
      exists a b, eq_elem e = Some (a, b) /\ (forall en, den (nd_sym a) en = f en) /\ (forall en, den (nd_sym b) en = g en)
  end.

(** The model has an equation of that name, and it says what was written. *)
Definition stored_in (M : string) (m : mstate) (x : written) : Prop :=
  exists e, dget (wr_name x ++ "_" ++ M)%string (m_eqs m) = Some e /\ eq_name e = (wr_name x ++ "_" ++ M)%string /\ says x e.

(** Written as a residual. *)
Definition one_sided (w : written) : Prop := wr_sides w = None.

(** ** Sessions *)
(** The models of a session: names and declarations, in the order of creation. *)
Definition created (acts : list act) : list (string * decls) :=
  flat_map (fun a => match a with ANew n d => [(n, d)] | _ => [] end) acts.

(** Names without the characters that connections put between names. *)
Definition clean (s : string) : bool := negb (has_char "," s) && negb (has_char ">" s).
Definition clean_cmd (c : cmd) : bool :=
  match c with
  | CVar _ n _ _ _ _ | CPar _ n _ _ | CCon _ n _ _ => clean n
  | CEq _ n _ _ => clean n && negb (String.eqb n "")
  | _ => true
  end.
Definition clean_act (a : act) : bool :=
  match a with ANew M d => clean M && forallb clean_cmd (script d) | _ => true end.

(** Sum of the values of named unknowns. *)
Fixpoint sum_named (en : env) (xs : list string) : R :=
  match xs with [] => 0%R | x :: r => (e_sym en x + sum_named en r)%R end.

(** ** Engines *)
(** Roots: every expression is zero when the variables have the values found. *)
Definition root_of (vars : list string) (es : list sx) (x : list R) : Prop :=
  List.length x = List.length vars /\ forall e, In e es -> den e (bind_env (List.combine vars x)) = Some 0%R.
(** Numeric routines whose answers, when they give one, are roots. *)
Definition honest (eng : engines R) : Prop :=
  (forall es vars sol, In sol (sympy_solve eng es vars) -> forall e, In e es -> den e (bind_env sol) = Some 0%R) /\
  (forall es vars x, dense_solve eng es vars = Ok x -> root_of vars es x) /\
  (forall vars es g x, root_find eng vars es g = (true, x) -> root_of vars es x).

(** What a solver of algebraic problems answers, whatever its options. *)
Definition answer (eng : engines R) (b : block) (out : dict R) : Prop :=
  exists one name guess ps, la_solve one eng name guess b = Ok out \/ nla_solve one eng name ps guess b = Ok out.

(** The equation of a connection: the inputs add up to the outputs. *)
Definition balances (os is : list string) (e : eqn) : Prop :=
  eq_elementary e = false /\
  exists n, eq_expr e = Some n /\ forall en, den (nd_sym n) en = Some (sum_named en is - sum_named en os)%R.
