(** Specification vocabulary: connections given as expressions (C74). *)
From Verif Require Import Base Num UnitModel Sympy Node Build EquationModel ModelModel ProblemModel SpecExpr SpecProblem SpecWritten.
From Coq Require Import Reals.
Notation num := Verif.Num.num.

(** The first argument of createConnection: a model or a string, of which only the
    name matters, or "", for which a number is drawn. *)
Inductive origin := FromName (s : string) | Drawn.
Definition origin_of (acts : list act) (m : cmodel) : option origin :=
  match m with
  | CMName s => Some (if String.eqb s "" then Drawn else FromName s)
  | CMModel i => option_map (fun md => FromName (fst md)) (nth_error (created acts) i)
  end.

Definition is_digit (c : ascii) : bool := let n := nat_of_ascii c in Nat.leb 48 n && Nat.leb n 57.
Fixpoint numeral (s : string) : bool :=
  match s with EmptyString => true | String c r => is_digit c && numeral r end.

(** Origins that cannot be taken for one another. *)
Definition apart (o o' : origin) : Prop :=
  match o, o' with
  | FromName s, FromName s' => s <> s'
  | FromName s, Drawn | Drawn, FromName s => numeral s = false
  | Drawn, Drawn => True
  end.

(** Names of models and equations without ">". *)
Definition arrow_free_cmd (c : cmd) : bool := match c with CEq _ n _ _ => negb (has_char ">" n) | _ => true end.
Definition arrow_free_act (a : act) : bool :=
  match a with
  | ANew M d => negb (has_char ">" M) && forallb arrow_free_cmd (script d)
  | AStmt _ c => arrow_free_cmd c
  | _ => true
  end.

(** After a connection from [m] into model [j], the [later] actions bring no
    connection by expressions into [j] from the same origin and incorporate nothing
    into [j]. *)
Definition undisturbed (acts : list act) (m : cmodel) (j : nat) (later : list act) : Prop :=
  exists o, origin_of acts m = Some o /\
    match o with FromName s => has_char ">" s = false /\ has_char "-" s = false | Drawn => True end /\
    (forall m' out inp o', In (AConnN m' j out inp) later -> origin_of acts m' = Some o' -> apart o o') /\
    (forall k f, ~ In (AInc j k f) later).

(** Values of unknowns by their names. *)
Definition named_in (h : heap) (l : loc) : string := match hget h l with Some q => q_name q | None => "" end.
Definition at_names (h : heap) (en : env) : valuation :=
  mkVal (fun l => e_sym en (named_in h l)) (fun l i => e_der en (named_in h l) (named_in h i)).
(** The value of an expression over quantities: unset quantities are unknowns, set
    ones are numbers. *)
Definition value_at (h : heap) (en : env) (e : uexpr loc) : option R := meaning h (at_names h en) e.

(** The equation asks that the two expressions are equal. *)
Definition equates (h : heap) (out inp : uexpr loc) (e : eqn) : Prop :=
  eq_elementary e = false /\
  exists n, eq_expr e = Some n /\ forall en, den (nd_sym n) en = arith BSub (value_at h en inp) (value_at h en out).
