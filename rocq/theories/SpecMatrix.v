(** Specification vocabulary: linear problems as matrix equations (C77). *)
From Verif Require Import Base Num Sympy Node SolverModel.
From Coq Require Import Reals.
Notation num := Verif.Num.num.

(** No unknown below a fraction line, in Min or in Max. *)
Fixpoint in_the_open (e : sx) : bool :=
  match e with
  | SNum _ | SSym _ | SDer _ _ => true
  | SAdd a b | SSub a b | SMul a b | SPow a b => in_the_open a && in_the_open b
  | SFun _ a => in_the_open a
  | SDiv a b => in_the_open a && is_empty (fsyms b)
  | SMin a b | SMax a b => is_empty (fsyms a) && is_empty (fsyms b)
  end.

(** A row of coefficients times a vector. *)
Fixpoint dot (r x : list R) : R :=
  match r, x with a :: r', y :: x' => (a * y + dot r' x')%R | _, _ => 0%R end.

(** Rows and right sides that are the expressions: [e = r.x - c] for all values. *)
Definition matrix_of (vars : list string) (es : list sx) (rows : list (list R * R)) : Prop :=
  Forall2 (fun e rc => List.length (fst rc) = List.length vars /\
    forall en, den e en = Some (dot (fst rc) (map (e_sym en) vars) - snd rc)%R) es rows.

(** [A x = b] *)
Definition satisfies (rows : list (list R * R)) (x : list R) : Prop := Forall (fun rc => dot (fst rc) x = snd rc) rows.

(** linear_eq_to_matrix with scipy.linalg.solve does its work on these expressions:
    it finds the solution of a square system that has exactly one.  The unknowns are given
    as text (solvers.py line 240), which not all versions of sympy accept. *)
Definition able (eng : engines R) (es : list sx) (vars : list string) : Prop :=
  forall rows x, matrix_of vars es rows -> List.length es = List.length vars -> List.length x = List.length vars -> satisfies rows x ->
    (forall y, List.length y = List.length vars -> satisfies rows y -> y = x) -> dense_solve eng es vars = Ok x.
