(** Python basics shared by every model file: exceptions as values, insertion
    ordered dictionaries, string slicing and sorting. *)
From Coq Require Export List String Ascii ZArith Bool Lia Arith.
Export ListNotations.
Open Scope string_scope.
Open Scope list_scope.

(** Exceptions that the modelled code can raise.
    Library ones: /repo/src/sloth/core/error_definitions.py lines 9-189;
    the others are Python built-ins raised implicitly. *)
Inductive exn :=
| EDimCoherence        (* DimensionalCoherenceError *)
| EUnexpectedValue     (* UnexpectedValueError *)
| EAbsentRequired      (* AbsentRequiredObjectError *)
| EUnexpectedObject    (* UnexpectedObjectDeclarationError *)
| EExposedVariable     (* ExposedVariableError *)
| ENumerical           (* NumericalError *)
| EType | EKey | EAttribute | EName | EValue | EIndex | EZeroDivision
| EException           (* plain Exception *).

(** Outcome of a call: value or exception. *)
Inductive res (A : Type) :=
| Ok (a : A)
| Raise (e : exn).
Arguments Ok {A} _.
Arguments Raise {A} _.

Definition rbind {A B} (r : res A) (f : A -> res B) : res B :=
  match r with Ok a => f a | Raise e => Raise e end.
Notation "'let*' x ':=' r 'in' k" := (rbind r (fun x => k))
  (at level 200, x name, r at level 100, k at level 200, right associativity).

Definition is_ok {A} (r : res A) : bool :=
  match r with Ok _ => true | Raise _ => false end.

(** Python [dict] with string keys: association list in insertion order.
    Keys are unique in every dictionary built with [dset]. *)
Definition dict (V : Type) := list (string * V).

(** [d.get(k)] / [d[k]] with [None] standing for KeyError. *)
Fixpoint dget {V} (k : string) (d : dict V) : option V :=
  match d with
  | [] => None
  | (k', v) :: r => if String.eqb k k' then Some v else dget k r
  end.

(** [d[k] = v]: replaces in place, appends a new key at the end. *)
Fixpoint dset {V} (k : string) (v : V) (d : dict V) : dict V :=
  match d with
  | [] => [(k, v)]
  | (k', v') :: r => if String.eqb k k' then (k, v) :: r else (k', v') :: dset k v r
  end.

Definition dkeys {V} (d : dict V) : list string := map fst d.
Definition dvals {V} (d : dict V) : list V := map snd d.
Definition dmem {V} (k : string) (d : dict V) : bool :=
  match dget k d with Some _ => true | None => false end.

(** [d.update(e)], also the value of [{**d, **e}]. *)
Definition dupdate {V} (d e : dict V) : dict V :=
  fold_left (fun acc kv => dset (fst kv) (snd kv) acc) e d.

(** A dictionary literal / [dict(zip(...))]: later keys win. *)
Definition dof {V} (l : list (string * V)) : dict V := dupdate [] l.

(** Python [s[:-k]] for [k >= 1]. *)
Definition drop_last (k : nat) (s : string) : string :=
  substring 0 (String.length s - k) s.

(** Python [sep.join(l)]. *)
Definition join (sep : string) (l : list string) : string := String.concat sep l.

(** Python [sorted] on items with string keys (stable insertion sort;
    [String.leb] compares code points as Python does for ASCII text). *)
Fixpoint insert_item {V} (x : string * V) (l : list (string * V)) : list (string * V) :=
  match l with
  | [] => [x]
  | y :: r => if String.leb (fst x) (fst y) then x :: l else y :: insert_item x r
  end.
Definition sort_items {V} (l : list (string * V)) : list (string * V) :=
  fold_right insert_item [] l.

(** [all(f(x) for x in l)] where evaluating [f] may raise: stops at the first
    [False] or the first exception. *)
Fixpoint all_res {A} (f : A -> res bool) (l : list A) : res bool :=
  match l with
  | [] => Ok true
  | x :: r => let* b := f x in if b then all_res f r else Ok false
  end.

(** [x in s] for strings: substring test. *)
Fixpoint str_contains (x s : string) : bool :=
  if String.prefix x s then true
  else match s with
       | EmptyString => false
       | String _ r => str_contains x r
       end.
