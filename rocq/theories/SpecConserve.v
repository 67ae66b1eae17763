(** Specification vocabulary: what the equations of a problem keep account of (C98). *)
From Verif Require Import Base Num UnitModel Sympy Node EquationModel ModelModel ProblemModel SpecProblem SolverModel SpecSolver SpecWritten SpecExact
  SpecSaid SpecInit RunModel SpecRun.
From Verif Require DomainModel.
From Coq Require Import Reals.
Notation num := Verif.Num.num.
Open Scope R_scope.

(** Amounts that are sums and products of variables: a total mass, an energy. *)
Inductive amount :=
| am_number (r : R)
| am_of (x : string)
| am_sum (a b : amount)
| am_product (a b : amount).
Fixpoint worth (v : string -> R) (a : amount) : R :=
  match a with
  | am_number r => r
  | am_of x => v x
  | am_sum a b => worth v a + worth v b
  | am_product a b => worth v a * worth v b
  end.
(** How fast it changes if the variables change at the rates [d]. *)
Fixpoint change (v d : string -> R) (a : amount) : R :=
  match a with
  | am_number _ => 0
  | am_of x => d x
  | am_sum a b => change v d a + change v d b
  | am_product a b => change v d a * worth v b + worth v a * change v d b
  end.
Fixpoint made_of (a : amount) : list string :=
  match a with
  | am_number _ => []
  | am_of x => [x]
  | am_sum a b | am_product a b => made_of a ++ made_of b
  end.

(** The rates by [t] in a state. *)
Definition motion (t : string) (en : env) (x : string) : R := if String.eqb x t then 1 else e_der en x t.
(** Whatever satisfies the equations in the states [here] makes the amount change at a rate
    between [lo] and [hi]; if both are 0 it is conserved. *)
Definition paced (here : env -> Prop) (P : written -> Prop) (t : string) (a : amount) (lo hi : R) : Prop :=
  forall en, here en -> (forall w, P w -> wr_value w en = Some 0) -> lo <= change (e_sym en) (motion t en) a <= hi.

(** The state that was given to start with. *)
Definition given_start (acts : list act) (t : string) (names : list string) (t0 : R) (y0 : string -> R) : Prop :=
  y0 t = t0 /\ forall x, In x names -> exists k, starts_at acts x k /\ num_value k = Some (y0 x).

(** Row [k] of the table says [v] of the variable [x]. *)
Definition row_says (d : DomainModel.domain R) (t : string) (headers : dict string) (k : nat) (x : string) (v : R) : Prop :=
  exists col, DomainModel.column d t (DomainModel.LName (header headers x)) = Some col /\ nth_error col k = Some v.
(** Each row of the table is, up to [eps], a state in which the amount has changed since
    [y0] by some rate between [lo] and [hi]. *)
Definition keeps_account (lo hi eps : R) (t : string) (names : list string) (a : amount) (d : DomainModel.domain R) (headers : dict string)
    (t0 : R) (y0 : string -> R) : Prop :=
  exists ts, DomainModel.column d t (DomainModel.LName (header headers t)) = Some ts /\
  forall k tau, nth_error ts k = Some tau -> exists y r, y t = tau /\ lo <= r <= hi /\ worth y a = worth y0 a + r * (tau - t0) /\
    forall x, In x names -> exists v, row_says d t headers k x v /\ Rabs (v - y x) <= eps.

(** Weighed sums. *)
Definition weighed (ws : list (string * R)) : amount :=
  fold_right (fun w a => am_sum (am_product (am_number (snd w)) (am_of (fst w))) a) (am_number 0) ws.
Definition weights (ws : list (string * R)) : R := fold_right (fun w s => Rabs (snd w) + s) 0 ws.
Close Scope R_scope.

(** Amounts that grow or shrink in proportion to themselves. *)
Open Scope R_scope.
Definition compounds (here : env -> Prop) (P : written -> Prop) (t : string) (a : amount) (lo hi : R) : Prop :=
  forall en, here en -> (forall w, P w -> wr_value w en = Some 0) ->
    lo * worth (e_sym en) a <= change (e_sym en) (motion t en) a <= hi * worth (e_sym en) a.
(** What can become of [w0] in the time [T]. *)
Definition compounded (lo hi w0 T w : R) : Prop := w0 * exp (lo * T) <= w <= w0 * exp (hi * T).
Definition keeps_growth (lo hi eps : R) (t : string) (names : list string) (a : amount) (d : DomainModel.domain R) (headers : dict string)
    (t0 : R) (y0 : string -> R) : Prop :=
  exists ts, DomainModel.column d t (DomainModel.LName (header headers t)) = Some ts /\
  forall k tau, nth_error ts k = Some tau -> t0 <= tau -> exists y, y t = tau /\ compounded lo hi (worth y0 a) (tau - t0) (worth y a) /\
    forall x, In x names -> exists v, row_says d t headers k x v /\ Rabs (v - y x) <= eps.
Close Scope R_scope.
