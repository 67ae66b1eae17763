(** Specification vocabulary: trajectories that solve what was written (C79). *)
From Verif Require Import Base Num UnitModel Sympy Node EquationModel ModelModel ProblemModel SpecProblem SolverModel SpecSolver SpecWritten SpecExact
  SpecSaid SpecInit RunModel.
From Verif Require DomainModel.
From Coq Require Import Reals.
Notation num := Verif.Num.num.

(** Between the initial time and a time point. *)
Definition during (t0 : R) (times : list R) (tau : R) : Prop :=
  exists tk, In tk times /\ (t0 <= tau <= tk \/ tk <= tau <= t0)%R.

(** The rows are, up to [eps], states of a solution of y' = f(y, t), y(t0) = y0 (that
    can be continued a little beyond the ends). *)
Definition integrated (f : rhs) (y0 : list R) (t0 : R) (times : list R) (rows : list (list R)) (eps : R) : Prop :=
  exists Y : R -> list R, Y t0 = y0 /\
    (forall tau, during t0 times tau -> List.length (Y tau) = List.length y0 /\
       exists vs, f (Y tau) tau = Ok vs /\
         forall j, (j < List.length y0)%nat -> exists v, nth_error vs j = Some (Some v) /\ derivable_pt_lim (fun s => nth j (Y s) 0%R) tau v) /\
    Forall2 (fun tk row => Forall2 (fun y v => Rabs (v - y) <= eps)%R (Y tk) row) times rows.

(** odeint solves the system it is given from the first time point on; cvode from the
    time it is told. *)
Definition odeint_solves (odeint : rhs -> list R -> list R -> res (list (list R))) (f : rhs) (eps : R) : Prop :=
  forall y0 times rows, odeint f y0 times = Ok rows -> integrated f y0 (hd 0%R times) times rows eps.
Definition cvode_solves (cvode : rhs -> list R -> R -> R -> list R -> res (list R * list (list R))) (f : rhs) (eps : R) : Prop :=
  forall y0 t0 e times ts rows, cvode f y0 t0 e times = Ok (ts, rows) -> integrated f y0 t0 ts rows eps.

(** The functions [sol] and their derivatives by [t] at [tau]. *)
Definition at_moment (t : string) (names : list string) (sol : string -> R -> R) (tau : R) (en : env) : Prop :=
  e_sym en t = tau /\ forall x, In x names -> e_sym en x = sol x tau /\ derivable_pt_lim (sol x) tau (e_der en x t).

(** The functions start at [t0] with the values given last. *)
Definition starts_right (acts : list act) (names : list string) (t0 : R) (sol : string -> R -> R) : Prop :=
  forall x, In x names -> exists k v, starts_at acts x k /\ num_value k = Some v /\ sol x t0 = v.
(** At each moment up to the last time point all that the program says is true of them. *)
Definition obeys_all (P : written -> Prop) (t : string) (names : list string) (t0 : R) (times : list R) (sol : string -> R -> R) : Prop :=
  forall tau, during t0 times tau -> (exists en, at_moment t names sol tau en) /\
    forall en, at_moment t names sol tau en -> forall w, P w -> wr_value w en = Some 0%R.
Definition obeys (acts : list act) := obeys_all (program_says acts).
(** The variables whose rates are written. *)
Definition rated_in (P : written -> Prop) (t x : string) : Prop := exists w g, P w /\ rate w x t g.
Definition rated (acts : list act) := rated_in (program_says acts).

(** The table has the time points and, up to [eps], the values of the functions. *)
Definition recorded_as (d : DomainModel.domain R) (t : string) (headers : dict string) (names : list string) (times : list R) (sol : string -> R -> R)
    (eps : R) : Prop :=
  DomainModel.column d t (DomainModel.LName (header headers t)) = Some times /\
  forall x, In x names -> exists col, DomainModel.column d t (DomainModel.LName (header headers x)) = Some col /\
    Forall2 (fun tk v => Rabs (v - sol x tk) <= eps)%R times col.

(** ** Differential-algebraic equations *)
(** The rows are, up to [eps], states of a solution of F(y, y') = 0 whose components
    marked differential start with the values of [y0]. *)
Definition dae_integrated (F : residual) (y0 : list R) (marks : list bool) (t0 : R) (times : list R) (rows : list (list R)) (eps : R) : Prop :=
  exists Y Yd : R -> list R,
    (forall i, nth_error marks i = Some true -> nth_error (Y t0) i = nth_error y0 i) /\
    (forall tau, during t0 times tau -> List.length (Y tau) = List.length y0 /\ List.length (Yd tau) = List.length y0 /\
       (exists vs, F (Y tau) (Yd tau) = Ok vs /\ forall v, In v vs -> v = Some 0%R) /\
       forall i, nth_error marks i = Some true -> derivable_pt_lim (fun s => nth i (Y s) 0%R) tau (nth i (Yd tau) 0%R)) /\
    Forall2 (fun tk row => Forall2 (fun y v => Rabs (v - y) <= eps)%R (Y tk) row) times rows.
Definition ida_solves (ida : residual -> list R -> list R -> list bool -> R -> R -> list R -> res (list R * list (list R))) (F : residual) (eps : R) : Prop :=
  forall y0 yd0 marks t0 e times ts rows, ida F y0 yd0 marks t0 e times = Ok (ts, rows) -> dae_integrated F y0 marks t0 times rows eps.

(** The functions [sol], and the derivatives by [t] of those in [diffs], at [tau]. *)
Definition dae_moment (t : string) (names diffs : list string) (sol : string -> R -> R) (tau : R) (en : env) : Prop :=
  e_sym en t = tau /\ (forall x, In x names -> e_sym en x = sol x tau) /\
  forall x, In x diffs -> derivable_pt_lim (sol x) tau (e_der en x t).
Definition dae_obeys_all (P : written -> Prop) (t : string) (names diffs : list string) (t0 : R) (times : list R) (sol : string -> R -> R) : Prop :=
  forall tau, during t0 times tau -> (exists en, dae_moment t names diffs sol tau en) /\
    forall en, dae_moment t names diffs sol tau en -> forall w, P w -> wr_value w en = Some 0%R.
Definition dae_obeys (acts : list act) := dae_obeys_all (program_says acts).
