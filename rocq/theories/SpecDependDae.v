(** Specification vocabulary: differential-algebraic equations that differ a little (C89). *)
From Verif Require Import Base Num UnitModel Sympy Node Build EquationModel ModelModel ProblemModel SpecExpr SpecProblem SolverModel SpecSolver SpecWritten SpecInit SpecRun SpecUnique SpecUniqueDae SpecDepend.
From Coq Require Import Reals.
Notation num := Verif.Num.num.

(** In the states [here] in which all that is said is true, each of [zs] differs by at most
    [delta] and [L] times the difference of [known]. *)
Definition given_near (here : env -> Prop) (L delta : R) (P P' : written -> Prop) (t : string) (known zs : list string) : Prop :=
  forall en en', here en -> here en' -> e_sym en t = e_sym en' t -> (forall w, P w -> wr_value w en = Some 0%R) -> (forall w, P' w -> wr_value w en' = Some 0%R) ->
  forall z, In z zs -> (Rabs (e_sym en z - e_sym en' z) <= L * gap known en en' + delta)%R.
(** The rates of [diffs] differ by at most [delta] and [L] times the difference of [diffs]
    and [zs]. *)
Definition changes_near (here : env -> Prop) (L delta : R) (P P' : written -> Prop) (t : string) (diffs zs : list string) : Prop :=
  forall x, In x diffs -> exists g g', change_said P x t g /\ change_said P' x t g' /\
    forall en en', here en -> here en' -> e_sym en t = e_sym en' t -> forall a b, g en = Some a -> g' en' = Some b ->
      (Rabs (a - b) <= L * gap (diffs ++ zs) en en' + delta)%R.

(** Equations that give the variables one after the other: the last of [zs] is given by the
    time and [known], the one before it by those and the last, and so on. *)
Inductive given_in_turn (here : env -> Prop) (P P' : written -> Prop) (t : string) (known : list string) : list string -> R -> R -> Prop :=
| turn_none : given_in_turn here P P' t known [] 0 0
| turn_next z zs L delta l d g g' : given_in_turn here P P' t known zs L delta -> (0 <= l)%R -> (0 <= d)%R -> equals_said P z g -> equals_said P' z g' ->
    (forall en en', here en -> here en' -> e_sym en t = e_sym en' t -> forall a b, g en = Some a -> g' en' = Some b -> (Rabs (a - b) <= l * gap (known ++ zs) en en' + d)%R) ->
    given_in_turn here P P' t known (z :: zs) (Rmax L (l * (1 + INR (List.length zs) * L))) (Rmax delta (l * (INR (List.length zs) * delta) + d)).

(** The constants of the rates once the other variables are eliminated. *)
Definition total_slope (L Lz : R) (n : nat) : R := (L * (1 + INR n * Lz))%R.
Definition total_shift (L delta dz : R) (n : nat) : R := (delta + L * (INR n * dz))%R.
(** How far the variables may be apart if those with rates are [r] apart. *)
Definition spread (n : nat) (Lz dz r : R) : R := Rmax r (Lz * (INR n * r) + dz).

(** What obeys the equations stays in the states [here]. *)
Definition dae_confined (here : env -> Prop) (acts : list act) (P : written -> Prop) (t : string) (vars diffs : list string) (t0 : R) (ts : list R) : Prop :=
  forall sol, starts_right acts diffs t0 sol -> dae_obeys_all P t vars diffs t0 ts sol ->
  forall tau en, during t0 ts tau -> dae_moment t vars diffs sol tau en -> here en.
