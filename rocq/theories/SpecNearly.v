(** Specification vocabulary: answers within a tolerance (C88). *)
From Verif Require Import Base Num Sympy Node EquationModel ModelModel ProblemModel SolverModel SpecProblem SpecSolver SpecWritten SpecExact SpecMatrix.
From Coq Require Import Reals.
Notation num := Verif.Num.num.

(** A number that is zero up to [eps]. *)
Definition nearly (eps : R) (v : option R) : Prop := exists r, v = Some r /\ (Rabs r <= eps)%R.

(** Numeric routines whose answers, when they give one, leave residuals of at most
    [eps]. *)
Definition nearly_root (eps : R) (vars : list string) (es : list sx) (x : list R) : Prop :=
  List.length x = List.length vars /\ forall e, In e es -> nearly eps (den e (bind_env (List.combine vars x))).
Definition honest_within (eps : R) (eng : engines R) : Prop :=
  (forall es vars sol, In sol (sympy_solve eng es vars) -> forall e, In e es -> nearly eps (den e (bind_env sol))) /\
  (forall es vars x, dense_solve eng es vars = Ok x -> nearly_root eps vars es x) /\
  (forall vars es g x, root_find eng vars es g = (true, x) -> nearly_root eps vars es x).

(** The number that is to be zero: of a residual its value, of [l == r] the right
    side (C65). *)
Definition demanded (x : written) (en : env) : option R :=
  match wr_sides x with None => wr_value x en | Some (_, r) => r en end.

(** Equations that determine their unknowns: when the numbers that are to be zero
    differ by at most [d], the unknowns differ by at most [K * d]. *)
Definition conditioned (P : written -> Prop) (vars : list string) (K : R) : Prop :=
  forall en en' d, (0 <= d)%R ->
    (forall x, P x -> exists a c, demanded x en = Some a /\ demanded x en' = Some c /\ (Rabs (a - c) <= d)%R) ->
    forall v, In v vars -> (Rabs (e_sym en v - e_sym en' v) <= K * d)%R.

(** A matrix with [B A = 1]; the sum of the sizes of the numbers of a row. *)
Definition left_inverse (B : list (list R)) (rows : list (list R * R)) (n : nat) : Prop :=
  forall i, (i < n)%nat -> exists r, nth_error B i = Some r /\
    forall j, (j < n)%nat -> dot r (map (fun rc => nth j (fst rc) 0%R) rows) = if Nat.eqb i j then 1%R else 0%R.
Fixpoint abs_sum (r : list R) : R := match r with [] => 0%R | a :: r' => (Rabs a + abs_sum r')%R end.
