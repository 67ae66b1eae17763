(** Specification vocabulary: equations that differ a little (C89). *)
From Verif Require Import Base Num UnitModel Sympy Node Build EquationModel ModelModel ProblemModel SpecExpr SpecProblem SolverModel SpecSolver SpecWritten SpecInit SpecRun SpecUnique.
From Verif Require DomainModel.
From Coq Require Import Reals.
Notation num := Verif.Num.num.

(** In the states [here] two sets of equations give each variable rates that differ by
    at most [delta] and [L] times the difference of the states. *)
Definition rates_near (here : env -> Prop) (L delta : R) (P P' : written -> Prop) (t : string) (names : list string) : Prop :=
  forall x, In x names -> exists g g', rate_said P x t g /\ rate_said P' x t g' /\
    forall en en', here en -> here en' -> e_sym en t = e_sym en' t -> forall a b, g en = Some a -> g' en' = Some b ->
      (Rabs (a - b) <= L * gap names en en' + delta)%R.

(** What can become of a difference of [eta] at the beginning and [delta] in the rates of
    [n] variables in the time [T]. *)
Definition drift (n : nat) (L eta delta T : R) : R := (sqrt (INR n) * exp (L * INR n * T) * (eta + delta * T))%R.

(** The values given to the variables differ by at most [eta]. *)
Definition starts_near (eta : R) (acts acts' : list act) (vars : list string) : Prop :=
  forall x k k' v v', In x vars -> starts_at acts x k -> starts_at acts' x k' -> num_value k = Some v -> num_value k' = Some v' -> (Rabs (v - v') <= eta)%R.
(** What obeys the equations stays in the states [here]. *)
Definition confined (here : env -> Prop) (acts : list act) (P : written -> Prop) (t : string) (vars : list string) (t0 : R) (ts : list R) : Prop :=
  forall sol, starts_right acts vars t0 sol -> obeys_all P t vars t0 ts sol ->
  forall tau en, during t0 ts tau -> at_moment t vars sol tau en -> here en.
(** As [agree_within], but the values may differ more as time goes by. *)
Definition agree_by (bound : R -> R) (t : string) (vars : list string) (d : DomainModel.domain R) (names : dict string) (d' : DomainModel.domain R) (names' : dict string) : Prop :=
  exists ts ts', DomainModel.column d t (DomainModel.LName (header names t)) = Some ts /\ DomainModel.column d' t (DomainModel.LName (header names' t)) = Some ts' /\
  forall x, In x vars -> exists col col',
    DomainModel.column d t (DomainModel.LName (header names x)) = Some col /\ DomainModel.column d' t (DomainModel.LName (header names' x)) = Some col' /\
    List.length col = List.length ts /\ List.length col' = List.length ts' /\
    forall k k' tau v v', nth_error ts k = Some tau -> nth_error ts' k' = Some tau -> nth_error col k = Some v -> nth_error col' k' = Some v' ->
      (Rabs (v - v') <= bound tau)%R.

(** ** Bounds that can be read off written expressions *)
(** Each of [names] is at most its bound in size. *)
Definition boxed (B : string -> R) (names : list string) (en : env) : Prop := forall x, In x names -> (Rabs (e_sym en x) <= B x)%R.
(** Where it has a value, [e] keeps [m] away from zero. *)
Definition keeps_off (D : dict thing) (B : string -> R) (names : list string) (e : uexpr string) (m : R) : Prop :=
  forall en v, boxed B names en -> expr_value D en e = Some v -> (m <= Rabs v)%R.

(** Where it has a value, [e] is at least [m]. *)
Definition keeps_above (D : dict thing) (B : string -> R) (names : list string) (e : uexpr string) (m : R) : Prop :=
  forall en v, boxed B names en -> expr_value D en e = Some v -> (m <= v)%R.
(** The size of the logarithms of the numbers between [m] and [M]. *)
Definition log_size (m M : R) : R := Rmax (Rabs (ln m)) (Rabs (ln M)).
(** The expressions and the numbers among the arguments of Min and Max. *)
Fixpoint arg_exprs (l : uargs string) : list (uexpr string) :=
  match l with ANil => [] | AExpr e r => e :: arg_exprs r | ANum _ r => arg_exprs r end.
Fixpoint arg_numbers (l : uargs string) : list num :=
  match l with ANil => [] | AExpr _ r => arg_numbers r | ANum k r => k :: arg_numbers r end.

(** The expression [e], read with the quantities of [D] and with those of [D'], which were
    given other values: in the box [B] the two values are at most [M] and differ by at most
    [d] and [L] times the difference of the states. *)
Inductive sways (D D' : dict thing) (B : string -> R) (t : string) (names : list string) : uexpr string -> R -> R -> R -> Prop :=
| sw_unknown a q q' : dget a D = Some q -> dget a D' = Some q' -> th_set q = false -> th_set q' = false -> th_name q = th_name q' -> In (th_name q) names ->
    sways D D' B t names (UQty a) 1 0 (B (th_name q))
| sw_time a q q' : dget a D = Some q -> dget a D' = Some q' -> th_set q = false -> th_set q' = false -> th_name q = t -> th_name q' = t ->
    sways D D' B t names (UQty a) 0 0 (B t)
| sw_given a q q' r r' : dget a D = Some q -> dget a D' = Some q' -> th_set q = true -> th_set q' = true -> num_value (th_value q) = Some r -> num_value (th_value q') = Some r' ->
    sways D D' B t names (UQty a) 0 (Rabs (r - r')) (Rmax (Rabs r) (Rabs r'))
| sw_sum o a b L d M L' d' M' : o = BAdd \/ o = BSub -> sways D D' B t names a L d M -> sways D D' B t names b L' d' M' ->
    sways D D' B t names (UBin o a b) (L + L') (d + d') (M + M')
| sw_product a b L d M L' d' M' : sways D D' B t names a L d M -> sways D D' B t names b L' d' M' ->
    sways D D' B t names (UBin BMul a b) (L * M' + M * L') (d * M' + M * d') (M * M')
| sw_quotient a b L d M L' d' M' m : sways D D' B t names a L d M -> sways D D' B t names b L' d' M' ->
    (0 < m)%R -> keeps_off D B (t :: names) b m -> keeps_off D' B (t :: names) b m ->
    sways D D' B t names (UBin BDiv a b) (L / m + M * L' / (m * m)) (d / m + M * d' / (m * m)) (M / m)
| sw_number_r o a k r L d M : o = BAdd \/ o = BSub -> num_value k = Some r -> sways D D' B t names a L d M -> sways D D' B t names (UNumR o a k) L d (M + Rabs r)
| sw_number_l o a k r L d M : o = BAdd \/ o = BSub -> num_value k = Some r -> sways D D' B t names a L d M -> sways D D' B t names (UNumL o k a) L d (Rabs r + M)
| sw_multiple_r a k r L d M : num_value k = Some r -> sways D D' B t names a L d M -> sways D D' B t names (UNumR BMul a k) (L * Rabs r) (d * Rabs r) (M * Rabs r)
| sw_multiple_l a k r L d M : num_value k = Some r -> sways D D' B t names a L d M -> sways D D' B t names (UNumL BMul k a) (Rabs r * L) (Rabs r * d) (Rabs r * M)
| sw_part a k r L d M : num_value k = Some r -> r <> 0%R -> sways D D' B t names a L d M -> sways D D' B t names (UNumR BDiv a k) (L / Rabs r) (d / Rabs r) (M / Rabs r)
| sw_power a n L d M : sways D D' B t names a L d M ->
    sways D D' B t names (UNumR BPow a (PInt (Z.of_nat (S n)))) (INR (S n) * M ^ n * L) (INR (S n) * M ^ n * d) (M ^ S n)
| sw_abs a L d M : sways D D' B t names a L d M -> sways D D' B t names (UFun FAbs a) L d M
| sw_wave f a L d M : f = FSin \/ f = FCos -> sways D D' B t names a L d M -> sways D D' B t names (UFun f a) L d 1
| sw_exp a L d M : sways D D' B t names a L d M -> sways D D' B t names (UFun FExp a) (exp M * L) (exp M * d) (exp M)
| sw_log a L d M m : sways D D' B t names a L d M -> (0 < m)%R -> keeps_off D B (t :: names) a m -> keeps_off D' B (t :: names) a m ->
    sways D D' B t names (UFun FLog a) (L / m) (d / m) (log_size m M)
| sw_log10 a L d M m : sways D D' B t names a L d M -> (0 < m)%R -> keeps_off D B (t :: names) a m -> keeps_off D' B (t :: names) a m ->
    sways D D' B t names (UFun FLog10 a) (L / m / ln 10) (d / m / ln 10) (log_size m M / ln 10)
| sw_root a L d M m : sways D D' B t names a L d M -> (0 < m)%R -> keeps_off D B (t :: names) a m -> keeps_off D' B (t :: names) a m ->
    sways D D' B t names (UFun FSqrt a) (L / (2 * sqrt m)) (d / (2 * sqrt m)) (sqrt M)
| sw_tangent a L d M m : sways D D' B t names a L d M -> (0 < m)%R -> keeps_off D B (t :: names) (UFun FCos a) m -> keeps_off D' B (t :: names) (UFun FCos a) m ->
    sways D D' B t names (UFun FTan a) (L / (m * m)) (d / (m * m)) (1 / m)
| sw_raised a b L d M L' d' M' m : sways D D' B t names a L d M -> sways D D' B t names b L' d' M' ->
    (0 < m)%R -> keeps_above D B (t :: names) a m -> keeps_above D' B (t :: names) a m ->
    sways D D' B t names (UBin BPow a b) (exp (M' * log_size m M) * (L' * log_size m M + M' * (L / m))) (exp (M' * log_size m M) * (d' * log_size m M + M' * (d / m)))
      (exp (M' * log_size m M))
| sw_raised_r a k r L d M m : num_value k = Some r -> sways D D' B t names a L d M -> (0 < m)%R -> keeps_above D B (t :: names) a m -> keeps_above D' B (t :: names) a m ->
    sways D D' B t names (UNumR BPow a k) (exp (Rabs r * log_size m M) * (Rabs r * (L / m))) (exp (Rabs r * log_size m M) * (Rabs r * (d / m))) (exp (Rabs r * log_size m M))
| sw_raised_l k a r L d M : num_value k = Some r -> (0 < r)%R -> sways D D' B t names a L d M ->
    sways D D' B t names (UNumL BPow k a) (exp (M * Rabs (ln r)) * (L * Rabs (ln r))) (exp (M * Rabs (ln r)) * (d * Rabs (ln r))) (exp (M * Rabs (ln r)))
| sw_over k a r L d M m : num_value k = Some r -> sways D D' B t names a L d M -> (0 < m)%R -> keeps_off D B (t :: names) a m -> keeps_off D' B (t :: names) a m ->
    sways D D' B t names (UNumL BDiv k a) (Rabs r * L / (m * m)) (Rabs r * d / (m * m)) (Rabs r / m)
| sw_constant f k x r : num_value k = Some x -> fn_value f x = Some r -> sways D D' B t names (UFunN f k) 0 0 (Rabs r)
| sw_extremum mx l L d M : (0 <= L)%R -> (0 <= d)%R -> (forall e, In e (arg_exprs l) -> sways D D' B t names e L d M) ->
    (forall k, In k (arg_numbers l) -> exists r, num_value k = Some r /\ (Rabs r <= M)%R) -> sways D D' B t names (UMinMax mx l) L d M
| sw_more e L d M L' d' M' : (L <= L')%R -> (d <= d')%R -> (M <= M')%R -> sways D D' B t names e L d M -> sways D D' B t names e L' d' M'.

(** Both programs say [Diff(a, b) == e] for each variable, of which [e] sways by [L] and [d]
    when the values given to the quantities are those of [D] and of [D']. *)
Definition written_alike (D D' : dict thing) (B : string -> R) (L d : R) (P P' : written -> Prop) (t : string) (names : list string) : Prop :=
  forall x, In x names -> exists n n' a b e M q q' r r',
    P (read_eq D n (UElem (UDiff a (Some b)) e)) /\ P' (read_eq D' n' (UElem (UDiff a (Some b)) e)) /\
    dget a D = Some q /\ dget a D' = Some q' /\ dget b D = Some r /\ dget b D' = Some r' /\ th_set q = false /\ th_set q' = false /\
    th_name q = x /\ th_name q' = x /\ th_name r = t /\ th_name r' = t /\ sways D D' B t names e L d M.
