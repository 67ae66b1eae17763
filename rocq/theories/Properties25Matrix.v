(** C77: a linear problem is a matrix equation. *)
From Verif Require Import Base BaseFacts Num UnitModel Sympy Node Build EquationModel ModelModel ProblemModel SpecUnits SpecExpr SpecModel SpecInc SpecCall SpecProblem
  ProblemFacts SessionFacts SolverModel SpecSolver SolverFacts SpecWritten SpecMatrix MatrixFacts Demo Properties07Problems.
From Coq Require Import Reals Lra.
Notation num := Verif.Num.num.

(** Full statement: the problem of a program is said to be linear only if its
    system is [A x = b].  Missing: unknowns below a fraction line, in Min or in
    Max, and symbols that are not unknowns of the problem. *)
Theorem C77_matrix_partial : forall acts s b, resolved acts s b -> problem_type b = Some PTLinear ->
  (forall x, In x (b_exprs b) -> in_the_open x = true /\ incl (fsyms x) (b_varlist b) /\ exists en, den x en <> None) ->
  exists rows, matrix_of (b_varlist b) (b_exprs b) rows /\ List.length rows = List.length (b_eqs b) /\
    forall en, solved en b <-> satisfies rows (map (e_sym en) (b_varlist b)).
Proof. exact linear_matrix. Qed.
Print Assumptions C77_matrix_partial.

(** Matrix and right side are determined. *)
Theorem C77_unique : forall vars es rows rows2, NoDup vars -> matrix_of vars es rows -> matrix_of vars es rows2 -> rows = rows2.
Proof. exact matrix_unique. Qed.
Print Assumptions C77_unique.

(** The dense solver answers with the solution under the right names. *)
Theorem C77_solution : forall acts s b rows x eng guess one, able eng (b_exprs b) (b_varlist b) -> resolved acts s b -> matrix_of (b_varlist b) (b_exprs b) rows ->
  List.length (b_eqs b) = List.length (b_varlist b) -> List.length x = List.length (b_varlist b) -> satisfies rows x ->
  (forall y, List.length y = List.length (b_varlist b) -> satisfies rows y -> y = x) ->
  exists out, la_solve one eng (Some "scipy") guess b = Ok out /\ labelled (b_varlist b) x out /\ solved (bind_env out) b.
Proof. exact dense_finds. Qed.
Print Assumptions C77_solution.

(** k*x + y - 5 with k = 2, and x - y - 1. *)
Definition two_lines : decls :=
  mkDecls [] [CPar "k" "k" u_dimless (PInt 2); CSet "k" (SANum (PInt 2)) None]
    [CVar "x" "x" u_m true "input" (PInt 0); CVar "y" "y" u_m true "input" (PInt 0)]
    [CEq "e" "e" (UResid (UNumR BSub (UBin BAdd (UBin BMul (UQty "k") (UQty "x")) (UQty "y")) (PInt 5))) true;
     CEq "f" "f" (UResid (UNumR BSub (UBin BSub (UQty "x") (UQty "y")) (PInt 1))) true].
Definition crossing : list act := [ANew "L" two_lines; ACall 0%nat; AAdd 0%nat].
(** k/x - 1 *)
Definition quotient : list act :=
  [ANew "Q" (mkDecls [] [CPar "k" "k" u_m (PInt 2); CSet "k" (SANum (PInt 2)) None] [CVar "x" "x" u_m true "input" (PInt 0)]
     [CEq "e" "e" (UResid (UNumR BSub (UBin BDiv (UQty "k") (UQty "x")) (PInt 1))) true]); ACall 0%nat; AAdd 0%nat].
(** Min(x, 3) - 1 *)
Definition minimum : list act :=
  [ANew "M" (mkDecls [] [] [CVar "x" "x" u_m true "input" (PInt 0)]
     [CEq "e" "e" (UResid (UNumR BSub (UMinMax false (AExpr (UQty "x") (ANum (PInt 3) ANil))) (PInt 1))) true]); ACall 0%nat; AAdd 0%nat].
(** x - p, no value for the parameter p. *)
Definition open_parameter : list act :=
  [ANew "P" (mkDecls [] [CPar "p" "p" u_m (PInt 0)] [CVar "x" "x" u_m true "input" (PInt 0)]
     [CEq "e" "e" (UResid (UBin BSub (UQty "x") (UQty "p"))) true]); ACall 0%nat; AAdd 0%nat].

Lemma one_row vars e rows : matrix_of vars [e] rows -> exists r c, List.length r = List.length vars /\ forall en, den e en = Some (dot r (map (e_sym en) vars) - c)%R.
Proof. intros M. inversion M as [|? [r c] ? ? [L K] M2]; subst. exists r, c. now split. Qed.
Definition at_point (x y : R) : env := mkEnv (fun v => if String.eqb v "y_L" then y else x) (fun _ _ => 0%R).

(** The parts of C77_matrix_partial are needed: a known quantity divided by the
    unknown, the minimum of the unknown and a number, and a parameter without value
    are called linear, but there is no matrix. *)
Theorem C77_quotient_refuted : exists acts s b en, resolved acts s b /\ problem_type b = Some PTLinear /\ solved en b /\
  (forall x, In x (b_exprs b) -> incl (fsyms x) (b_varlist b)) /\ forall rows, ~ matrix_of (b_varlist b) (b_exprs b) rows.
Proof.
  assert (E : b_exprs (the_block quotient) = [SSub (SDiv (SNum (PInt 2)) (SSym "x_Q")) (SNum (PInt 1))]) by (vm_compute; reflexivity).
  assert (V : b_varlist (the_block quotient) = ["x_Q"]) by (vm_compute; reflexivity).
  exists quotient, (final quotient), (the_block quotient), (at_point 2 0).
  split; [apply run_resolved; vm_compute; reflexivity|]. split; [vm_compute; reflexivity|]. unfold solved. rewrite E, V. split; [|split].
  - intros x [<-|[]]. cbn. unfold rdiv. destruct (Req_EM_T 2 0); [lra|]. cbn. f_equal. lra.
  - intros x [<-|[]]. cbn. intros y H. exact H.
  - intros rows M. apply one_row in M. destruct M as (r & c & _ & K). specialize (K (at_point 0 0)). cbn in K. unfold rdiv in K.
    destruct (Req_EM_T 0 0); [discriminate K|lra].
Qed.
Print Assumptions C77_quotient_refuted.

Theorem C77_minimum_refuted : exists acts s b en, resolved acts s b /\ problem_type b = Some PTLinear /\ solved en b /\
  (forall x en', In x (b_exprs b) -> incl (fsyms x) (b_varlist b) /\ den x en' <> None) /\ forall rows, ~ matrix_of (b_varlist b) (b_exprs b) rows.
Proof.
  assert (E : b_exprs (the_block minimum) = [SSub (SMin (SSym "x_M") (SNum (PInt 3))) (SNum (PInt 1))]) by (vm_compute; reflexivity).
  assert (V : b_varlist (the_block minimum) = ["x_M"]) by (vm_compute; reflexivity).
  exists minimum, (final minimum), (the_block minimum), (at_point 1 0).
  split; [apply run_resolved; vm_compute; reflexivity|]. split; [vm_compute; reflexivity|]. unfold solved. rewrite E, V. split; [|split].
  - intros x [<-|[]]. cbn. rewrite Rmin_left by lra. f_equal. lra.
  - intros x en' [<-|[]]. cbn. split; [intros y H; exact H|discriminate].
  - intros rows M. apply one_row in M. destruct M as (r & c & L & K). destruct r as [|a [|? ?]]; try discriminate L.
    assert (K0 := K (at_point 0 0)). assert (K3 := K (at_point 3 0)). assert (K6 := K (at_point 6 0)). cbn in K0, K3, K6.
    rewrite Rmin_left in K0 by lra. rewrite Rmin_left in K3 by lra. rewrite Rmin_right in K6 by lra.
    injection K0 as K0. injection K3 as K3. injection K6 as K6. lra.
Qed.
Print Assumptions C77_minimum_refuted.

Theorem C77_parameter_refuted : exists acts s b en, resolved acts s b /\ problem_type b = Some PTLinear /\ solved en b /\
  (forall x en', In x (b_exprs b) -> in_the_open x = true /\ den x en' <> None) /\ forall rows, ~ matrix_of (b_varlist b) (b_exprs b) rows.
Proof.
  assert (E : b_exprs (the_block open_parameter) = [SSub (SSym "x_P") (SSym "p_P")]) by (vm_compute; reflexivity).
  assert (V : b_varlist (the_block open_parameter) = ["x_P"]) by (vm_compute; reflexivity).
  exists open_parameter, (final open_parameter), (the_block open_parameter), (at_point 0 0).
  split; [apply run_resolved; vm_compute; reflexivity|]. split; [vm_compute; reflexivity|]. unfold solved. rewrite E, V. split; [|split].
  - intros x [<-|[]]. cbn. f_equal. lra.
  - intros x en' [<-|[]]. cbn. split; [reflexivity|discriminate].
  - intros rows M. apply one_row in M. destruct M as (r & c & L & K). destruct r as [|a [|? ?]]; try discriminate L.
    assert (K0 := K (mkEnv (fun _ => 0%R) (fun _ _ => 0%R))).
    assert (K1 := K (mkEnv (fun v => if String.eqb v "p_P" then 1%R else 0%R) (fun _ _ => 0%R))). cbn in K0, K1.
    injection K0 as K0. injection K1 as K1. lra.
Qed.
Print Assumptions C77_parameter_refuted.

(** The two lines: matrix ((2 1) (1 -1)), right side (5 1), solution (2 1). *)
Definition crossing_rows : list (list R * R) := [([2; 1], 5); ([1; -1], 1)]%R.
Definition answers (x : list R) : engines R := mkEng R (fun _ _ => []) (fun _ _ => Ok x) (fun _ _ g => (false, g)) (fun _ _ _ _ => None).
Example C77_case : exists s b, resolved crossing s b /\ problem_type b = Some PTLinear /\
  (forall x, In x (b_exprs b) -> in_the_open x = true /\ incl (fsyms x) (b_varlist b) /\ exists en, den x en <> None) /\
  matrix_of (b_varlist b) (b_exprs b) crossing_rows /\ able (answers [2; 1]%R) (b_exprs b) (b_varlist b) /\
  List.length (b_eqs b) = List.length (b_varlist b) /\ satisfies crossing_rows [2; 1]%R /\
  (forall y, List.length y = List.length (b_varlist b) -> satisfies crossing_rows y -> y = [2; 1]%R).
Proof.
  assert (E : b_exprs (the_block crossing) = [SSub (SAdd (SMul (SNum (PInt 2)) (SSym "x_L")) (SSym "y_L")) (SNum (PInt 5));
         SSub (SSub (SSym "x_L") (SSym "y_L")) (SNum (PInt 1))]) by (vm_compute; reflexivity).
  assert (V : b_varlist (the_block crossing) = ["x_L"; "y_L"]) by (vm_compute; reflexivity).
  exists (final crossing), (the_block crossing).
  split; [apply run_resolved; vm_compute; reflexivity|]. split; [vm_compute; reflexivity|]. rewrite E, V.
  assert (M : matrix_of ["x_L"; "y_L"] [SSub (SAdd (SMul (SNum (PInt 2)) (SSym "x_L")) (SSym "y_L")) (SNum (PInt 5));
         SSub (SSub (SSym "x_L") (SSym "y_L")) (SNum (PInt 1))] crossing_rows).
  { repeat constructor; intros en; cbn; f_equal; lra. }
  assert (Sa : satisfies crossing_rows [2; 1]%R) by (repeat constructor; cbn; lra).
  split; [|split; [exact M|split; [|split; [vm_compute; reflexivity|split; [exact Sa|]]]]].
  - intros x Hx. assert (H : In x [SSub (SAdd (SMul (SNum (PInt 2)) (SSym "x_L")) (SSym "y_L")) (SNum (PInt 5)); SSub (SSub (SSym "x_L") (SSym "y_L")) (SNum (PInt 1))]) by exact Hx.
    destruct H as [<-|[<-|[]]]; (split; [reflexivity|]; split; [cbn; intros y Hy; cbn in Hy |- *; tauto|exists (at_point 0 0); discriminate]).
  - intros rows x M2 _ L Hx U. cbn. f_equal. apply U; [reflexivity|].
    assert (N : NoDup ["x_L"; "y_L"]); [|rewrite (matrix_unique _ _ _ _ N M2 M); exact Sa].
    constructor; [intros [H|[]]; discriminate H|constructor; [intros []|constructor]].
  - intros y L S. destruct y as [|a [|c [|? ?]]]; try discriminate L. inversion S as [|? ? S1 S2]; subst. inversion S2 as [|? ? S3 _]; subst.
    cbn in S1, S3. f_equal; [lra|]. f_equal. lra.
Qed.
