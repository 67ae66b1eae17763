(** C97: answers of algebraic problems that differ a little differ a little. *)
From Verif Require Import Base BaseFacts Num UnitModel Sympy Node Build EquationModel ModelModel ProblemModel SpecUnits SpecExpr SpecModel SpecInc SpecCall SpecProblem
  ProblemFacts SessionFacts SpecLink SolverModel SpecSolver SolverFacts SpecSymbols SpecWritten SpecExact StudyFacts SpecSaid SaidFacts SpecCompose SpecMatrix MatrixFacts SpecUnique UniqueFacts
  SimModel RunModel WholeModel SpecWhole WholeFacts SpecNearly NearlyFacts SpecDepend DependFacts SpecShift ShiftFacts Demo Properties07Problems Properties16Written Properties19Sessions
  Properties24Said Properties25Matrix Properties33Whole Properties41Nearly.
From Verif Require SpecSim.
From Coq Require Import Reals Lra Lia.
Notation num := Verif.Num.num.

(** Two programs whose equations ask nearly the same, any solvers: what is answered for an
    unknown differs by what the solvers leave and the difference of the equations, times
    the condition of the first. *)
Theorem C97_answers : forall acts s b P eps eng out acts' s' b' P' eps' eng' out' (here : env -> Prop) K delta v, sets_up acts s b P -> sets_up acts' s' b' P' ->
  honest_within eps eng -> answer eng b out -> honest_within eps' eng' -> answer eng' b' out' ->
  (0 <= delta)%R -> (0 <= eps)%R -> (0 <= eps')%R -> here (bind_env out) -> here (bind_env out') ->
  conditioned_in here P (b_varlist b) K -> asks_alike here delta P P' -> In v (b_varlist b) ->
  (Rabs (e_sym (bind_env out) v - e_sym (bind_env out') v) <= K * (eps + eps' + delta))%R.
Proof. exact answers_shift. Qed.
Print Assumptions C97_answers.

(** From the options to the results. *)
Theorem C97_simulations : forall acts s b P eps lib arrays pn ps st doms sm st1 doms1 out r acts' s' b' P' eps' lib' arrays' pn' ps' st' doms' sm' st1' doms1' out' r' (here : env -> Prop) K delta v,
  sets_up acts s b P -> sets_up acts' s' b' P' ->
  honest_within eps (lib_roots lib) -> proper_answers (lib_roots lib) -> honest_within eps' (lib_roots lib') -> proper_answers (lib_roots lib') ->
  sm_problem sm = Some (snd s) -> whole_run lib arrays pn ps (pw_heap (fst s)) st doms sm true = (st1, doms1, Ok out) -> whole_results doms1 sm out RDict = Ok (WByName r) ->
  sm_problem sm' = Some (snd s') -> whole_run lib' arrays' pn' ps' (pw_heap (fst s')) st' doms' sm' true = (st1', doms1', Ok out') -> whole_results doms1' sm' out' RDict = Ok (WByName r') ->
  (0 <= delta)%R -> (0 <= eps)%R -> (0 <= eps')%R -> here (bind_env r) -> here (bind_env r') ->
  conditioned_in here P (b_varlist b) K -> asks_alike here delta P P' -> In v (b_varlist b) ->
  (Rabs (e_sym (bind_env r) v - e_sym (bind_env r') v) <= K * (eps + eps' + delta))%R.
Proof. exact simulations_shift. Qed.
Print Assumptions C97_simulations.

(** A linear problem (C77): the condition is read off an inverse of its matrix; the other
    problem need not be linear. *)
Theorem C97_linear : forall acts s b P eps eng out acts' s' b' P' eps' eng' out' rows B K delta v, sets_up acts s b P -> sets_up acts' s' b' P' ->
  honest_within eps eng -> answer eng b out -> honest_within eps' eng' -> answer eng' b' out' ->
  (0 <= delta)%R -> (0 <= eps)%R -> (0 <= eps')%R -> matrix_of (b_varlist b) (b_exprs b) rows ->
  left_inverse B rows (List.length (b_varlist b)) -> (forall r, In r B -> (abs_sum r <= K)%R) -> asks_alike (fun en => en = bind_env out') delta P P' -> In v (b_varlist b) ->
  (Rabs (e_sym (bind_env out) v - e_sym (bind_env out') v) <= K * (eps + eps' + delta))%R.
Proof. exact linear_shift. Qed.
Print Assumptions C97_linear.

(** The difference is read off the written expressions and the values given to their
    quantities. *)
Theorem C97_written : forall D D' B delta P P' names, rewritten D D' B delta P P' names -> asks_alike (boxed B names) delta P P'.
Proof. exact rewritten_alike. Qed.
Print Assumptions C97_written.

(** Equations solved for their unknowns, whose right sides change little. *)
Theorem C97_fixed_point : forall here L P vars, (0 <= L)%R -> (L * INR (List.length vars) < 1)%R -> fixed_point here L P vars ->
  conditioned_in here P vars (INR (List.length vars) / (1 - L * INR (List.length vars)))%R.
Proof. exact fixed_conditioned. Qed.
Print Assumptions C97_fixed_point.

(** ** 2*x + y = 5 and x - y = 1; and with 3*x instead of 2*x *)
Definition steep_lines : decls :=
  mkDecls [] [CPar "k" "k" u_dimless (PInt 2); CSet "k" (SANum (PInt 3)) None]
    [CVar "x" "x" u_m true "input" (PInt 0); CVar "y" "y" u_m true "input" (PInt 0)]
    [CEq "e" "e" (UResid (UNumR BSub (UBin BAdd (UBin BMul (UQty "k") (UQty "x")) (UQty "y")) (PInt 5))) true;
     CEq "f" "f" (UResid (UNumR BSub (UBin BSub (UQty "x") (UQty "y")) (PInt 1))) true].
Definition steep : list act := [ANew "L" steep_lines; ACall 0%nat; AAdd 0%nat].
Lemma steep_near b : b_varlist b = ["x_L"; "y_L"] -> b_exprs b = [SSub (SAdd (SMul (SNum (PInt 3)) (SSym "x_L")) (SSym "y_L")) (SNum (PInt 5)); SSub (SSub (SSym "x_L") (SSym "y_L")) (SNum (PInt 1))] ->
  answer (tolerant (1 / 100)) b [("x_L", 3 / 2); ("y_L", 1 / 2)]%R.
Proof.
  intros V E. assert (H := tolerant_answer (1 / 100) b [("x_L", 3 / 2); ("y_L", 1 / 2)]%R [3 / 2; 1 / 2]%R). rewrite V, E in H. apply H; [discriminate|reflexivity|].
  split; [reflexivity|]. intros e [<-|[<-|[]]]; cbn; eexists; (split; [reflexivity|]); apply Rabs_le; lra.
Qed.
Lemma steep_set_up : sets_up steep (final steep) (the_block steep) (program_says steep).
Proof.
  apply su_plain; [apply run_resolved; vm_compute; reflexivity|apply runs_all; vm_compute; reflexivity|apply (one_distinct steep "L"); vm_compute; reflexivity
    |apply readable_by; vm_compute; reflexivity|vm_compute; reflexivity|apply origins_by; vm_compute; reflexivity|apply known_by; vm_compute; reflexivity].
Qed.
(** For x up to 2 the equations differ by at most 2. *)
Definition small_x (en : env) : Prop := (Rabs (e_sym en "x_L") <= 202 / 100)%R.
Lemma steep_alike : asks_alike small_x (202 / 100) (program_says crossing) (program_says steep).
Proof.
  apply (alike_by_exprs _ _ _ _ _ _ _ _ _ _ (proj1 C88_case) steep_set_up).
  assert (E : b_exprs (the_block crossing) = [SSub (SAdd (SMul (SNum (PInt 2)) (SSym "x_L")) (SSym "y_L")) (SNum (PInt 5));
    SSub (SSub (SSym "x_L") (SSym "y_L")) (SNum (PInt 1))]) by (vm_compute; reflexivity).
  assert (E' : b_exprs (the_block steep) = [SSub (SAdd (SMul (SNum (PInt 3)) (SSym "x_L")) (SSym "y_L")) (SNum (PInt 5));
    SSub (SSub (SSym "x_L") (SSym "y_L")) (SNum (PInt 1))]) by (vm_compute; reflexivity).
  rewrite E, E'. constructor; [|constructor; [|constructor]]; intros en c H Hc; cbn in Hc; injection Hc as <-; cbn; eexists; (split; [reflexivity|]).
  - unfold small_x in H. match goal with |- (Rabs ?z <= _)%R => replace z with (- e_sym en "x_L")%R by ring end. rewrite Rabs_Ropp. exact H.
  - rewrite Rminus_eq_0, Rabs_R0. lra.
Qed.
Example C97_case : sets_up crossing (final crossing) (the_block crossing) (program_says crossing) /\ sets_up steep (final steep) (the_block steep) (program_says steep) /\
  honest_within (2 / 100) (tolerant (2 / 100)) /\ answer (tolerant (2 / 100)) (the_block crossing) [("x_L", 201 / 100); ("y_L", 1)]%R /\
  honest_within (1 / 100) (tolerant (1 / 100)) /\ answer (tolerant (1 / 100)) (the_block steep) [("x_L", 3 / 2); ("y_L", 1 / 2)]%R /\
  small_x (bind_env [("x_L", 201 / 100); ("y_L", 1)]%R) /\ small_x (bind_env [("x_L", 3 / 2); ("y_L", 1 / 2)]%R) /\
  conditioned_in small_x (program_says crossing) (b_varlist (the_block crossing)) 1 /\ asks_alike small_x (202 / 100) (program_says crossing) (program_says steep) /\
  In "x_L" (b_varlist (the_block crossing)).
Proof.
  destruct C88_case as (S & H & A & Mx & Iv & Bd).
  assert (E' : b_exprs (the_block steep) = [SSub (SAdd (SMul (SNum (PInt 3)) (SSym "x_L")) (SSym "y_L")) (SNum (PInt 5));
    SSub (SSub (SSym "x_L") (SSym "y_L")) (SNum (PInt 1))]) by (vm_compute; reflexivity).
  assert (V' : b_varlist (the_block steep) = ["x_L"; "y_L"]) by (vm_compute; reflexivity).
  assert (V : b_varlist (the_block crossing) = ["x_L"; "y_L"]) by (vm_compute; reflexivity).
  split; [exact S|]. split; [exact steep_set_up|]. split; [exact H|]. split; [exact A|]. split; [exact (tolerant_honest _)|]. split; [exact (steep_near _ V' E')|].
  split; [unfold small_x; cbn; apply Rabs_le; lra|]. split; [unfold small_x; cbn; apply Rabs_le; lra|].
  split; [exact (conditioned_all _ _ _ _ (inverse_conditions _ _ _ _ _ _ _ S Mx Iv Bd))|]. split; [exact steep_alike|]. rewrite V. now left.
Qed.

(** k*x + y - 5 with k = 2 and with k = 3, for x up to 3: they differ by at most 3. *)
Definition line_things (k : Z) : dict thing := [("x", mkThing "x_L" (PInt 0) false); ("y", mkThing "y_L" (PInt 0) false); ("k", mkThing "k_L" (PInt k) true)].
Definition line_expr : uexpr string := UNumR BSub (UBin BAdd (UBin BMul (UQty "k") (UQty "x")) (UQty "y")) (PInt 5).
Definition line_said (k : Z) (w : written) : Prop := w = read_eq (line_things k) "e" (UResid line_expr).
Example C97_written_case : rewritten (line_things 2) (line_things 3) (fun _ => 3%R) 3 (line_said 2) (line_said 3) ["x_L"; "y_L"].
Proof.
  intros y ->. exists "e", "e", (UResid line_expr), line_expr, "x_L".
  assert (A : sways (line_things 2) (line_things 3) (fun _ => 3%R) "x_L" ["x_L"; "y_L"] (UQty "k") 0 (Rabs (2 - 3)) (Rmax (Rabs 2) (Rabs 3)))
    by (refine (sw_given _ _ _ _ _ "k" _ _ 2 3 _ _ _ _ _ _); reflexivity).
  assert (B : sways (line_things 2) (line_things 3) (fun _ => 3%R) "x_L" ["x_L"; "y_L"] (UQty "x") 1 0 3)
    by (refine (sw_unknown _ _ (fun _ => 3%R) _ _ "x" (mkThing "x_L" (PInt 0) false) (mkThing "x_L" (PInt 0) false) _ _ _ _ _ _); first [reflexivity|now left]).
  assert (C : sways (line_things 2) (line_things 3) (fun _ => 3%R) "x_L" ["x_L"; "y_L"] (UQty "y") 1 0 3)
    by (refine (sw_unknown _ _ (fun _ => 3%R) _ _ "y" (mkThing "y_L" (PInt 0) false) (mkThing "y_L" (PInt 0) false) _ _ _ _ _ _); first [reflexivity|right; now left]).
  assert (P := sw_product _ _ _ _ _ _ _ _ _ _ _ _ _ A B). assert (Q := sw_sum _ _ _ _ _ BAdd _ _ _ _ _ _ _ _ (or_introl eq_refl) P C).
  assert (N := sw_number_r _ _ _ _ _ BSub _ (PInt 5) 5 _ _ _ (or_intror eq_refl) eq_refl Q).
  eexists _, _. split; [reflexivity|]. split; [reflexivity|]. split; [now left|]. split; [now left|]. split; [intros en _; discriminate|].
  refine (sw_more _ _ _ _ _ _ _ _ _ _ _ _ (Rle_refl _) _ (Rle_refl _) N). rewrite Rabs_left by lra. lra.
Qed.

(** x - cos(x)/4 *)
Definition damped : uexpr string := UBin BSub (UQty "x") (UNumR BDiv (UFun FCos (UQty "x")) (PInt 4)).
Definition damped_said (w : written) : Prop := w = read_eq (line_things 2) "e" (UResid damped).
Example C97_fixed_point_case : fixed_point (fun _ => True) (1 / 4) damped_said ["x_L"] /\ (1 / 4 * INR (List.length ["x_L"]) < 1)%R.
Proof.
  split; [|cbn; lra]. intros v [<-|[]]. exists (read_eq (line_things 2) "e" (UResid damped)), (fun en => Some (cos (e_sym en "x_L") / 4)%R). split; [reflexivity|]. split.
  - intros en. cbn. destruct (Req_EM_T 4 0); [lra|reflexivity].
  - intros en en' a c _ _ Ha Hc. injection Ha as <-. injection Hc as <-. unfold gap. cbn [fold_right].
    destruct (wave_gap FCos (e_sym en "x_L") (e_sym en' "x_L") (or_intror eq_refl)) as (p & q & Ep & Eq & G & _). injection Ep as <-. injection Eq as <-.
    replace (cos (e_sym en "x_L") / 4 - cos (e_sym en' "x_L") / 4)%R with ((cos (e_sym en "x_L") - cos (e_sym en' "x_L")) * (1 / 4))%R by field.
    rewrite Rabs_mult, (Rabs_pos_eq (1 / 4)) by lra. lra.
Qed.
