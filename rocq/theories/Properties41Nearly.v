(** C88: answers within a tolerance. *)
From Verif Require Import Base BaseFacts Num UnitModel Sympy Node Build EquationModel ModelModel ProblemModel SpecUnits SpecExpr SpecModel SpecInc SpecCall SpecProblem
  ProblemFacts SessionFacts SpecLink SolverModel SpecSolver SolverFacts SpecSymbols SpecWritten SpecExact StudyFacts SpecSaid SaidFacts SpecCompose SpecMatrix MatrixFacts SpecUnique UniqueFacts
  SimModel RunModel WholeModel SpecWhole WholeFacts SpecNearly NearlyFacts Demo Properties07Problems Properties16Written Properties19Sessions Properties24Said Properties25Matrix Properties33Whole.
From Verif Require SpecSim.
From Coq Require Import Reals Lra Lia.
Notation num := Verif.Num.num.

(** The numbers a solver makes small are those of the program, and no others. *)
Theorem C88_residuals : forall acts s b P eps en, sets_up acts s b P ->
  ((forall x, In x (b_exprs b) -> nearly eps (den x en)) <-> forall y, P y -> nearly eps (demanded y en)).
Proof. exact system_nearly. Qed.
Print Assumptions C88_residuals.

(** A routine that leaves residuals of at most [eps] gives values for which all that
    the program says holds up to [eps]. *)
Theorem C88_answer : forall acts s b P eps eng out y, sets_up acts s b P -> honest_within eps eng -> answer eng b out -> P y ->
  nearly eps (demanded y (bind_env out)).
Proof. exact answer_said_nearly. Qed.
Print Assumptions C88_answer.

(** From the options to the results. *)
Theorem C88_simulation : forall acts s b P eps lib arrays pn ps st doms sm st' doms' out r, sets_up acts s b P ->
  honest_within eps (lib_roots lib) -> proper_answers (lib_roots lib) ->
  sm_problem sm = Some (snd s) -> whole_run lib arrays pn ps (pw_heap (fst s)) st doms sm true = (st', doms', Ok out) ->
  whole_results doms' sm out RDict = Ok (WByName r) ->
  NoDup (dkeys r) /\ forall y, P y -> nearly eps (demanded y (bind_env r)).
Proof. exact run_nearly. Qed.
Print Assumptions C88_simulation.

(** If the equations determine the unknowns, the values are close to any solution of
    what was written. *)
Theorem C88_accuracy : forall acts s b P eps eng out K en v, sets_up acts s b P -> honest_within eps eng -> answer eng b out -> (0 <= eps)%R ->
  conditioned P (b_varlist b) K -> (forall y, P y -> asks y en) -> In v (b_varlist b) ->
  (Rabs (e_sym (bind_env out) v - e_sym en v) <= K * eps)%R.
Proof. exact accuracy. Qed.
Print Assumptions C88_accuracy.
Theorem C88_simulation_accuracy : forall acts s b P eps lib arrays pn ps st doms sm st' doms' out r K en v, sets_up acts s b P ->
  honest_within eps (lib_roots lib) -> proper_answers (lib_roots lib) ->
  sm_problem sm = Some (snd s) -> whole_run lib arrays pn ps (pw_heap (fst s)) st doms sm true = (st', doms', Ok out) ->
  whole_results doms' sm out RDict = Ok (WByName r) -> (0 <= eps)%R -> conditioned P (b_varlist b) K -> (forall y, P y -> asks y en) ->
  In v (b_varlist b) -> (Rabs (e_sym (bind_env r) v - e_sym en v) <= K * eps)%R.
Proof. exact run_accuracy. Qed.
Print Assumptions C88_simulation_accuracy.

(** Then two solvers agree. *)
Theorem C88_agreement : forall acts s b P eps eng out eps' eng' out' K v, sets_up acts s b P -> honest_within eps eng -> answer eng b out ->
  honest_within eps' eng' -> answer eng' b out' -> (0 <= eps)%R -> (0 <= eps')%R -> conditioned P (b_varlist b) K -> In v (b_varlist b) ->
  (Rabs (e_sym (bind_env out) v - e_sym (bind_env out') v) <= K * (eps + eps'))%R.
Proof. exact agreement. Qed.
Print Assumptions C88_agreement.

(** A linear problem (C77) whose matrix has an inverse determines its unknowns. *)
Theorem C88_linear : forall acts s b P rows B K, sets_up acts s b P -> matrix_of (b_varlist b) (b_exprs b) rows ->
  left_inverse B rows (List.length (b_varlist b)) -> (forall r, In r B -> (abs_sum r <= K)%R) -> conditioned P (b_varlist b) K.
Proof. exact inverse_conditions. Qed.
Print Assumptions C88_linear.

(** Exact routines are within every tolerance. *)
Theorem C88_exact : forall eng eps, (0 <= eps)%R -> honest eng -> honest_within eps eng.
Proof. exact honest_nearly. Qed.
Print Assumptions C88_exact.

(** ** 2*x + y = 5 and x - y = 1, answered by 2.01 and 1 *)
Definition small (eps : R) (v : option R) : bool := match v with Some r => if Rle_dec (Rabs r) eps then true else false | None => false end.
Lemma small_spec eps v : small eps v = true <-> nearly eps v.
Proof.
  destruct v as [r|]; cbn; [|split; [discriminate|intros (r & H & _); discriminate]]. destruct (Rle_dec (Rabs r) eps) as [H|H]; split; try discriminate; try reflexivity.
  - intros _. now exists r.
  - intros (x & E & L). injection E as <-. contradiction.
Qed.
Definition tolerant (eps : R) : engines R :=
  mkEng R (fun _ _ => []) (fun _ _ => Raise ENumerical)
    (fun vs es g => (Nat.eqb (List.length g) (List.length vs) && forallb (fun e => small eps (den e (bind_env (List.combine vs g)))) es, g))
    (fun _ _ _ _ => None).
Lemma tolerant_spec eps vs es g : fst (root_find (tolerant eps) vs es g) = true <-> nearly_root eps vs es g.
Proof.
  simpl. rewrite Bool.andb_true_iff, PeanoNat.Nat.eqb_eq, forallb_forall. unfold nearly_root. split; intros (L & H); (split; [exact L|]);
    intros e He; apply small_spec, H, He.
Qed.
Lemma tolerant_honest eps : honest_within eps (tolerant eps).
Proof.
  split; [intros es vars sol []|]. split; [discriminate|]. intros vars es g x H.
  assert (F : fst (root_find (tolerant eps) vars es g) = true) by now rewrite H.
  apply tolerant_spec in F. simpl in H. injection H as _ <-. exact F.
Qed.
Lemma tolerant_answer eps b guess g : guess <> [] -> lookup_all guess (b_varlist b) = Ok g -> nearly_root eps (b_varlist b) (b_exprs b) g ->
  answer (tolerant eps) b (by_name (b_varlist b) g).
Proof.
  intros N L R. exists 1%R, (Some "symbolicsys"), guess, None. right. unfold nla_solve, symbolicsys, first_guess.
  change (nla_lookup (Some "symbolicsys")) with (Ok MSymbolicSys). cbn [rbind].
  destruct guess as [|kv guess]; [contradiction|]. cbn [is_empty]. rewrite L. cbn [rbind]. apply tolerant_spec in R.
  change (root_find (tolerant eps) (b_varlist b) (b_exprs b) g) with (fst (root_find (tolerant eps) (b_varlist b) (b_exprs b) g), g). now rewrite R.
Qed.
Definition crossing_inverse : list (list R) := [[1 / 3; 1 / 3]; [1 / 3; - (2 / 3)]]%R.
Lemma crossing_near b : b_varlist b = ["x_L"; "y_L"] -> b_exprs b = [SSub (SAdd (SMul (SNum (PInt 2)) (SSym "x_L")) (SSym "y_L")) (SNum (PInt 5)); SSub (SSub (SSym "x_L") (SSym "y_L")) (SNum (PInt 1))] ->
  answer (tolerant (2 / 100)) b [("x_L", 201 / 100); ("y_L", 1)]%R.
Proof.
  intros V E. assert (H := tolerant_answer (2 / 100) b [("x_L", 201 / 100); ("y_L", 1)]%R [201 / 100; 1]%R). rewrite V, E in H. apply H; [discriminate|reflexivity|].
  split; [reflexivity|]. intros e [<-|[<-|[]]]; cbn; eexists; (split; [reflexivity|]); apply Rabs_le; lra.
Qed.

Example C88_case : sets_up crossing (final crossing) (the_block crossing) (program_says crossing) /\
  honest_within (2 / 100) (tolerant (2 / 100)) /\ answer (tolerant (2 / 100)) (the_block crossing) [("x_L", 201 / 100); ("y_L", 1)]%R /\
  matrix_of (b_varlist (the_block crossing)) (b_exprs (the_block crossing)) crossing_rows /\
  left_inverse crossing_inverse crossing_rows (List.length (b_varlist (the_block crossing))) /\ (forall r, In r crossing_inverse -> (abs_sum r <= 1)%R).
Proof.
  assert (E : b_exprs (the_block crossing) = [SSub (SAdd (SMul (SNum (PInt 2)) (SSym "x_L")) (SSym "y_L")) (SNum (PInt 5));
    SSub (SSub (SSym "x_L") (SSym "y_L")) (SNum (PInt 1))]) by (vm_compute; reflexivity).
  assert (V : b_varlist (the_block crossing) = ["x_L"; "y_L"]) by (vm_compute; reflexivity).
  split; [|split; [exact (tolerant_honest _)|split; [exact (crossing_near _ V E)|]]].
  - apply su_plain; [apply run_resolved; vm_compute; reflexivity|apply runs_all; vm_compute; reflexivity|apply (one_distinct crossing "L"); vm_compute; reflexivity
      |apply readable_by; vm_compute; reflexivity|vm_compute; reflexivity|apply origins_by; vm_compute; reflexivity|apply known_by; vm_compute; reflexivity].
  - rewrite V, E. split; [|split].
    + repeat constructor; intros en; cbn; f_equal; lra.
    + intros i Hi. destruct i as [|[|i]]; [| |cbn in Hi; lia]; eexists; (split; [reflexivity|]); intros j Hj; destruct j as [|[|j]]; try (cbn in Hj; lia); cbn; lra.
    + intros r [<-|[<-|[]]]; cbn; rewrite ?Rabs_Ropp, !Rabs_right by lra; lra.
Qed.

(** The network of C76 run with a tolerance. *)
Example C88_simulation_case : forall eps, (0 <= eps)%R -> honest_within eps checker /\ proper_answers checker /\
  sets_up network (final network) (the_block network) (program_says network).
Proof.
  intros eps E. split; [exact (honest_nearly _ _ E checker_honest)|]. split; [exact checker_proper|].
  destruct C76_case as (A & B & C & D & F & G & H & _). now apply su_plain.
Qed.
