(** C80: a recorded trajectory of a differential-algebraic problem satisfies what was
    written. *)
From Verif Require Import Base BaseFacts Num UnitModel Sympy Node Build EquationModel ModelModel ProblemModel SpecUnits SpecExpr SpecModel SpecInc SpecCall SpecProblem
  ProblemFacts SessionFacts SpecLink SolverModel DomainModel SpecSolver SolverFacts SpecSymbols OdeFacts DaeFacts SpecWritten SpecExact SpecOwn SpecSession StudyFacts
  SpecSaid SaidFacts SpecInit InitFacts RunModel SpecRun RunFacts DaeRunFacts Demo Properties07Problems Properties08Solvers Properties16Written Properties19Sessions
  Properties22Links Properties24Said Properties29Run.
From Coq Require Import Reals Lra.
Notation num := Verif.Num.num.

(** Full statement: what a simulation of a differential-algebraic problem records are
    values, as exact as the integrator is, of functions of which all that the program
    says is true at every moment; those whose derivatives are written start with the
    initial values given last.  Missing: programs outside [C76_system_partial];
    equations whose derivative is no term of a sum or has a factor (C80_scaled);
    unknowns not listed with the differentiated ones first, in the order of the
    equations (C34); equations that use the time; unknowns not distributed in
    their order (C32); differential equations that do not come first (refuted below);
    floating-point numbers. *)
Theorem C80_trajectory_partial : forall acts s b t pn ps dae,
  resolved acts s b -> all_ok start_session acts -> distinct_models acts -> readable_program acts ->
  forallb tidy_act acts = true -> plain_origins acts -> known_statements acts -> dictionaries acts ->
  Forall2 (residual_ode pn) (b_diff b) dae -> dae <> [] -> closed_dae b dae -> states_first (b_varlist b) dae ->
  (exists rest, b_eqs b = b_diff b ++ rest) -> (forall x u r, In (x, u, r) dae -> u = t) -> ~ In t (b_varlist b) -> forall ida o d d' ts rows eps,
  ida_solves ida (dae_function pn b) eps ->
  cleared d -> d_ind d = [t] -> d_dep d = b_varlist b -> NoDup (map (header (oo_names o)) (d_ind d ++ d_dep d)) ->
  dae_solve ida pn ps (snd s) b o d = (d', Ok (ts, rows)) ->
  exists times sol, dae_points o = Ok times /\ starts_right acts (dnames dae) (oo_initial o) sol /\
    dae_obeys acts t (b_varlist b) (dnames dae) (oo_initial o) times sol /\
    recorded_as d' t (oo_names o) (b_varlist b) times sol eps.
Proof. exact dae_run. Qed.
Print Assumptions C80_trajectory_partial.

(** The time points: as many as steps and one, from the initial time to the end
    time, evenly spaced. *)
Theorem C80_time_points : forall o l n e, oo_steps o = Some n -> oo_end o = Some e -> (0 < n)%Z -> dae_points o = Ok l ->
  Z.of_nat (List.length l) = (n + 1)%Z /\ nth_error l 0 = Some (oo_initial o) /\ nth_error l (Z.to_nat n) = Some e /\
  forall i a c, nth_error l i = Some a -> nth_error l (S i) = Some c -> (c - a = (e - oo_initial o) / IZR n)%R.
Proof. exact dae_points_even. Qed.
Print Assumptions C80_time_points.

(** ** A run *)
(** dx/dt == z and z == 3*x, x starting at 1; z is given the value 9. *)
Definition growth_start : list act :=
  [AStmt 0%nat (dvar "t"); AStmt 0%nat (dvar "x"); AStmt 0%nat (dvar "z"); AStmt 0%nat (CDist "x"); AStmt 0%nat (CDist "z"); ACall 0%nat; AAdd 0%nat;
   ATime ["t_M"]; AInit [("t_M", PInt 0); ("x_M", PInt 1); ("z_M", PInt 9); ("x_M_d", PInt 3)]].
Definition growth : list act := ANew "M" (mkDecls [] [] [] dae_equations) :: growth_start.
(** The same with the equations in the other order. *)
Definition growth_turned : list act := ANew "M" (mkDecls [] [] [] (rev dae_equations)) :: growth_start.
Definition growth_domain : domain R := run_dacts (new_domain ["t_M"]) [DDist "x_M"; DDist "z_M"].
Definition growth_curve (t0 a tau : R) : list R := [a * exp (3 * (tau - t0)); 3 * a * exp (3 * (tau - t0))]%R.
(** An integrator that knows the solutions. *)
Definition growth_ida (F : residual) (y0 yd0 : list R) (marks : list bool) (t0 e : R) (times : list R) : res (list R * list (list R)) :=
  match y0, marks with
  | [a; c], [true; false] => Ok (times, map (growth_curve t0 a) times)
  | [a; c], [false; true] => Ok (times, map (growth_curve t0 (c / 3)) times)
  | _, _ => Raise EValue
  end.
Lemma growth_function y1 y2 p q : dae_function print_one (the_block growth) [y1; y2] [p; q] = Ok [Some (p - y2); Some (y2 - y1 * 3)]%R.
Proof. vm_compute. reflexivity. Qed.
Lemma turned_function y1 y2 p q : dae_function print_one (the_block growth_turned) [y1; y2] [p; q] = Ok [Some (y2 - y1 * 3); Some (p - y2)]%R.
Proof. vm_compute. reflexivity. Qed.
Lemma growth_rate t0 a tau : derivable_pt_lim (fun s => a * exp (3 * (s - t0)))%R tau (3 * a * exp (3 * (tau - t0)))%R.
Proof.
  assert (L := cubic (- (3 * t0)) 3 0 0 tau). assert (C := derivable_pt_lim_comp _ _ _ _ _ L (derivable_pt_lim_exp _)).
  assert (M := derivable_pt_lim_mult _ _ _ _ _ (derivable_pt_lim_const a tau) C). unfold mult_fct, comp, fct_cte in M.
  refine (lim_ext _ _ _ _ _ _ _ M).
  - intros s. do 2 f_equal. ring.
  - replace (- (3 * t0) + 3 * tau + 0 * (tau * tau) + 0 * (tau * (tau * tau)))%R with (3 * (tau - t0))%R by ring. ring.
Qed.

Definition growth_system (F : residual) : Prop := forall y1 y2 p q, exists vs, F [y1; y2] [p; q] = Ok vs /\
  forall v, In v vs -> v = Some (p - y2)%R \/ v = Some (y2 - y1 * 3)%R \/ v = Some (- (p - y2))%R.
Lemma growth_is_one : growth_system (dae_function print_one (the_block growth)).
Proof. intros y1 y2 p q. rewrite growth_function. eexists. split; [reflexivity|]. intros v [<-|[<-|[]]]; auto. Qed.
Lemma turned_is_one : growth_system (dae_function print_one (the_block growth_turned)).
Proof. intros y1 y2 p q. rewrite turned_function. eexists. split; [reflexivity|]. intros v [<-|[<-|[]]]; auto. Qed.
Lemma growth_along F a times : growth_system F ->
  forall t0 y0 marks, List.length y0 = 2%nat ->
  (forall i, nth_error marks i = Some true -> nth_error (growth_curve t0 a t0) i = nth_error y0 i) ->
  dae_integrated F y0 marks t0 times (map (growth_curve t0 a) times) 0%R.
Proof.
  intros HF t0 y0 marks L M. exists (growth_curve t0 a), (fun tau => [3 * a * exp (3 * (tau - t0)); 3 * (3 * a) * exp (3 * (tau - t0))]%R).
  split; [exact M|]. split.
  - intros tau _. rewrite L. split; [reflexivity|]. split; [reflexivity|]. split.
    + unfold growth_curve. match goal with |- exists vs, F [?y1; ?y2] [?p; ?q] = _ /\ _ => destruct (HF y1 y2 p q) as (vs & Ev & Hv) end.
      exists vs. split; [exact Ev|]. intros v Hin. destruct (Hv v Hin) as [-> | [-> | ->]]; f_equal; ring.
    + intros i _. destruct i as [|[|i]].
      * exact (growth_rate t0 a tau).
      * exact (growth_rate t0 (3 * a) tau).
      * refine (lim_ext _ _ _ _ _ _ _ (derivable_pt_lim_const 0 tau)); [intros s; destruct i; reflexivity|destruct i; reflexivity].
  - induction times as [|tk times IH]; [constructor|]. cbn [map]. constructor; [|exact IH].
    unfold growth_curve. repeat (constructor; [rewrite Rminus_diag_eq, Rabs_R0 by reflexivity; lra|]). constructor.
Qed.
Lemma growth_solves F : growth_system F -> ida_solves growth_ida F 0%R.
Proof.
  intros HF y0 yd0 marks t0 e times ts rows E. unfold growth_ida in E.
  destruct y0 as [|a [|c [|z y0]]]; try discriminate E. destruct marks as [|[|] [|[|] [|x marks]]]; try discriminate E; injection E as _ <-;
    (apply growth_along; [exact HF|reflexivity|]); unfold growth_curve; rewrite Rminus_diag_eq, Rmult_0_r, exp_0 by reflexivity;
    intros [|[|i]] H; cbn in H; try discriminate H; cbn; try (f_equal; field). all: destruct i; discriminate H.
Qed.

Definition growth_table (names : dict string) (times : list R) (rows : list (list R)) : domain R :=
  match record_run growth_domain times (mkM 2 rows) names with (d, _) => d end.
Lemma growth_recorded names times f : record_run growth_domain times (mkM 2 (map f times)) names = (growth_table names times (map f times), Ok tt).
Proof. unfold growth_table, record_run, hstack. cbn [mx_rows]. rewrite map_length, Nat.eqb_refl. reflexivity. Qed.

Lemma growth_by_ida P a o l : oo_solver o = None \/ oo_solver o = Some "IDA" -> (exists e, oo_end o = Some e) -> dae_points o = Ok l ->
  dae_initial no_print print_one (the_block P) (pr_init (snd (final P))) = Ok ([PInt 1; PInt 9], [PInt 3; PFloat (SpecFloat.S754_zero false)]) ->
  (exists vs, dae_function print_one (the_block P) [1; 9]%R [3; 0]%R = Ok vs) ->
  (forall F e, growth_ida F [1; 9]%R [3; 0]%R (diff_flags (the_block P)) (oo_initial o) e l = Ok (l, map (growth_curve (oo_initial o) a) l)) ->
  dae_solve growth_ida print_one no_print (snd (final P)) (the_block P) o growth_domain =
    (growth_table (oo_names o) l (map (growth_curve (oo_initial o) a) l), Ok (l, map (growth_curve (oo_initial o) a) l)).
Proof.
  intros Es (e & Ee) Et Hk (vs & Hf) Hi. unfold dae_solve. rewrite Et. cbn [rbind]. rewrite Hk. cbn [rbind fst snd].
  assert (M : map_res real_of [PInt 1; PInt 9] = Ok [1; 9]%R) by reflexivity. rewrite M. cbn [rbind].
  assert (M' : map_res real_of [PInt 3; PFloat (SpecFloat.S754_zero false)] = Ok [3; 0]%R) by reflexivity. rewrite M'. cbn [rbind].
  destruct Es as [-> | ->]; rewrite Hf; cbn [rbind]; rewrite Ee, Hi; cbn [rbind List.length]; rewrite growth_recorded; reflexivity.
Qed.
Definition growth_run : ode_options := mkOO None 1%R (Some 3%R) (Some 2%Z) None [("z_M", "rate")].
Definition growth_points : list R := [1 + 0 * ((3 - 1) / 2); 1 + 1 * ((3 - 1) / 2); 1 + (1 + 1) * ((3 - 1) / 2)]%R.
Lemma growth_done : dae_solve growth_ida print_one no_print (snd (final growth)) (the_block growth) growth_run growth_domain =
  (growth_table [("z_M", "rate")] growth_points (map (growth_curve 1 1) growth_points), Ok (growth_points, map (growth_curve 1 1) growth_points)).
Proof.
  apply growth_by_ida; [now left|now exists 3%R|reflexivity|vm_compute; reflexivity| |].
  - rewrite growth_function. eexists. reflexivity.
  - assert (E : diff_flags (the_block growth) = [true; false]) by (vm_compute; reflexivity). rewrite E. reflexivity.
Qed.
Lemma turned_done : dae_solve growth_ida print_one no_print (snd (final growth_turned)) (the_block growth_turned) growth_run growth_domain =
  (growth_table [("z_M", "rate")] growth_points (map (growth_curve 1 (9 / 3)) growth_points), Ok (growth_points, map (growth_curve 1 (9 / 3)) growth_points)).
Proof.
  apply growth_by_ida; [now left|now exists 3%R|reflexivity|vm_compute; reflexivity| |].
  - rewrite turned_function. eexists. reflexivity.
  - assert (E : diff_flags (the_block growth_turned) = [false; true]) by (vm_compute; reflexivity). rewrite E. reflexivity.
Qed.

Definition growth_like (P : list act) : Prop := resolved P (final P) (the_block P) /\ all_ok start_session P /\ distinct_models P /\ readable_program P /\
  forallb tidy_act P = true /\ plain_origins P /\ known_statements P /\ dictionaries P.
Lemma growth_program : growth_like growth.
Proof.
  split; [apply run_resolved; vm_compute; reflexivity|]. split; [apply runs_all; vm_compute; reflexivity|].
  split; [apply (one_distinct growth "M"); vm_compute; reflexivity|]. split; [apply readable_by; vm_compute; reflexivity|].
  split; [vm_compute; reflexivity|]. split; [apply origins_by; vm_compute; reflexivity|]. split; [apply known_by; vm_compute; reflexivity|].
  intros c H. repeat (destruct H as [H|H]; [first [discriminate H|injection H as <-]|]); [|destruct H];
    repeat (constructor; [cbn; intuition discriminate|]); constructor.
Qed.
Lemma turned_program : growth_like growth_turned.
Proof.
  split; [apply run_resolved; vm_compute; reflexivity|]. split; [apply runs_all; vm_compute; reflexivity|].
  split; [apply (one_distinct growth_turned "M"); vm_compute; reflexivity|]. split; [apply readable_by; vm_compute; reflexivity|].
  split; [vm_compute; reflexivity|]. split; [apply origins_by; vm_compute; reflexivity|]. split; [apply known_by; vm_compute; reflexivity|].
  intros c H. repeat (destruct H as [H|H]; [first [discriminate H|injection H as <-]|]); [|destruct H];
    repeat (constructor; [cbn; intuition discriminate|]); constructor.
Qed.
Lemma growth_cleared : cleared growth_domain.
Proof. eexists. split; [reflexivity|]. split; [reflexivity|]. intros k f [H|[]]. injection H as <- <-. reflexivity. Qed.
Lemma growth_names : b_varlist (the_block growth) = ["x_M"; "z_M"].
Proof. vm_compute. reflexivity. Qed.
Lemma growth_parts : Forall2 (residual_ode print_one) (b_diff (the_block growth)) the_dae /\ closed_dae (the_block growth) the_dae.
Proof.
  apply dae_parts; [vm_compute; reflexivity|vm_compute; reflexivity|rewrite growth_names..]; [|cbn; auto|cbn; auto].
  repeat constructor; cbn; intuition discriminate.
Qed.

Example C80_case : growth_like growth /\ Forall2 (residual_ode print_one) (b_diff (the_block growth)) the_dae /\ closed_dae (the_block growth) the_dae /\
  states_first (b_varlist (the_block growth)) the_dae /\ (exists rest, b_eqs (the_block growth) = b_diff (the_block growth) ++ rest) /\
  ida_solves growth_ida (dae_function print_one (the_block growth)) 0%R /\
  cleared growth_domain /\ d_ind growth_domain = ["t_M"] /\ d_dep growth_domain = b_varlist (the_block growth) /\
  NoDup (map (header (oo_names growth_run)) (d_ind growth_domain ++ d_dep growth_domain)) /\
  exists d ts rows col, dae_solve growth_ida print_one no_print (snd (final growth)) (the_block growth) growth_run growth_domain = (d, Ok (ts, rows)) /\
    column d "t_M" (LName "rate") = Some col /\ col = [3; 3 * exp 3; 3 * exp 6]%R.
Proof.
  destruct growth_parts as [A B]. split; [exact growth_program|]. split; [exact A|]. split; [exact B|].
  split; [rewrite growth_names; exists ["z_M"]; reflexivity|].
  split. { exists (skipn 1 (b_eqs (the_block growth))). vm_compute. reflexivity. }
  split; [apply growth_solves, growth_is_one|]. split; [exact growth_cleared|]. split; [reflexivity|]. split; [rewrite growth_names; reflexivity|].
  split; [repeat constructor; cbn; intuition discriminate|].
  eexists _, _, _, _. split; [exact growth_done|]. split; [reflexivity|]. unfold growth_points, growth_curve. cbn [map nth].
  assert (E : forall a b, a = b -> (3 * 1 * exp (3 * (a - 1)) = 3 * exp (3 * (b - 1)))%R) by (intros a b ->; ring).
  f_equal; [|f_equal; [|f_equal]]; unfold growth_points; cbn.
  - rewrite (E _ 1%R) by field. rewrite Rminus_diag_eq, Rmult_0_r, exp_0 by reflexivity. ring.
  - rewrite (E _ 2%R) by field. do 2 f_equal. ring.
  - rewrite (E _ 3%R) by field. do 2 f_equal. ring.
Qed.

(** With the algebraic equation written first the second unknown is marked as the
    differential one: z keeps the 9 it was given as a guess, x starts at 3 instead of 1. *)
Theorem C80_marks_refuted : exists acts s b ida o d d' ts rows col k,
  resolved acts s b /\ all_ok start_session acts /\ distinct_models acts /\ readable_program acts /\
  forallb tidy_act acts = true /\ plain_origins acts /\ known_statements acts /\ dictionaries acts /\
  Forall2 (residual_ode print_one) (b_diff b) the_dae /\ states_first (b_varlist b) the_dae /\
  ida_solves ida (dae_function print_one b) 0%R /\ cleared d /\ d_ind d = ["t_M"] /\ d_dep d = b_varlist b /\
  dae_solve ida print_one no_print (snd s) b o d = (d', Ok (ts, rows)) /\
  starts_at acts "x_M" (PInt k) /\ column d' "t_M" (LName "x_M") = Some col /\ exists v, nth_error col 0 = Some v /\ (v = IZR k + 2)%R.
Proof.
  destruct turned_program as (A & B & C & D & E & F & G & H).
  assert (V : b_varlist (the_block growth_turned) = ["x_M"; "z_M"]) by (vm_compute; reflexivity).
  eexists growth_turned, (final growth_turned), (the_block growth_turned), growth_ida, growth_run, growth_domain, _, _, _, _, 1%Z.
  repeat (split; [assumption|]). split.
  { assert (W : map OdeFacts.view (b_diff (the_block growth_turned)) = [explicit_view "t_M" ("x_M", SSym "z_M")]) by (vm_compute; reflexivity).
    revert W. generalize (b_diff (the_block growth_turned)). intros [|e [|? ?]] W; try discriminate W. cbn [map OdeFacts.view] in W. injection W as _ _ W.
    constructor; [|constructor]. destruct (eq_expr e) as [n|] eqn:En; [|discriminate]. cbn in W. injection W as W.
    apply (usual_residual print_one e n); [exact En|exact W|reflexivity|split; [reflexivity|intros y [<-|[]]; reflexivity]]. }
  split; [rewrite V; exists ["z_M"]; reflexivity|]. split; [apply growth_solves, turned_is_one|]. split; [exact growth_cleared|]. split; [reflexivity|].
  split; [rewrite V; reflexivity|]. split; [exact turned_done|]. split.
  { exists (firstn 9 growth_turned), [("t_M", PInt 0); ("x_M", PInt 1); ("z_M", PInt 9); ("x_M_d", PInt 3)], []. split; [reflexivity|]. split; [reflexivity|intros c []]. }
  split; [reflexivity|]. eexists. split; [reflexivity|]. unfold growth_points. cbn.
  replace (3 * (1 + 0 * ((3 - 1) / 2) - 1))%R with 0%R by field. rewrite exp_0. field.
Qed.
Print Assumptions C80_marks_refuted.

(** The time points a user asks for are recorded by the ODE solver; here they are not
    looked at. *)
Theorem C80_times_refuted : exists acts s b ida o d d' ts rows wanted,
  resolved acts s b /\ ida_solves ida (dae_function print_one b) 0%R /\ oo_times o = Some wanted /\
  dae_solve ida print_one no_print (snd s) b o d = (d', Ok (ts, rows)) /\ time_points o = Ok wanted /\ ts <> wanted.
Proof.
  destruct growth_program as (A & _).
  eexists growth, (final growth), (the_block growth), growth_ida, (mkOO None 1%R (Some 3%R) (Some 2%Z) (Some [1; 3]%R) []), growth_domain, _, _, _, [1; 3]%R.
  split; [exact A|]. split; [apply growth_solves, growth_is_one|]. split; [reflexivity|]. split.
  - apply growth_by_ida with (a := 1%R) (l := growth_points); [now left|now exists 3%R|reflexivity|vm_compute; reflexivity| |].
    + rewrite growth_function. eexists. reflexivity.
    + assert (E : diff_flags (the_block growth) = [true; false]) by (vm_compute; reflexivity). rewrite E. reflexivity.
  - split; [reflexivity|]. intros H. discriminate H.
Qed.
Print Assumptions C80_times_refuted.
