(** C98: results of simulations keep account of what the equations keep account of. *)
From Verif Require Import Base BaseFacts Num UnitModel Sympy Node Build EquationModel ModelModel ProblemModel SpecUnits SpecExpr SpecModel SpecInc SpecCall SpecProblem
  ProblemFacts SessionFacts SpecLink SolverModel DomainModel SpecSolver SolverFacts SpecSymbols OdeFacts DaeFacts SpecWritten SpecExact SpecOwn SpecSession StudyFacts
  SpecSaid SaidFacts SpecCompose ComposeFacts SpecInit InitFacts SimModel RunModel SpecRun RunFacts WholeModel SpecWhole WholeFacts SpecUnique TameFacts UniqueFacts SpecSimulated
  DaeRunFacts SpecUniqueDae UniqueDaeFacts DaeAgreeFacts SpecDepend DependFacts SpecDependDae DependDaeFacts SpecConserve ConserveFacts
  Demo Properties07Problems Properties08Solvers Properties16Written Properties19Sessions Properties22Links Properties24Said Properties29Run Properties30Dae Properties32Compose Properties33Whole
  Properties34Unique Properties37Simulations Properties38Algebraic Properties44Depend Properties45DependDae.
From Verif Require SpecSim.
From Coq Require Import Reals Lra Lia.
Notation num := Verif.Num.num.

(** Functions of which equations are true: an amount that the equations make change at a
    rate between [lo] and [hi] changes by such a rate times the time that has passed. *)
Theorem C98_solutions : forall (here : env -> Prop) P t names a lo hi sol t0 ts,
  paced here P t a lo hi -> (forall x, In x (made_of a) -> x = t \/ In x names) ->
  obeys_all P t names t0 ts sol -> (forall tau en, during t0 ts tau -> at_moment t names sol tau en -> here en) ->
  forall tau, during t0 ts tau -> exists r, (lo <= r <= hi)%R /\
    worth (fun x => if String.eqb x t then tau else sol x tau) a = (worth (fun x => if String.eqb x t then t0 else sol x t0) a + r * (tau - t0))%R.
Proof. exact solutions_account. Qed.
Print Assumptions C98_solutions.

(** Full statement: whatever the equations of a problem conserve, or make change within
    bounds, the results of its simulations conserve or change within these bounds, counted
    from the initial values the user gave.  Missing: amounts that are not sums and products
    of variables with rates, and what C80 and C82 miss. *)
Theorem C98_runs_partial : forall (here : env -> Prop) a lo hi acts s b P t pn ode t0 ts d names eps,
  ode_problem acts s b P t pn ode -> paced here P t a lo hi -> (forall x, In x (made_of a) -> x = t \/ In x (map fst ode)) ->
  confined here acts P t (map fst ode) t0 ts -> recorded_run s b t pn ode t0 ts d names eps ->
  exists y0, given_start acts t (map fst ode) t0 y0 /\ keeps_account lo hi eps t (map fst ode) a d names t0 y0.
Proof. exact runs_account. Qed.
Print Assumptions C98_runs_partial.
Theorem C98_simulations_partial : forall (here : env -> Prop) a lo hi acts s b P t pn ode lib arrays ps h st doms sm sanity st1 doms1 ts rows o names eps t0,
  ode_problem acts s b P t pn ode -> paced here P t a lo hi -> (forall x, In x (made_of a) -> x = t \/ In x (map fst ode)) ->
  simulates s b t pn ode lib doms sm o names eps t0 ->
  whole_run lib arrays pn ps h st doms sm sanity = (st1, doms1, Ok (WRun ts rows)) -> confined here acts P t (map fst ode) (t0 ts) ts ->
  exists d y0, nth_error doms1 o = Some d /\ given_start acts t (map fst ode) (t0 ts) y0 /\ keeps_account lo hi eps t (map fst ode) a d names (t0 ts) y0.
Proof. exact simulations_account. Qed.
Print Assumptions C98_simulations_partial.
Theorem C98_dae_simulations_partial : forall (here : env -> Prop) a lo hi acts s b P t pn dae lib arrays ps h st doms sm sanity st1 doms1 out o names eps t0 e n,
  dae_problem acts s b P t pn dae -> paced here P t a lo hi -> (forall x, In x (made_of a) -> x = t \/ In x (dnames dae)) ->
  (forall x, In x (dnames dae) -> In x (b_varlist b)) ->
  dae_simulates s b t pn lib doms sm o names eps t0 e n ->
  whole_run lib arrays pn ps h st doms sm sanity = (st1, doms1, Ok out) ->
  (forall times, even_points times t0 e n -> dae_confined here acts P t (b_varlist b) (dnames dae) t0 times) ->
  exists d y0, nth_error doms1 o = Some d /\ given_start acts t (dnames dae) t0 y0 /\ keeps_account lo hi eps t (b_varlist b) a d names t0 y0.
Proof. exact dae_simulations_account. Qed.
Print Assumptions C98_dae_simulations_partial.

(** Of a table that keeps account of a weighed sum, the same sum of the recorded numbers is
    what was there plus what came in, up to the error of the numbers. *)
Theorem C98_sums : forall lo hi eps t names ws d headers t0 y0, (0 <= eps)%R -> (forall x, In x (map fst ws) -> In x names) ->
  keeps_account lo hi eps t names (weighed ws) d headers t0 y0 ->
  exists ts, column d t (LName (header headers t)) = Some ts /\ forall k tau, nth_error ts k = Some tau ->
    exists v r, (forall x, In x names -> row_says d t headers k x (v x)) /\ (lo <= r <= hi)%R /\
      (Rabs (worth v (weighed ws) - (worth y0 (weighed ws) + r * (tau - t0))) <= weights ws * eps)%R.
Proof. exact sums_account. Qed.
Print Assumptions C98_sums.

(** Amounts that change in proportion to themselves: what was there at the beginning never
    grows or shrinks faster than at these rates; a positive amount stays positive. *)
Theorem C98_growth_partial : forall (here : env -> Prop) a lo hi acts s b P t pn ode lib arrays ps h st doms sm sanity st1 doms1 ts rows o names eps t0,
  ode_problem acts s b P t pn ode -> compounds here P t a lo hi -> (forall x, In x (made_of a) -> x = t \/ In x (map fst ode)) ->
  simulates s b t pn ode lib doms sm o names eps t0 ->
  whole_run lib arrays pn ps h st doms sm sanity = (st1, doms1, Ok (WRun ts rows)) -> confined here acts P t (map fst ode) (t0 ts) ts ->
  exists d y0, nth_error doms1 o = Some d /\ given_start acts t (map fst ode) (t0 ts) y0 /\ keeps_growth lo hi eps t (map fst ode) a d names (t0 ts) y0.
Proof. exact simulations_growth. Qed.
Print Assumptions C98_growth_partial.
Theorem C98_dae_growth_partial : forall (here : env -> Prop) a lo hi acts s b P t pn dae lib arrays ps h st doms sm sanity st1 doms1 out o names eps t0 e n,
  dae_problem acts s b P t pn dae -> compounds here P t a lo hi -> (forall x, In x (made_of a) -> x = t \/ In x (dnames dae)) ->
  (forall x, In x (dnames dae) -> In x (b_varlist b)) ->
  dae_simulates s b t pn lib doms sm o names eps t0 e n ->
  whole_run lib arrays pn ps h st doms sm sanity = (st1, doms1, Ok out) ->
  (forall times, even_points times t0 e n -> dae_confined here acts P t (b_varlist b) (dnames dae) t0 times) ->
  exists d y0, nth_error doms1 o = Some d /\ given_start acts t (dnames dae) t0 y0 /\ keeps_growth lo hi eps t (b_varlist b) a d names t0 y0.
Proof. exact dae_simulations_growth. Qed.
Print Assumptions C98_dae_growth_partial.

(** What the equations and the initial values confine the solutions to, as [confined] of
    these theorems and of C89 asks for. *)
Theorem C98_pace_confines : forall acts P t names a lo hi t0 ts y0, dictionaries acts ->
  paced (fun _ => True) P t a lo hi -> (forall x, In x (made_of a) -> x = t \/ In x names) -> given_start acts t names t0 y0 ->
  (forall tk, In tk ts -> (t0 <= tk)%R) ->
  confined (fun en => lo * (e_sym en t - t0) <= worth (e_sym en) a - worth y0 a <= hi * (e_sym en t - t0))%R acts P t names t0 ts.
Proof. exact pace_confines. Qed.
Print Assumptions C98_pace_confines.
Theorem C98_growth_confines : forall acts P t names a lo hi t0 ts y0, dictionaries acts ->
  compounds (fun _ => True) P t a lo hi -> (forall x, In x (made_of a) -> x = t \/ In x names) -> given_start acts t names t0 y0 ->
  (forall tk, In tk ts -> (t0 <= tk)%R) ->
  confined (fun en => compounded lo hi (worth y0 a) (e_sym en t - t0) (worth (e_sym en) a)) acts P t names t0 ts.
Proof. exact growth_confines. Qed.
Print Assumptions C98_growth_confines.
Theorem C98_dae_growth_confines : forall acts P t names moves a lo hi t0 ts y0, dictionaries acts ->
  compounds (fun _ => True) P t a lo hi -> (forall x, In x (made_of a) -> x = t \/ In x moves) -> (forall x, In x moves -> In x names) ->
  given_start acts t moves t0 y0 -> (forall tk, In tk ts -> (t0 <= tk)%R) ->
  dae_confined (fun en => compounded lo hi (worth y0 a) (e_sym en t - t0) (worth (e_sym en) a)) acts P t names moves t0 ts.
Proof. exact dae_growth_confines. Qed.
Print Assumptions C98_dae_growth_confines.

(** ** Cases *)
(** dx/dt == 3t conserves 2x - 3t², and makes x change at a rate between -6 and 6 up to
    time 2. *)
Definition two_x : amount := am_sum (am_product (am_number 2) (am_of "x_M")) (am_product (am_number (-3)) (am_product (am_of "t_M") (am_of "t_M"))).
Lemma fall_rate en : (forall w, program_says fall w -> wr_value w en = Some 0%R) -> e_der en "x_M" "t_M" = (e_sym en "t_M" * 3)%R.
Proof.
  intros H. destruct (system_rates _ _ _ _ _ _ _ "x_M" (SMul (SSym "t_M") (SNum (PInt 3))) fall_problem (or_introl eq_refl)) as (g & (w & Hw & Hr) & E).
  assert (Eg := E en). rewrite (Hr en (H w Hw)) in Eg. cbn in Eg. congruence.
Qed.
Lemma fall_conserves : paced anywhere (program_says fall) "t_M" two_x 0 0.
Proof. intros en _ H. assert (Q := fall_rate en H). cbn. rewrite Q. lra. Qed.
Lemma fall_gains : paced early (program_says fall) "t_M" (weighed [("x_M", 1%R)]) (-6) 6.
Proof. intros en B H. assert (Q := fall_rate en H). cbn. rewrite Q. unfold early in B. assert (C := Rle_abs (e_sym en "t_M")). assert (C' := Rle_abs (- e_sym en "t_M")). rewrite Rabs_Ropp in C'. lra. Qed.
Lemma fall_parts_of : forall x, In x (made_of two_x) -> x = "t_M" \/ In x (map fst fall_ode).
Proof. intros x [<-|[<-|[<-|[]]]]; cbn; auto. Qed.
Lemma fall_part_of : forall x, In x (made_of (weighed [("x_M", 1%R)])) -> x = "t_M" \/ In x (map fst fall_ode).
Proof. intros x [<-|[]]; cbn; auto. Qed.
Lemma anywhere_confined acts P t names t0 ts : confined anywhere acts P t names t0 ts.
Proof. intros sol _ _ tau en _ _. exact I. Qed.
Example C98_solutions_case : paced anywhere (program_says fall) "t_M" two_x 0 0 /\ exists sol,
  obeys_all (program_says fall) "t_M" (map fst fall_ode) 0%R even_times sol /\ during 0%R even_times 2%R /\ sol "x_M" 2%R <> sol "x_M" 0%R.
Proof.
  split; [exact fall_conserves|].
  assert (Q := even_run). rewrite even_start in Q at 1. destruct (run_records _ _ _ _ _ _ _ _ _ _ _ _ fall_problem Q) as (_ & sol & St & Ob & _). exists sol.
  assert (D : during 0%R even_times 2%R). { exists (0 + (1 + 1) * ((2 - 0) / 2))%R. split; [cbn; auto|]. left. lra. }
  split; [exact Ob|]. split; [exact D|].
  destruct (C98_solutions anywhere _ _ _ two_x 0 0 sol _ _ fall_conserves fall_parts_of Ob (fun _ _ _ _ => I) 2%R D) as (r & B & E). cbn in E. lra.
Qed.
Example C98_runs_case : ode_problem fall (final fall) (the_block fall) (program_says fall) "t_M" print_one fall_ode /\
  paced anywhere (program_says fall) "t_M" two_x 0 0 /\ paced early (program_says fall) "t_M" (weighed [("x_M", 1%R)]) (-6) 6 /\
  (forall x, In x (made_of two_x) \/ In x (made_of (weighed [("x_M", 1%R)])) -> x = "t_M" \/ In x (map fst fall_ode)) /\
  confined anywhere fall (program_says fall) "t_M" (map fst fall_ode) 0%R even_times /\ confined early fall (program_says fall) "t_M" (map fst fall_ode) 0%R even_times /\
  recorded_run (final fall) (the_block fall) "t_M" print_one fall_ode 0%R even_times even_table (oo_names fall_run) 0%R.
Proof.
  split; [exact fall_problem|]. split; [exact fall_conserves|]. split; [exact fall_gains|]. split; [intros x [H|H]; [now apply fall_parts_of|now apply fall_part_of]|].
  split; [apply anywhere_confined|]. split; [apply early_confined|]. assert (Q := even_run). rewrite even_start in Q at 1. exact Q.
Qed.
(** What is conserved is in [C98_runs_case]. *)
Example C98_simulations_case :
  simulates (final fall) (the_block fall) "t_M" print_one fall_ode test_library [fall_domain] fall_by_adams 0 [("y_M", "height")] 0%R (fun _ => 0%R) /\
  exists rows d,
    whole_run test_library no_arrays print_one no_print (pw_heap (fst (final fall))) store0 [fall_domain] fall_by_adams true = (fall_store, [d], Ok (WRun fall_times rows)) /\
    confined anywhere fall (program_says fall) "t_M" (map fst fall_ode) 0%R fall_times.
Proof.
  split; [exact fall_simulates|].
  assert (T : time_points (fall_with "CVODE") = Ok fall_times) by reflexivity. assert (O := fall_by_cvode (fall_with "CVODE") fall_times 2%R eq_refl eq_refl T).
  eexists _, _. split; [refine (fall_runs _ _ (the_block fall) _ fall_solver fall_domain _ _ _ _ _ _ _ _ _ fall_made O); vm_compute; reflexivity|]. apply anywhere_confined.
Qed.
Example C98_sums_case : exists y0, given_start fall "t_M" (map fst fall_ode) 0%R y0 /\
  keeps_account (-6) 6 0 "t_M" (map fst fall_ode) (weighed [("x_M", 1%R)]) even_table (oo_names fall_run) 0%R y0 /\ In "x_M" (map fst fall_ode).
Proof.
  destruct C98_runs_case as (A & _ & B & _ & _ & C & D). destruct (C98_runs_partial early _ _ _ _ _ _ _ _ _ _ _ _ _ _ _ A B fall_part_of C D) as (y0 & G & K).
  exists y0. split; [exact G|]. split; [exact K|]. now left.
Qed.

(** dx/dt == z, z == 3*x from x = 1 at time 1: up to time 3 x grows at a rate between 3
    and 3*exp 6. *)
Definition grown (en : env) : Prop := (1 <= e_sym en "x_M" <= exp 6)%R.
Lemma growth_rate en : (forall w, program_says growth w -> wr_value w en = Some 0%R) -> e_der en "x_M" "t_M" = (3 * e_sym en "x_M")%R.
Proof.
  intros H. destruct (dae_change _ _ _ _ _ _ _ "x_M" _ growth_problem (or_introl eq_refl)) as (w & Hw & V). assert (A := V en (H w Hw)).
  assert (S : equals_said (program_says growth) "z_M" (den threefold)) by (apply (second_equation _ _ _ _ (proj1 growth_problem)); vm_compute; reflexivity).
  destruct S as (w' & Hw' & V'). assert (B := V' en (H w' Hw')). cbn in A, B. assert (e_sym en "z_M" = e_der en "x_M" "t_M") by congruence.
  assert (e_sym en "x_M" * 3 = e_sym en "z_M")%R by congruence. lra.
Qed.
Lemma growth_grows : paced grown (program_says growth) "t_M" (am_of "x_M") 3 (3 * exp 6).
Proof. intros en B H. assert (Q := growth_rate en H). cbn. rewrite Q. unfold grown in B. lra. Qed.
Lemma between_points times tau : even_points times 1%R 3%R 2 -> during 1%R times tau -> (1 <= tau <= 3)%R.
Proof.
  intros (L & A & B & C) (tk & Hk & D). destruct times as [|a [|b [|c [|? ?]]]]; cbn in L; try lia. cbn in A, B. injection A as ->. injection B as ->.
  assert (E := C 0%nat _ _ eq_refl eq_refl). assert (1 <= tk <= 3)%R by (destruct Hk as [<-|[<-|[<-|[]]]]; lra). destruct D; lra.
Qed.
Lemma growth_confined times : even_points times 1%R 3%R 2 -> dae_confined grown growth (program_says growth) "t_M" (b_varlist (the_block growth)) (dnames the_dae) 1%R times.
Proof.
  intros Ep sol St Ob tau en Du (_ & A & _). rewrite growth_names in *. assert (T := between_points times tau Ep Du).
  assert (X : sol "x_M" 1%R = 1%R).
  { destruct (St "x_M" (or_introl eq_refl)) as (k & v & K & V & E). apply (init_exact growth (proj1 (proj2 growth_problem))) in K.
    assert (I : dget "x_M" (pr_init (snd (run_acts start_session growth))) = Some (PInt 1)) by (vm_compute; reflexivity). rewrite I in K. injection K as <-.
    injection V as <-. exact E. }
  destruct (mean_rate (fun s => sol "x_M" s * exp (-3 * (s - 1)))%R 0 0 1 tau) as (r & B & E).
  { intros s Hs. exists 0%R. split; [lra|]. destruct (Ob s (during_between _ _ _ _ Du Hs)) as ((en' & M) & H). assert (G := growth_rate en' (H en' M)). destruct M as (_ & M1 & M2).
    assert (D := M2 "x_M" (or_introl eq_refl)). rewrite G, (M1 "x_M" (or_introl eq_refl)) in D.
    assert (F : derivable_pt_lim (fun s => exp (-3 * (s - 1))) s (exp (-3 * (s - 1)) * (-3))%R).
    { apply (derivable_pt_lim_comp (fun s => -3 * (s - 1))%R exp); [|apply derivable_pt_lim_exp].
      assert (K : derivable_pt_lim (mult_real_fct (-3) (fun s => s - 1))%R s (-3 * (1 - 0))%R).
      { apply derivable_pt_lim_scal, (derivable_pt_lim_minus (fun s => s) (fun _ => 1%R)); [apply derivable_pt_lim_id|apply derivable_pt_lim_const]. }
      replace (-3 * (1 - 0))%R with (-3)%R in K by ring. exact K. }
    assert (Q := derivable_pt_lim_mult _ _ _ _ _ D F). cbn in Q.
    replace 0%R with (3 * sol "x_M" s * exp (-3 * (s - 1)) + sol "x_M" s * (exp (-3 * (s - 1)) * -3))%R by ring. exact Q. }
  replace r with 0%R in E by lra. rewrite X in E. replace (-3 * (1 - 1))%R with 0%R in E by ring. rewrite exp_0 in E.
  assert (Y : sol "x_M" tau = exp (3 * (tau - 1))).
  { replace (exp (3 * (tau - 1))) with (sol "x_M" tau * exp (-3 * (tau - 1)) * exp (3 * (tau - 1)))%R by (rewrite E; ring).
    rewrite Rmult_assoc, <- exp_plus. replace (-3 * (tau - 1) + 3 * (tau - 1))%R with 0%R by ring. rewrite exp_0. ring. }
  unfold grown. rewrite (A "x_M" (or_introl eq_refl)), Y. split.
  - assert (1 + 3 * (tau - 1) <= exp (3 * (tau - 1)))%R by apply exp_ineq1_le. lra.
  - destruct (proj2 T) as [L| ->]; [left; apply exp_increasing; lra|right; f_equal; ring].
Qed.
Example C98_dae_simulations_case :
  dae_problem growth (final growth) (the_block growth) (program_says growth) "t_M" print_one the_dae /\
  paced grown (program_says growth) "t_M" (am_of "x_M") 3 (3 * exp 6) /\ (forall x, In x (made_of (am_of "x_M")) -> x = "t_M" \/ In x (dnames the_dae)) /\
  (forall x, In x (dnames the_dae) -> In x (b_varlist (the_block growth))) /\
  (forall times, even_points times 1%R 3%R 2 -> dae_confined grown growth (program_says growth) "t_M" (b_varlist (the_block growth)) (dnames the_dae) 1%R times) /\
  dae_simulates (final growth) (the_block growth) "t_M" print_one test_library [growth_domain] growth_simulation 0 [("z_M", "rate")] 0%R 1%R 3%R 2 /\
  exists ts rows d, whole_run test_library no_arrays print_one no_print (pw_heap (fst (final growth))) store0 [growth_domain] growth_simulation true =
      (growth_store, [d], Ok (WRun ts rows)).
Proof.
  split; [exact growth_problem|]. split; [exact growth_grows|]. split; [intros x [<-|[]]; right; now left|]. split; [intros x [<-|[]]; rewrite growth_names; now left|].
  split; [exact growth_confined|]. split; [exact growth_simulates|].
  assert (O : dae_solve growth_ida print_one no_print (snd (final growth)) (the_block growth) growth_with growth_domain =
    (growth_table [("z_M", "rate")] growth_points (map (growth_curve 1 1) growth_points), Ok (growth_points, map (growth_curve 1 1) growth_points))).
  { apply growth_by_ida; [now right|now exists 3%R|reflexivity|vm_compute; reflexivity| |].
    - rewrite growth_function. eexists. reflexivity.
    - assert (E : diff_flags (the_block growth) = [true; false]) by (vm_compute; reflexivity). rewrite E. reflexivity. }
  eexists _, _, _. refine (growth_runs _ (the_block growth) _ growth_domain _ _ _ _ _ _ _ _ O); vm_compute; reflexivity.
Qed.

(** x never shrinks and grows by no more than three times itself. *)
Definition begun (y : string) : R := if String.eqb y "x_M" then 2%R else if String.eqb y "y_M" then 5%R else 0%R.
Lemma fall_begun : given_start fall "t_M" (map fst fall_ode) 0%R begun.
Proof.
  split; [reflexivity|]. assert (D : dictionaries fall) by exact (proj1 (proj2 fall_problem)).
  assert (I : pr_init (snd (run_acts start_session fall)) = [("x_M", PInt 2); ("y_M", PInt 5); ("t_M", PInt 7)]) by (vm_compute; reflexivity).
  intros x [<-|[<-|[]]]; [exists (PInt 2)|exists (PInt 5)]; (split; [apply (init_exact fall D); rewrite I; reflexivity|reflexivity]).
Qed.
Lemma even_forward tk : In tk even_times -> (0 <= tk)%R.
Proof. intros [<-|[<-|[<-|[]]]]; lra. Qed.
Definition beyond (en : env) : Prop := (0 <= e_sym en "t_M" <= 2 /\ 2 <= e_sym en "x_M")%R.
Example C98_pace_confines_case : dictionaries fall /\ paced (fun _ => True) (program_says fall) "t_M" two_x 0 0 /\
  (forall x, In x (made_of two_x) -> x = "t_M" \/ In x (map fst fall_ode)) /\ given_start fall "t_M" (map fst fall_ode) 0%R begun /\
  (forall tk, In tk even_times -> (0 <= tk)%R).
Proof.
  split; [exact (proj1 (proj2 fall_problem))|]. split; [exact fall_conserves|]. split; [exact fall_parts_of|]. split; [exact fall_begun|exact even_forward].
Qed.
Example C98_growth_confines_case : compounds (fun _ => True) (program_says fall) "t_M" two_x 0 0.
Proof. intros en _ H. assert (Q := fall_rate en H). cbn. rewrite Q. lra. Qed.
Lemma beyond_confined : confined beyond fall (program_says fall) "t_M" (map fst fall_ode) 0%R even_times.
Proof.
  intros sol St Ob tau en Du A. destruct C98_pace_confines_case as (B & C & D & E & F). assert (Q := C98_pace_confines _ _ _ _ _ _ _ _ _ _ B C D E F sol St Ob tau en Du A).
  cbn in Q. assert (T := early_times tau Du). destruct A as (A & _). unfold beyond. rewrite A in *. split; [exact T|]. assert (0 <= tau * tau)%R by (apply Rmult_le_pos; lra). lra.
Qed.
Example C98_growth_case : compounds beyond (program_says fall) "t_M" (am_of "x_M") 0 3 /\ confined beyond fall (program_says fall) "t_M" (map fst fall_ode) 0%R fall_times.
Proof. split; [|exact beyond_confined]. intros en B H. assert (Q := fall_rate en H). cbn. rewrite Q. unfold beyond in B. lra. Qed.
Example C98_dae_growth_case : compounds (fun _ => True) (program_says growth) "t_M" (am_of "x_M") 3 3 /\ dictionaries growth /\
  given_start growth "t_M" (dnames the_dae) 1%R (fun _ => 1%R) /\
  (forall times, dae_confined (fun _ => True) growth (program_says growth) "t_M" (b_varlist (the_block growth)) (dnames the_dae) 1%R times) /\
  forall times, even_points times 1%R 3%R 2 -> forall tk, In tk times -> (1 <= tk)%R.
Proof.
  split; [intros en _ H; assert (Q := growth_rate en H); cbn; rewrite Q; lra|]. split; [exact (proj1 (proj2 growth_problem))|]. split.
  { split; [reflexivity|]. intros x [<-|[]]. exists (PInt 1). split; [|reflexivity]. apply (init_exact growth (proj1 (proj2 growth_problem))). vm_compute. reflexivity. }
  split; [intros times sol _ _ tau en _ _; exact I|].
  intros times Ep tk Hk. destruct Ep as (L & A & B & C). destruct times as [|a [|b [|c [|? ?]]]]; cbn in L; try lia. cbn in A, B. injection A as ->. injection B as ->.
  assert (E := C 0%nat _ _ eq_refl eq_refl). destruct Hk as [<-|[<-|[<-|[]]]]; lra.
Qed.
