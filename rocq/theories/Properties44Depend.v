(** C89: simulations of equations that differ a little differ a little. *)
From Verif Require Import Base BaseFacts Num UnitModel Sympy Node Build EquationModel ModelModel ProblemModel SpecUnits SpecExpr SpecModel SpecInc SpecCall SpecProblem
  ProblemFacts SessionFacts SpecLink SolverModel DomainModel SpecSolver SolverFacts SpecSymbols OdeFacts DaeFacts SpecWritten SpecExact SpecOwn SpecSession StudyFacts
  SpecSaid SaidFacts SpecCompose ComposeFacts SpecInit InitFacts SimModel RunModel SpecRun RunFacts WholeModel SpecWhole SpecUnique TameFacts UniqueFacts SpecSimulated SpecDepend DependFacts
  Demo Properties07Problems Properties08Solvers Properties16Written Properties19Sessions Properties22Links Properties24Said Properties29Run Properties30Dae Properties32Compose Properties33Whole
  Properties34Unique Properties37Simulations.
From Verif Require SpecSim.
From Coq Require Import Reals Lra Lia.
From Coquelicot Require Import Rcomplements.
Notation num := Verif.Num.num.

(** Two families of functions, each obeying its equations: if the equations give nearly the
    same rates in the states they go through and they start near each other, they are near
    each other at all times, forwards and backwards. *)
Theorem C89_solutions : forall P P' t names sol sol' here L delta eta, (0 <= L)%R -> (0 <= delta)%R -> (0 <= eta)%R -> rates_near here L delta P P' t names ->
  forall t0 times times', obeys_all P t names t0 times sol -> obeys_all P' t names t0 times' sol' ->
  (forall tau en, during t0 times tau -> at_moment t names sol tau en -> here en) ->
  (forall tau en, during t0 times' tau -> at_moment t names sol' tau en -> here en) ->
  (forall x, In x names -> (Rabs (sol x t0 - sol' x t0) <= eta)%R) ->
  forall tau, during t0 times tau -> during t0 times' tau -> forall x, In x names ->
  (Rabs (sol x tau - sol' x tau) <= drift (List.length names) L eta delta (Rabs (tau - t0)))%R.
Proof. exact solutions_near. Qed.
Print Assumptions C89_solutions.

(** How much the value of a written expression changes with the state and with the values
    given to its quantities. *)
Theorem C89_sways : forall D D' B t names e L d M, sways D D' B t names e L d M ->
  forall en en', boxed B (t :: names) en -> boxed B (t :: names) en' -> e_sym en t = e_sym en' t ->
  forall a b, expr_value D en e = Some a -> expr_value D' en' e = Some b -> (Rabs a <= M /\ Rabs b <= M /\ Rabs (a - b) <= L * gap names en en' + d)%R.
Proof. exact sways_near. Qed.
Print Assumptions C89_sways.

(** The bounds of C89_sways are bounds for the rates written. *)
Theorem C89_written : forall D D' B L d P P' t names, written_alike D D' B L d P P' t names -> rates_near (boxed B (t :: names)) L d P P' t names.
Proof. exact written_near. Qed.
Print Assumptions C89_written.

(** Full statement: if two programs say nearly the same and give nearly the same initial
    values, the results of their simulations are nearly the same, whatever the
    integrator, its options, the time points and the headers.
    Differential-algebraic problems are in Properties45DependDae.v.  Missing: what C79
    and C82 miss. *)
Theorem C89_programs_partial : forall here L delta eta acts s b P t pn ode acts' s' b' P' pn' ode' t0 ts d names eps ts' d' names' eps',
  (0 <= L)%R -> (0 <= delta)%R -> (0 <= eta)%R ->
  ode_problem acts s b P t pn ode -> ode_problem acts' s' b' P' t pn' ode' ->
  (forall x, In x (map fst ode) <-> In x (map fst ode')) -> rates_near here L delta P P' t (map fst ode) -> starts_near eta acts acts' (map fst ode) ->
  confined here acts P t (map fst ode) t0 ts -> confined here acts' P' t (map fst ode) t0 ts' ->
  recorded_run s b t pn ode t0 ts d names eps -> recorded_run s' b' t pn' ode' t0 ts' d' names' eps' ->
  agree_by (fun tau => eps + eps' + drift (List.length ode) L eta delta (Rabs (tau - t0)))%R t (map fst ode) d names d' names'.
Proof. exact runs_near. Qed.
Print Assumptions C89_programs_partial.

(** The same for whole simulations (C83). *)
Theorem C89_simulations_partial : forall here L delta eta acts s b P t pn ode lib arrays ps h st doms sm sanity st1 doms1 ts rows o names eps t0
    acts' s' b' P' pn' ode' lib' arrays' ps' h' st' doms' sm' sanity' st1' doms1' ts' rows' o' names' eps' t0',
  (0 <= L)%R -> (0 <= delta)%R -> (0 <= eta)%R ->
  ode_problem acts s b P t pn ode -> ode_problem acts' s' b' P' t pn' ode' ->
  (forall x, In x (map fst ode) <-> In x (map fst ode')) -> rates_near here L delta P P' t (map fst ode) -> starts_near eta acts acts' (map fst ode) ->
  simulates s b t pn ode lib doms sm o names eps t0 -> simulates s' b' t pn' ode' lib' doms' sm' o' names' eps' t0' ->
  whole_run lib arrays pn ps h st doms sm sanity = (st1, doms1, Ok (WRun ts rows)) ->
  whole_run lib' arrays' pn' ps' h' st' doms' sm' sanity' = (st1', doms1', Ok (WRun ts' rows')) ->
  t0 ts = t0' ts' -> confined here acts P t (map fst ode) (t0 ts) ts -> confined here acts' P' t (map fst ode) (t0 ts) ts' ->
  exists d d', nth_error doms1 o = Some d /\ nth_error doms1' o' = Some d' /\
    agree_by (fun tau => eps + eps' + drift (List.length ode) L eta delta (Rabs (tau - t0 ts)))%R t (map fst ode) d names d' names'.
Proof. exact simulations_near. Qed.
Print Assumptions C89_simulations_partial.

(** ** Cases *)
(** dx/dt == k*x + sin(t) with k = 4 and with k = 5, for x up to 3 and t up to 2. *)
Definition other_things : dict thing := [("x", mkThing "x_M" (PInt 0) false); ("t", mkThing "t_M" (PInt 0) false); ("k", mkThing "k_M" (PInt 5) true)].
Definition forced : uexpr string := UBin BAdd (UBin BMul (UQty "k") (UQty "x")) (UFun FSin (UQty "t")).
Definition box (z : string) : R := if String.eqb z "x_M" then 3%R else 2%R.
Example C89_sways_case : sways two_things other_things box "t_M" ["x_M"] forced 5 3 16.
Proof.
  assert (A : sways two_things other_things box "t_M" ["x_M"] (UQty "k") 0 (Rabs (4 - 5)) (Rmax (Rabs 4) (Rabs 5))) by (refine (sw_given _ _ _ _ _ "k" _ _ 4 5 _ _ _ _ _ _); reflexivity).
  assert (B : sways two_things other_things box "t_M" ["x_M"] (UQty "x") 1 0 3) by (refine (sw_unknown two_things other_things box "t_M" ["x_M"] "x" (mkThing "x_M" (PInt 0) false) (mkThing "x_M" (PInt 0) false) _ _ _ _ _ _); first [reflexivity|now left]).
  assert (C : sways two_things other_things box "t_M" ["x_M"] (UQty "t") 0 0 2) by (refine (sw_time two_things other_things box "t_M" ["x_M"] "t" (mkThing "t_M" (PInt 0) false) (mkThing "t_M" (PInt 0) false) _ _ _ _ _ _); reflexivity).
  assert (S := sw_wave _ _ _ _ _ FSin _ _ _ _ (or_introl eq_refl) C). assert (P := sw_product _ _ _ _ _ _ _ _ _ _ _ _ _ A B).
  assert (Q := sw_sum _ _ _ _ _ BAdd _ _ _ _ _ _ _ _ (or_introl eq_refl) P S). refine (sw_more _ _ _ _ _ _ _ _ _ _ _ _ _ _ _ Q).
  all: replace (Rabs (4 - 5)) with 1%R by (rewrite Rabs_left; lra); rewrite (Rabs_pos_eq 4), (Rabs_pos_eq 5), Rmax_right by lra; lra.
Qed.

(** sqrt(x + k)^x, for x up to 3 and k + x at least 1. *)
Definition rooted : uexpr string := UBin BPow (UFun FSqrt (UBin BAdd (UQty "x") (UQty "k"))) (UQty "x").
Example C89_roots_case : exists L d M, sways two_things other_things box "t_M" ["x_M"] rooted L d M.
Proof.
  assert (K : forall D r, dget "k" D = Some (mkThing "k_M" r true) -> dget "x" D = Some (mkThing "x_M" (PInt 0) false) -> forall c, num_value r = Some c -> (4 <= c)%R ->
    keeps_off D box ["t_M"; "x_M"] (UBin BAdd (UQty "x") (UQty "k")) 1 /\ keeps_above D box ["t_M"; "x_M"] (UFun FSqrt (UBin BAdd (UQty "x") (UQty "k"))) 1).
  { intros D r Hk Hx c Hc Lc.
    assert (E : forall en, boxed box ["t_M"; "x_M"] en -> exists y, expr_value D en (UBin BAdd (UQty "x") (UQty "k")) = Some y /\ (1 <= y)%R).
    { intros en Bx. assert (B := Bx "x_M" (or_intror (or_introl eq_refl))). change (box "x_M") with 3%R in B. apply Rabs_le_between in B.
      exists (e_sym en "x_M" + c)%R. split; [cbn [expr_value]; rewrite Hx, Hk; unfold thing_value; cbn [th_set th_name th_value]; rewrite Hc; reflexivity|lra]. }
    split; intros en v Bx Hv; destruct (E en Bx) as (y & Ey & Ly).
    - assert (v = y) by congruence. subst v. rewrite Rabs_pos_eq; lra.
    - cbn [expr_value] in Hv. cbn [expr_value] in Ey. rewrite Ey in Hv. unfold fn_value in Hv. destruct (Rle_dec 0 y); [|discriminate]. injection Hv as <-.
      rewrite <- sqrt_1. now apply sqrt_le_1_alt. }
  assert (A : sways two_things other_things box "t_M" ["x_M"] (UQty "k") 0 (Rabs (4 - 5)) (Rmax (Rabs 4) (Rabs 5))) by (refine (sw_given _ _ _ _ _ "k" _ _ 4 5 _ _ _ _ _ _); reflexivity).
  assert (B : sways two_things other_things box "t_M" ["x_M"] (UQty "x") 1 0 3) by (refine (sw_unknown two_things other_things box "t_M" ["x_M"] "x" (mkThing "x_M" (PInt 0) false) (mkThing "x_M" (PInt 0) false) _ _ _ _ _ _); first [reflexivity|now left]).
  destruct (K two_things (PInt 4) eq_refl eq_refl 4%R eq_refl ltac:(lra)) as (O & U). destruct (K other_things (PInt 5) eq_refl eq_refl 5%R eq_refl ltac:(lra)) as (O' & U').
  do 3 eexists. refine (sw_raised _ _ _ _ _ _ _ _ _ _ _ _ _ 1 (sw_root _ _ _ _ _ _ _ _ _ 1 (sw_sum _ _ _ _ _ BAdd _ _ _ _ _ _ _ _ (or_introl eq_refl) B A) Rlt_0_1 O O') B Rlt_0_1 U U').
Qed.

Definition forced_by (D : dict thing) (w : written) : Prop := w = read_eq D "e" (UElem (UDiff "x" (Some "t")) forced).
Example C89_written_case : written_alike two_things other_things box 5 3 (forced_by two_things) (forced_by other_things) "t_M" ["x_M"].
Proof. intros x [<-|[]]. exists "e", "e", "x", "t", forced, 16%R. do 4 eexists. do 12 (split; [reflexivity|]). exact C89_sways_case. Qed.

(** Two solutions of dx/dt == x, exp(t) and 2*exp(t), whose difference does grow like that. *)
Lemma growing_obeys a times : obeys_all growing "t_M" ["x_M"] 0%R times (fun _ s => (a * exp s)%R).
Proof.
  assert (D : forall tau, derivable_pt_lim (fun s => a * exp s)%R tau (a * exp tau)%R) by (intros tau; exact (derivable_pt_lim_scal exp a tau _ (derivable_pt_lim_exp tau))).
  intros tau _. split.
  - exists (mkEnv (fun z => if String.eqb z "t_M" then tau else (a * exp tau)%R) (fun _ _ => (a * exp tau)%R)). split; [reflexivity|]. intros x [<-|[]].
    split; [reflexivity|apply D].
  - intros en (_ & A) w ->. destruct (A "x_M" (or_introl eq_refl)) as (E1 & E2). cbn. rewrite E1, (uniqueness_limite _ _ _ _ E2 (D tau)). f_equal. lra.
Qed.
Example C89_solutions_case : rates_near (fun _ => True) 1 0 growing growing "t_M" ["x_M"] /\
  obeys_all growing "t_M" ["x_M"] 0%R [1; -2]%R (fun _ s => 1 * exp s)%R /\ obeys_all growing "t_M" ["x_M"] 0%R [1; -2]%R (fun _ s => 2 * exp s)%R /\
  (Rabs (1 * exp 0 - 2 * exp 0) <= 1)%R /\ Rabs (1 * exp 1 - 2 * exp 1) = drift 1 1 1 0 (Rabs (1 - 0)).
Proof.
  split; [|split; [apply growing_obeys|split; [apply growing_obeys|split]]].
  - intros x [<-|[]]. exists (fun en => Some (e_sym en "x_M")), (fun en => Some (e_sym en "x_M")).
    assert (Rs : rate_said growing "x_M" "t_M" (fun en => Some (e_sym en "x_M"))).
    { eapply rate_of_sides; reflexivity. }
    do 2 (split; [exact Rs|]). intros en en' _ _ _ u v Hu Hv. injection Hu as <-. injection Hv as <-. unfold gap. cbn [fold_right]. lra.
  - rewrite exp_0, Rabs_left; lra.
  - unfold drift. cbn [INR]. rewrite sqrt_1, Rminus_0_r, Rabs_R1. assert (P := exp_pos 1). rewrite Rabs_left by lra.
    replace (1 * 1 * 1)%R with 1%R by ring. lra.
Qed.

(** The problem fall of C79, and one with dx/dt == 4*t whose y starts at 6. *)
Definition heavy : list act :=
  [ANew "M" (mkDecls [] [] [] [CEq "e" "e" (UElem (UDiff "x" (Some "t")) (UNumL BMul (PInt 4) (UQty "t"))) true]);
   AStmt 0%nat (dvar "t"); AStmt 0%nat (dvar "y"); AStmt 0%nat (dvar "x");
   AStmt 0%nat (CDist "x"); AStmt 0%nat (CDist "y"); ACall 0%nat;
   AStmt 0%nat (CEq "f" "f" (UElem (UDiff "y" (Some "t")) (UQty "x")) true);
   AAdd 0%nat; ATime ["t_M"]; AInit [("x_M", PInt 2); ("y_M", PInt 6); ("t_M", PInt 7)]].
Definition heavy_ode : list (string * sx) := [("x_M", SMul (SSym "t_M") (SNum (PInt 4))); ("y_M", SSym "x_M")].
Definition heavy_curve (t0 a c tau : R) : list R :=
  [a + 2 * (tau * tau - t0 * t0); c + (a - 2 * (t0 * t0)) * (tau - t0) + 2 / 3 * (tau * (tau * tau) - t0 * (t0 * t0))]%R.
Definition heavy_odeint (f : rhs) (y0 times : list R) : res (list (list R)) :=
  match y0 with [a; c] => Ok (map (heavy_curve (hd 0%R times) a c) times) | _ => Raise EValue end.
Lemma heavy_explicit : Forall2 (explicit "t_M") (b_diff (the_block heavy)) heavy_ode.
Proof. apply OdeFacts.views_explicit. vm_compute. reflexivity. Qed.
Lemma heavy_closed : closed_system "t_M" heavy_ode.
Proof.
  split; [repeat constructor; cbn; intuition discriminate|]. split; [cbn; intuition discriminate|].
  intros x r [H|[H|[]]]; injection H as <- <-; (split; [intros z Hz; cbn in *; intuition congruence|split; [reflexivity|split; [|discriminate]]]);
    intros y Hy; cbn in Hy; repeat (destruct Hy as [<-|Hy]; [split; [intros H; first [reflexivity|discriminate H]|reflexivity]|]); destruct Hy.
Qed.
Lemma heavy_unknowns : ode_unknowns "t_M" heavy_ode (b_varlist (the_block heavy)).
Proof.
  assert (E : b_varlist (the_block heavy) = ["t_M"; "y_M"; "x_M"]) by (vm_compute; reflexivity). rewrite E.
  split; [repeat constructor; cbn; intuition discriminate|].
  assert (U : uses_time "t_M" heavy_ode) by (exists "x_M", (SMul (SSym "t_M") (SNum (PInt 4))); split; [now left|now left]).
  intros x. cbn. intuition.
Qed.
Lemma heavy_one_kind : b_eqs (the_block heavy) = b_diff (the_block heavy).
Proof. vm_compute. reflexivity. Qed.
Definition heavy_init : dict num := pr_init (snd (final heavy)).
Definition heavy_solver : dsolver :=
  match dsolver_init (the_block heavy) heavy_init (TNames ["t_M"]) true with Ok ds => ds | Raise _ => mkDS [] [] None end.
Lemma heavy_made : dsolver_init (the_block heavy) heavy_init (TNames ["t_M"]) true = Ok heavy_solver.
Proof. unfold heavy_solver. destruct (ok_solver (the_block heavy) heavy_init (TNames ["t_M"]) true) as (s & Es); [vm_compute; reflexivity|]. rewrite Es. reflexivity. Qed.
Definition heavy_system (f : rhs) : Prop := forall x y tau, f [x; y] tau = Ok [Some (tau * 4)%R; Some x].
Lemma heavy_all_rates tn k ds : dsolver_init (the_block heavy) (pr_init (snd (final heavy))) tn k = Ok ds -> heavy_system (rates print_one (snd (final heavy)) (the_block heavy) ds).
Proof.
  intros Hd x y tau. set (en := mkEnv (fun z => if String.eqb z "t_M" then tau else nth (if String.eqb z "x_M" then 0 else 1) [x; y] 0%R) (fun _ _ => 0%R)).
  unfold rates.
  rewrite (ode_rhs "t_M" print_one (snd (final heavy)) (the_block heavy) heavy_init tn k ds heavy_ode [x; y] tau en);
    [reflexivity|exact print_one_ok|reflexivity|reflexivity|vm_compute; reflexivity|exact heavy_explicit|exact heavy_closed|
     intros _; split; [exact heavy_one_kind|exact heavy_unknowns]|discriminate|exact Hd|].
  split; [reflexivity|]. split; [|reflexivity]. intros [|[|j]] z r H; cbn in H; try (injection H as <- <-; reflexivity). destruct j; discriminate.
Qed.
Lemma heavy_flow f t0 a c times : heavy_system f -> integrated f [a; c] t0 times (map (heavy_curve t0 a c) times) 0%R.
Proof.
  intros Hf. exists (heavy_curve t0 a c). split; [unfold heavy_curve; f_equal; [|f_equal]; field|]. split.
  - intros tau _. split; [reflexivity|]. eexists. split; [apply Hf|].
    intros [|[|j]] Hj; [| |cbn in Hj; lia]; (eexists; split; [reflexivity|]).
    + refine (lim_ext _ _ _ _ _ _ _ (cubic (a - 2 * (t0 * t0)) 0 2 0 tau)%R); [intros s; cbn; field|field].
    + refine (lim_ext _ _ _ _ _ _ _ (cubic (c - (a - 2 * (t0 * t0)) * t0 - 2 / 3 * (t0 * (t0 * t0))) (a - 2 * (t0 * t0)) 0 (2 / 3) tau)%R);
        [intros s; cbn; field|field].
  - induction times as [|tk times IH]; [constructor|]. cbn [map]. constructor; [|exact IH].
    unfold heavy_curve. repeat (constructor; [rewrite Rminus_diag_eq, Rabs_R0 by reflexivity; lra|]). constructor.
Qed.
Lemma heavy_odeint_solves f : heavy_system f -> odeint_solves heavy_odeint f 0%R.
Proof. intros Hf y0 times rows E. destruct y0 as [|a [|c [|z y0]]]; try discriminate E. injection E as <-. now apply heavy_flow. Qed.
Lemma heavy_starts : initial_state no_print heavy_solver (pr_init (snd (final heavy))) = Ok [PInt 2; PInt 6].
Proof. vm_compute. reflexivity. Qed.
Lemma heavy_by_odeint o l : oo_solver o = Some "ODEINT" -> time_points o = Ok l ->
  ode_solve heavy_odeint fall_cvode print_one no_print (snd (final heavy)) (the_block heavy) heavy_solver o fall_domain =
    (fall_table (oo_names o) l (map (heavy_curve (hd 0%R l) 2 6) l), Ok (l, map (heavy_curve (hd 0%R l) 2 6) l)).
Proof.
  intros Es Et. unfold ode_solve. rewrite heavy_starts. cbn [rbind]. rewrite Et. cbn [rbind].
  assert (M : map_res real_of [PInt 2; PInt 6] = Ok [2; 6]%R) by reflexivity. rewrite M. cbn [rbind].
  assert (J : forall f, integrate heavy_odeint fall_cvode o f [2; 6]%R l = Ok (l, map (heavy_curve (hd 0%R l) 2 6) l))
    by (intros f; unfold integrate; rewrite Es; reflexivity).
  rewrite J. cbn [rbind List.length]. rewrite fall_recorded. reflexivity.
Qed.
Lemma heavy_program : resolved heavy (final heavy) (the_block heavy) /\ all_ok start_session heavy /\ distinct_models heavy /\ readable_program heavy /\
  forallb tidy_act heavy = true /\ plain_origins heavy /\ known_statements heavy /\ dictionaries heavy /\ times_by heavy ["t_M"].
Proof.
  split; [apply run_resolved; vm_compute; reflexivity|]. split; [apply runs_all; vm_compute; reflexivity|].
  split; [apply (one_distinct heavy "M"); vm_compute; reflexivity|]. split; [apply readable_by; vm_compute; reflexivity|].
  split; [vm_compute; reflexivity|]. split; [apply origins_by; vm_compute; reflexivity|]. split; [apply known_by; vm_compute; reflexivity|]. split.
  - intros c H. repeat (destruct H as [H|H]; [first [discriminate H|injection H as <-]|]); [|destruct H];
      repeat (constructor; [cbn; intuition discriminate|]); constructor.
  - exists (firstn 9 heavy), (skipn 10 heavy). split; [reflexivity|]. intros n [H|[]]; discriminate H.
Qed.
Lemma heavy_problem : ode_problem heavy (final heavy) (the_block heavy) (program_says heavy) "t_M" print_one heavy_ode.
Proof.
  destruct heavy_program as (A & B & C & D & E & F & G & H & I). split; [now apply su_plain|]. split; [exact H|]. split; [exact print_one_ok|].
  do 2 (split; [reflexivity|]). split; [exact I|]. split; [exact heavy_explicit|]. split; [exact heavy_closed|]. split; [exact heavy_one_kind|].
  split; [exact heavy_unknowns|discriminate].
Qed.
Definition heavy_library : library := mkLib checker heavy_odeint fall_cvode growth_ida.
Notation heavy_by_lsoda := (configured (snd (final heavy)) (fall_conf "ODEINT")).
Lemma heavy_simulates : simulates (final heavy) (the_block heavy) "t_M" print_one heavy_ode heavy_library [fall_domain] heavy_by_lsoda 0 [("y_M", "height")] 0%R (hd 0%R).
Proof.
  constructor.
  - reflexivity.
  - apply fall_option; [reflexivity|discriminate].
  - exists fall_domain. split; [reflexivity|]. split; [exact fall_cleared|]. do 2 (split; [reflexivity|]). repeat constructor; cbn; intuition discriminate.
  - apply fall_option; [reflexivity|discriminate].
  - left. split; [right; apply fall_option; [reflexivity|discriminate]|]. split; [reflexivity|]. intros tn k ds Hd. exact (heavy_odeint_solves _ (heavy_all_rates _ _ _ Hd)).
Qed.
Lemma library_runs lib k p b h ds d d' ts rows : pr_block p = Some b -> choose_solver None b = Ok DSolver -> create_solver b = Ok DSolver -> dof_test print_one h p = Ok true ->
  pr_time p = Some ["t_M"] -> dmem "t_M" (pr_init p) = true -> dsolver_init b (pr_init p) (TNames ["t_M"]) true = Ok ds ->
  ode_solve (lib_odeint lib) (lib_cvode lib) print_one no_print p b ds (fall_with k) d = (d', Ok (ts, rows)) ->
  whole_run lib no_arrays print_one no_print h store0 [d] (configured p (fall_conf k)) true = (fall_store, [d'], Ok (WRun ts rows)).
Proof.
  intros Hb T K D Tm Hm Hd Hs.
  assert (C : sm_conf (configured p (fall_conf k)) = Some (dset "time_variable_name" (VList [VStr "t_M"]) (kw_dict (fall_conf k)))).
  { unfold configured, set_configurations. cbn -[time_value]. unfold time_value. rewrite Tm. reflexivity. }
  eapply run_as; [|exact Hb|exact C|reflexivity|reflexivity|exact T| |]; [reflexivity| |].
  - unfold make_solver. rewrite K. cbn -[dmem pr_init]. cbn -[pr_init] in Hm. rewrite Hm. reflexivity.
  - unfold run_solver. rewrite D.
    match goal with |- context [opt ?c "time_variable_name"] => change (opt c "time_variable_name") with (Ok (VList [VStr "t_M"])) end. cbn [rbind tname_of forallb andb flat_map app].
    match goal with |- context [opt ?c "compilation_mechanism"] => change (opt c "compilation_mechanism") with (Ok (VStr "numpy")) end. cbn [rbind].
    match goal with |- context [opt ?c "compile_equations"] => change (opt c "compile_equations") with (Ok (VBool true)) end. cbn [rbind holds_true]. rewrite Hd. cbn [rbind].
    match goal with |- context [run_options ?a ?c ?n ?w] => change (run_options a c n w) with (Ok (fall_with k)) end. cbn [rbind].
    match goal with |- context [opt ?c "domain"] => change (opt c "domain") with (Ok (VObj 0)) end. cbn [rbind domain_option nth_error]. rewrite Hs. reflexivity.
Qed.

(** Up to time 2 the rates differ by at most 2 and the difference of the states. *)
Definition early (en : env) : Prop := (Rabs (e_sym en "t_M") <= 2)%R.
Lemma heavy_near : rates_near early 1 2 (program_says fall) (program_says heavy) "t_M" (map fst fall_ode).
Proof.
  intros x [<-|[<-|[]]].
  - destruct (system_rates _ _ _ _ _ _ _ "x_M" (SMul (SSym "t_M") (SNum (PInt 3))) fall_problem (or_introl eq_refl)) as (g & G & E).
    destruct (system_rates _ _ _ _ _ _ _ "x_M" (SMul (SSym "t_M") (SNum (PInt 4))) heavy_problem (or_introl eq_refl)) as (g' & G' & E').
    exists g, g'. do 2 (split; [assumption|]). intros en en' H _ T u v Hu Hv. rewrite E in Hu. rewrite E' in Hv.
    injection Hu as <-. injection Hv as <-. rewrite <- T. assert (Q := gap_nonneg (map fst fall_ode) en en').
    replace (e_sym en "t_M" * 3 - e_sym en "t_M" * 4)%R with (- e_sym en "t_M")%R by ring. rewrite Rabs_Ropp. unfold early in H. lra.
  - destruct (system_rates _ _ _ _ _ _ _ "y_M" (SSym "x_M") fall_problem (or_intror (or_introl eq_refl))) as (g & G & E).
    destruct (system_rates _ _ _ _ _ _ _ "y_M" (SSym "x_M") heavy_problem (or_intror (or_introl eq_refl))) as (g' & G' & E').
    exists g, g'. do 2 (split; [assumption|]). intros en en' _ _ T u v Hu Hv. rewrite E in Hu. rewrite E' in Hv.
    injection Hu as <-. injection Hv as <-. unfold gap. cbn [map fst fall_ode fold_right]. assert (Q := Rabs_pos (e_sym en "y_M" - e_sym en' "y_M")). lra.
Qed.
Lemma early_times tau : during 0%R even_times tau -> (0 <= tau <= 2)%R.
Proof. intros (tk & Hk & D). assert (0 <= tk <= 2)%R by (destruct Hk as [<-|[<-|[<-|[]]]]; lra). destruct D; lra. Qed.
Lemma early_confined acts P : confined early acts P "t_M" (map fst fall_ode) 0%R even_times.
Proof. intros sol _ _ tau en H (T & _). unfold early. rewrite T, Rabs_pos_eq; apply early_times in H; lra. Qed.
Lemma heavy_starts_near : starts_near 1 fall heavy (map fst fall_ode).
Proof.
  intros x k k' v v' Hx K K' V V'.
  assert (D : dictionaries fall) by exact (proj1 (proj2 fall_problem)). assert (D' : dictionaries heavy) by exact (proj1 (proj2 heavy_problem)).
  apply (init_exact fall D) in K. apply (init_exact heavy D') in K'.
  assert (I : pr_init (snd (run_acts start_session fall)) = [("x_M", PInt 2); ("y_M", PInt 5); ("t_M", PInt 7)]) by (vm_compute; reflexivity).
  assert (I' : pr_init (snd (run_acts start_session heavy)) = [("x_M", PInt 2); ("y_M", PInt 6); ("t_M", PInt 7)]) by (vm_compute; reflexivity).
  rewrite I in K. rewrite I' in K'. destruct Hx as [<-|[<-|[]]]; cbn in K, K'; injection K as <-; injection K' as <-; injection V as <-; injection V' as <-.
  - rewrite Rminus_eq_0, Rabs_R0. lra.
  - rewrite Rabs_left; lra.
Qed.
Example C89_programs_case :
  ode_problem fall (final fall) (the_block fall) (program_says fall) "t_M" print_one fall_ode /\
  ode_problem heavy (final heavy) (the_block heavy) (program_says heavy) "t_M" print_one heavy_ode /\
  (forall x, In x (map fst fall_ode) <-> In x (map fst heavy_ode)) /\ rates_near early 1 2 (program_says fall) (program_says heavy) "t_M" (map fst fall_ode) /\
  starts_near 1 fall heavy (map fst fall_ode) /\
  confined early fall (program_says fall) "t_M" (map fst fall_ode) 0%R even_times /\ confined early heavy (program_says heavy) "t_M" (map fst fall_ode) 0%R even_times /\
  recorded_run (final fall) (the_block fall) "t_M" print_one fall_ode 0%R even_times even_table (oo_names fall_run) 0%R /\
  exists d', recorded_run (final heavy) (the_block heavy) "t_M" print_one heavy_ode 0%R even_times d' (oo_names fall_run) 0%R.
Proof.
  split; [exact fall_problem|]. split; [exact heavy_problem|]. split; [intros x; reflexivity|]. split; [exact heavy_near|]. split; [exact heavy_starts_near|].
  split; [apply early_confined|]. split; [apply early_confined|]. split; [assert (Q := even_run); rewrite even_start in Q at 1; exact Q|].
  exists (fall_table (oo_names fall_run) even_times (map (heavy_curve (hd 0%R even_times) 2 6) even_times)).
  assert (Q : recorded_run (final heavy) (the_block heavy) "t_M" print_one heavy_ode (hd 0%R even_times) even_times
    (fall_table (oo_names fall_run) even_times (map (heavy_curve (hd 0%R even_times) 2 6) even_times)) (oo_names fall_run) 0%R).
  { refine (rr_odeint (final heavy) (the_block heavy) "t_M" print_one heavy_ode no_print (TNames ["t_M"]) true heavy_solver heavy_odeint fall_cvode 0%R fall_run fall_domain
      _ even_times (map (heavy_curve (hd 0%R even_times) 2 6) even_times) heavy_made fall_cleared eq_refl eq_refl _ (or_intror eq_refl) (heavy_odeint_solves _ (heavy_all_rates _ _ _ heavy_made)) _).
    - repeat constructor; cbn; intuition discriminate.
    - apply heavy_by_odeint; reflexivity. }
  rewrite even_start in Q at 1. exact Q.
Qed.
(** What is near of both is in [C89_programs_case]. *)
Example C89_simulations_case :
  simulates (final fall) (the_block fall) "t_M" print_one fall_ode test_library [fall_domain] fall_by_adams 0 [("y_M", "height")] 0%R (fun _ => 0%R) /\
  simulates (final heavy) (the_block heavy) "t_M" print_one heavy_ode heavy_library [fall_domain] heavy_by_lsoda 0 [("y_M", "height")] 0%R (hd 0%R) /\
  exists rows d rows' d',
    whole_run test_library no_arrays print_one no_print (pw_heap (fst (final fall))) store0 [fall_domain] fall_by_adams true = (fall_store, [d], Ok (WRun fall_times rows)) /\
    whole_run heavy_library no_arrays print_one no_print (pw_heap (fst (final heavy))) store0 [fall_domain] heavy_by_lsoda true =
      (fall_store, [d'], Ok (WRun fall_times rows')) /\
    0%R = hd 0%R fall_times /\ confined early fall (program_says fall) "t_M" (map fst fall_ode) 0%R fall_times /\
    confined early heavy (program_says heavy) "t_M" (map fst fall_ode) 0%R fall_times.
Proof.
  split; [exact fall_simulates|]. split; [exact heavy_simulates|].
  assert (T : time_points (fall_with "CVODE") = Ok fall_times) by reflexivity. assert (O := fall_by_cvode (fall_with "CVODE") fall_times 2%R eq_refl eq_refl T).
  assert (T' : time_points (fall_with "ODEINT") = Ok fall_times) by reflexivity. assert (O' := heavy_by_odeint (fall_with "ODEINT") fall_times eq_refl T').
  eexists _, _, _, _. split; [refine (fall_runs _ _ (the_block fall) _ fall_solver fall_domain _ _ _ _ _ _ _ _ _ fall_made O); vm_compute; reflexivity|].
  split; [refine (library_runs heavy_library _ _ (the_block heavy) _ heavy_solver fall_domain _ _ _ _ _ _ _ _ _ heavy_made O'); vm_compute; reflexivity|].
  split; [cbn; lra|]. split; apply early_confined.
Qed.
