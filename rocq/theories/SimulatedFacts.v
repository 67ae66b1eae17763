(** Facts about simulations of differential problems set up by any program (C83, C84). *)
From Verif Require Import Base BaseFacts Num UnitModel Sympy Node Build EquationModel ModelModel ProblemModel SpecUnits SpecExpr SpecModel SpecInc SpecCall SpecProblem
  ProblemFacts SessionFacts DofFacts SpecLink SolverModel DomainModel SpecSolver SolverFacts SpecSymbols OdeFacts SpecWritten SpecExact SpecOwn SpecSession
  WrittenFacts SpecSaid SaidFacts SpecInit InitFacts RunModel SpecRun RunFacts SimModel SimFacts WholeModel SpecWhole WholeFacts SpecUnique UniqueFacts SpecSimulated.
From Verif Require SpecSim.
From Coq Require Import Reals Lra.
Notation num := Verif.Num.num.

Lemma simulated_recorded acts s b P t pn ode lib arrays ps h st doms sm sanity st' doms' out o names eps t0 :
  ode_problem acts s b P t pn ode -> simulates s b t pn ode lib doms sm o names eps t0 ->
  whole_run lib arrays pn ps h st doms sm sanity = (st', doms', Ok out) ->
  exists ts rows d', out = WRun ts rows /\ only_domain o d' doms doms' /\ recorded_run s b t pn ode (t0 ts) ts d' names eps.
Proof.
  intros (Su & Dc & Pn & Wt & Ut & Tt & Fe & Cl & Eb & Un & Ne) [Hp Ho (d & Hd & Cd & Id & Dd & Nd) Hn En] H.
  destruct (stated_set_up _ _ _ _ Su) as (Re & Sta). destruct (resolved_block _ _ _ Re) as (_ & B & _).
  destruct (ode_whole s b lib arrays pn ps h st doms sm sanity st' doms' out o d B (proj2 Re) Eb (explicit_nonempty _ _ _ Fe Ne) Hp Ho Hd H)
    as (c & tn & k & ds & oo & d' & ts & rows & C & In_ & Op & S & -> & ->).
  destruct (run_options_read _ _ _ _ _ _ C Op) as (O1 & O2 & O3 & O4 & O5 & O6 & _ & O8). rewrite <- (O8 _ Hn) in *.
  exists ts, rows, d'. split; [reflexivity|]. split; [exact (set_nth_only _ _ _ _ Hd)|].
  destruct En as [(Hu & -> & Od)|(Hu & -> & Od)].
  - exact (rr_odeint s b t pn ode ps tn k ds (lib_odeint lib) (lib_cvode lib) eps oo d d' ts rows In_ Cd Id Dd Nd (O1 _ Hu) (Od _ _ _ In_) S).
  - assert (Sv : oo_solver oo = Some "CVODE").
    { unfold run_options in Op. bind Op. repeat bind Op. injection Op as <-. cbn [oo_solver].
      match goal with X : opt c "differential_solver" = Ok _ |- _ => rewrite (opt_same _ _ _ _ _ C Hu X) end. reflexivity. }
    exact (rr_cvode s b t pn ode ps tn k ds (lib_odeint lib) (lib_cvode lib) eps oo d d' ts rows In_ Cd Id Dd Nd Sv (Od _ _ _ In_) S).
Qed.

Lemma simulated_table acts s b P t pn ode lib arrays ps h st doms sm sanity st' doms' out o names eps t0 :
  ode_problem acts s b P t pn ode -> simulates s b t pn ode lib doms sm o names eps t0 ->
  whole_run lib arrays pn ps h st doms sm sanity = (st', doms', Ok out) ->
  exists ts rows d', out = WRun ts rows /\ only_domain o d' doms doms' /\ (forall x, In x (map fst ode) <-> rated_in P t x) /\
    exists sol, starts_right acts (map fst ode) (t0 ts) sol /\ obeys_all P t (map fst ode) (t0 ts) ts sol /\ recorded_as d' t names (map fst ode) ts sol eps.
Proof.
  intros O S H. destruct (simulated_recorded _ _ _ _ _ _ _ _ _ _ _ _ _ _ _ _ _ _ _ _ _ _ O S H) as (ts & rows & d' & E & Od & R).
  exists ts, rows, d'. do 2 (split; [assumption|]). exact (run_records _ _ _ _ _ _ _ _ _ _ _ _ O R).
Qed.

Lemma simulations_agree acts s b P t pn ode lib arrays ps h st doms sm sanity st1 doms1 ts rows o names eps t0
    acts' s' b' P' pn' ode' lib' arrays' ps' h' st' doms' sm' sanity' st1' doms1' ts' rows' o' names' eps' t0' :
  ode_problem acts s b P t pn ode -> ode_problem acts' s' b' P' t pn' ode' ->
  (forall x, In x (map fst ode) <-> In x (map fst ode')) -> same_rates P P' t (map fst ode) -> same_starts acts acts' (map fst ode) ->
  simulates s b t pn ode lib doms sm o names eps t0 -> simulates s' b' t pn' ode' lib' doms' sm' o' names' eps' t0' ->
  whole_run lib arrays pn ps h st doms sm sanity = (st1, doms1, Ok (WRun ts rows)) ->
  whole_run lib' arrays' pn' ps' h' st' doms' sm' sanity' = (st1', doms1', Ok (WRun ts' rows')) ->
  t0 ts = t0' ts' ->
  exists d d', nth_error doms1 o = Some d /\ nth_error doms1' o' = Some d' /\ agree_within (eps + eps') t (map fst ode) d names d' names'.
Proof.
  intros O O' En Sr Ss S S' H H' T.
  destruct (simulated_recorded _ _ _ _ _ _ _ _ _ _ _ _ _ _ _ _ _ _ _ _ _ _ O S H) as (ts1 & rows1 & d & E & (_ & Od & _) & R).
  destruct (simulated_recorded _ _ _ _ _ _ _ _ _ _ _ _ _ _ _ _ _ _ _ _ _ _ O' S' H') as (ts2 & rows2 & d' & E' & (_ & Od' & _) & R').
  injection E as <- <-. injection E' as <- <-. rewrite <- T in R'. exists d, d'. split; [exact Od|]. split; [exact Od'|].
  exact (runs_agree _ _ _ _ _ _ _ _ _ _ _ _ _ _ _ _ _ _ _ _ _ _ O O' En Sr Ss R R').
Qed.

Lemma simulations_repeat acts s b P t pn ode lib arrays ps h st doms sm sanity st1 doms1 ts rows o names eps t0
    lib' arrays' ps' h' st' doms' sm' sanity' st1' doms1' ts' rows' o' names' eps' t0' :
  ode_problem acts s b P t pn ode -> (forall x w g, P w -> rate w x t g -> steady t (map fst ode) g) ->
  simulates s b t pn ode lib doms sm o names eps t0 -> simulates s b t pn ode lib' doms' sm' o' names' eps' t0' ->
  whole_run lib arrays pn ps h st doms sm sanity = (st1, doms1, Ok (WRun ts rows)) ->
  whole_run lib' arrays' pn ps' h' st' doms' sm' sanity' = (st1', doms1', Ok (WRun ts' rows')) ->
  t0 ts = t0' ts' ->
  exists d d', nth_error doms1 o = Some d /\ nth_error doms1' o' = Some d' /\ agree_within (eps + eps') t (map fst ode) d names d' names'.
Proof.
  intros O St S S' H H' T.
  destruct (simulated_recorded _ _ _ _ _ _ _ _ _ _ _ _ _ _ _ _ _ _ _ _ _ _ O S H) as (ts1 & rows1 & d & E & (_ & Od & _) & R).
  destruct (simulated_recorded _ _ _ _ _ _ _ _ _ _ _ _ _ _ _ _ _ _ _ _ _ _ O S' H') as (ts2 & rows2 & d' & E' & (_ & Od' & _) & R').
  injection E as <- <-. injection E' as <- <-. rewrite <- T in R'. exists d, d'. split; [exact Od|]. split; [exact Od'|].
  exact (same_program_runs _ _ _ _ _ _ _ _ _ _ _ _ _ _ _ _ O St R R').
Qed.
