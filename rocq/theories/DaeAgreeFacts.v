(** Proofs: simulations of the same differential-algebraic equations agree (C83, C84). *)
From Verif Require Import Base BaseFacts Num UnitModel Sympy Node Build EquationModel ModelModel ProblemModel SpecUnits SpecExpr SpecModel SpecInc SpecCall SpecProblem
  ProblemFacts SessionFacts DofFacts SpecLink SolverModel DomainModel SpecSolver SolverFacts SpecSymbols OdeFacts DaeFacts SpecWritten SpecExact SpecOwn SpecSession
  WrittenFacts SpecSaid SaidFacts SpecInit InitFacts RunModel SpecRun RunFacts DaeRunFacts SimModel SimFacts WholeModel SpecWhole WholeFacts SpecUnique TameFacts UniqueFacts
  SpecUniqueDae UniqueDaeFacts.
From Verif Require SpecSim.
From Coq Require Import Reals Lra.
Notation num := Verif.Num.num.
Open Scope R_scope.

Lemma dae_simulated_table acts s b P t pn dae lib arrays ps h st doms sm sanity st' doms' out o names eps t0 e n :
  dae_problem acts s b P t pn dae -> dae_simulates s b t pn lib doms sm o names eps t0 e n ->
  whole_run lib arrays pn ps h st doms sm sanity = (st', doms', Ok out) ->
  exists ts rows d' times sol, out = WRun ts rows /\ only_domain o d' doms doms' /\ even_points times t0 e n /\
    starts_right acts (dnames dae) t0 sol /\ dae_obeys_all P t (b_varlist b) (dnames dae) t0 times sol /\ recorded_as d' t names (b_varlist b) times sol eps.
Proof.
  intros (Su & Dc & Fe & Ne & Cl & St & Rest & Tm & Nt & Al) [Hp Ho (d & Hd & Cd & Id & Dd & Nd) Hn Od ((a & A1 & A2) & (f & F1 & F2) & N1 & N2)] H.
  destruct (stated_set_up _ _ _ _ Su) as (Re & Sta). destruct (resolved_block _ _ _ Re) as (_ & B & _ & _).
  assert (Nb : b_diff b <> []) by (intros E; rewrite E in Fe; inversion Fe; congruence).
  destruct (dae_whole s b lib arrays pn ps h st doms sm sanity st' doms' out o d B (proj2 Re) Nb Al Hp Ho Hd H)
    as (c & oo & d' & ts & rows & C & Op & S & -> & ->).
  destruct (run_options_read _ _ _ _ _ _ C Op) as (O1 & O2 & O3 & O4 & O5 & O6 & _ & O8). rewrite <- (O8 _ Hn) in *.
  destruct (dae_run_stated acts s b t pn ps dae P Re Sta Dc Fe Ne Cl St Rest Tm Nt (lib_ida lib) oo d d' ts rows eps Od Cd Id Dd Nd S) as (times & sol & Tp & S1 & S2 & S3).
  assert (E0 := O2 _ A1). destruct (O3 _ F1) as (e' & E1 & E2). rewrite A2 in E0. rewrite F2 in E1. injection E0 as ->. injection E1 as <-.
  exists ts, rows, d', times, sol. split; [reflexivity|]. split; [exact (set_nth_only _ _ _ _ Hd)|]. split; [exact (dae_points_even oo times n e (O4 _ N1) E2 N2 Tp)|]. auto.
Qed.

Lemma dae_simulations_agree acts s b P t pn dae lib arrays ps h st doms sm sanity st1 doms1 out o names eps t0 e n
    acts' s' b' P' pn' dae' lib' arrays' ps' h' st' doms' sm' sanity' st1' doms1' out' o' names' eps' e' n' zs :
  dae_problem acts s b P t pn dae -> dae_problem acts' s' b' P' t pn' dae' ->
  (forall x, In x (dnames dae) <-> In x (dnames dae')) -> (forall x, In x (b_varlist b) <-> In x (b_varlist b')) ->
  (forall x, In x (b_varlist b) <-> In x (dnames dae) \/ In x zs) ->
  follow P P' t (dnames dae) zs -> same_dae_rates P P' t (dnames dae) zs -> same_starts acts acts' (dnames dae) ->
  dae_simulates s b t pn lib doms sm o names eps t0 e n -> dae_simulates s' b' t pn' lib' doms' sm' o' names' eps' t0 e' n' ->
  whole_run lib arrays pn ps h st doms sm sanity = (st1, doms1, Ok out) ->
  whole_run lib' arrays' pn' ps' h' st' doms' sm' sanity' = (st1', doms1', Ok out') ->
  exists d d', nth_error doms1 o = Some d /\ nth_error doms1' o' = Some d' /\ agree_within (eps + eps') t (b_varlist b) d names d' names'.
Proof.
  intros O O' Ed Ev Ea Fo Sr Ss S S' H H'.
  destruct (dae_simulated_table _ _ _ _ _ _ _ _ _ _ _ _ _ _ _ _ _ _ _ _ _ _ _ _ O S H) as (_ & _ & d & times & sol & _ & (_ & Hd & _) & _ & St & Ob & (Ct & Cx)).
  destruct (dae_simulated_table _ _ _ _ _ _ _ _ _ _ _ _ _ _ _ _ _ _ _ _ _ _ _ _ O' S' H') as (_ & _ & d' & times' & sol' & _ & (_ & Hd' & _) & _ & St' & Ob' & (Ct' & Cx')).
  exists d, d'. split; [exact Hd|]. split; [exact Hd'|].
  assert (Eq : forall x, In x (dnames dae) -> sol x t0 = sol' x t0).
  { intros x Hx. destruct (St x Hx) as (k & v & K1 & K2 & ->). destruct (St' x (proj1 (Ed x) Hx)) as (k' & v' & K1' & K2' & ->).
    assert (Q := Ss x k k' Hx K1 K1'). congruence. }
  assert (Ob2 : dae_obeys_all P' t (b_varlist b) (dnames dae) t0 times' sol').
  { assert (M : forall tau en, dae_moment t (b_varlist b') (dnames dae') sol' tau en <-> dae_moment t (b_varlist b) (dnames dae) sol' tau en).
    { intros tau en. unfold dae_moment. split; intros (M1 & M2 & M3); (split; [exact M1|]); (split; intros x Hx; [apply M2|apply M3]); now (apply Ev || apply Ed). }
    intros tau Du. destruct (Ob' tau Du) as ((en & A) & B). split; [exists en; now apply M|]. intros en' A'. apply B. now apply M. }
  exists times, times'. split; [exact Ct|]. split; [exact Ct'|]. intros x Hx. destruct (Cx x Hx) as (col & Hc & F). destruct (Cx' x (proj1 (Ev x) Hx)) as (col' & Hc' & F').
  exists col, col'. do 2 (split; [assumption|]). split; [symmetry; exact (forall2_length _ _ _ F)|]. split; [symmetry; exact (forall2_length _ _ _ F')|].
  intros k k' tau v v' T1 T2 V1 V2. assert (Q1 := forall2_at _ _ _ F k tau v T1 V1). assert (Q2 := forall2_at _ _ _ F' k' tau v' T2 V2). cbv beta in Q1, Q2.
  assert (E : sol x tau = sol' x tau).
  { apply (one_dae_solution P P' t (b_varlist b) (dnames dae) zs sol sol' Fo Sr) with (t0 := t0) (times := times) (times' := times'); [| |exact Ob|exact Ob2|exact Eq| | |now apply Ea].
    - intros y Hy. apply Ea. now left.
    - intros y Hy. apply Ea. now right.
    - exists tau. split; [now apply nth_error_In in T1|]. destruct (Rle_lt_dec t0 tau); [left|right]; lra.
    - exists tau. split; [now apply nth_error_In in T2|]. destruct (Rle_lt_dec t0 tau); [left|right]; lra. }
  rewrite <- E in Q2. replace (v - v') with ((v - sol x tau) + - (v' - sol x tau)) by ring.
  assert (T := Rabs_triang (v - sol x tau) (- (v' - sol x tau))). rewrite Rabs_Ropp in T. lra.
Qed.

Lemma gentle_tempered D names e : gentle (of_names D names) e -> even_tempered names (fun en => expr_value D en e).
Proof. exact (gentle_value D names e). Qed.
Lemma gentle_tempered_at h names e : gentle (of_names_at h names) e -> even_tempered names (fun en => value_at h en e).
Proof. exact (gentle_at h names e). Qed.

(** ** What programs say, from their blocks *)
Lemma block_value acts s b P e n l r : sets_up acts s b P -> In e (b_eqs b) -> eq_expr e = Some n -> nd_sym n = SSub l r ->
  exists w, P w /\ forall en, wr_value w en = arith BSub (den l en) (den r en).
Proof.
  intros Su He En Es. destruct (stated_set_up _ _ _ _ Su) as (_ & _ & Sta). destruct (Sta e He) as (w & Hw & (n' & En' & V) & _).
  rewrite En in En'. injection En' as <-. exists w. split; [exact Hw|]. intros en. rewrite <- V, Es. reflexivity.
Qed.
Lemma dae_change acts s b P t pn dae x r : dae_problem acts s b P t pn dae -> In (x, t, r) dae -> change_said P x t (den r).
Proof.
  intros (Su & _ & Fe & _ & _ & _ & (rest & Er) & _) H. destruct (forall2_in_r _ _ _ Fe _ H) as (e & He & n & En & _ & _ & Z).
  destruct (stated_set_up _ _ _ _ Su) as (_ & _ & Sta). destruct (Sta e) as (w & Hw & (n' & En' & V) & _); [rewrite Er; apply in_or_app; now left|].
  rewrite En in En'. injection En' as <-. exists w. split; [exact Hw|]. intros en W. apply Z. now rewrite V.
Qed.
Lemma dae_systems_same acts s b P t pn dae acts' s' b' P' pn' dae' zs : dae_problem acts s b P t pn dae -> dae_problem acts' s' b' P' t pn' dae' ->
  (forall x r, In (x, t, r) dae -> steady t (rev zs ++ dnames dae) (den r) /\ exists r', In (x, t, r') dae' /\ forall en, den r en = den r' en) ->
  same_dae_rates P P' t (dnames dae) zs.
Proof.
  intros O O' H x Hx. apply in_map_iff in Hx. destruct Hx as ([[y u] r] & E & Hx). cbn in E. subst y.
  assert (u = t) as -> by (destruct O as (_ & _ & _ & _ & _ & _ & _ & Tm & _); exact (Tm _ _ _ Hx)).
  destruct (H x r Hx) as (S & r' & Hx' & Er). exists (den r), (den r'). split; [exact (dae_change _ _ _ _ _ _ _ _ _ O Hx)|].
  split; [exact (dae_change _ _ _ _ _ _ _ _ _ O' Hx')|]. auto.
Qed.
