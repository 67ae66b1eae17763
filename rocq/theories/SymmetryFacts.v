(** Proofs about maps that carry equations into equations. *)
From Verif Require Import Base BaseFacts Num UnitModel Sympy Node Build EquationModel ModelModel ProblemModel SpecUnits SpecExpr SpecModel SpecInc SpecCall SpecProblem
  ProblemFacts SessionFacts SpecLink SolverModel DomainModel SpecSolver SolverFacts SpecSymbols OdeFacts DaeFacts SpecWritten SpecExact SpecOwn SpecSession StudyFacts
  SpecSaid SaidFacts SpecCompose ComposeFacts SpecInit InitFacts SimModel RunModel SpecRun RunFacts WholeModel SpecWhole WholeFacts SpecUnique TameFacts UniqueFacts SpecSimulated SimulatedFacts
  DaeRunFacts SpecUniqueDae UniqueDaeFacts DaeAgreeFacts SpecMatrix MatrixFacts SpecNearly NearlyFacts SpecShift ShiftFacts SpecConserve ConserveFacts SpecSymmetry.
From Coq Require Import Reals Lra Lia.
Notation num := Verif.Num.num.
Open Scope R_scope.

Definition carried (c : chart) (sol : string -> R -> R) (x : string) (s : R) : R := image c x (sol x (/ ch_rate c * (s - ch_shift c))).
Lemma moment_back c tau : ch_rate c <> 0 -> / ch_rate c * (moment_image c tau - ch_shift c) = tau.
Proof. intros N. unfold moment_image. field. exact N. Qed.
Lemma moment_there c s : ch_rate c <> 0 -> moment_image c (/ ch_rate c * (s - ch_shift c)) = s.
Proof. intros N. unfold moment_image. field. exact N. Qed.
Lemma moment_between c t0 tau s : ch_rate c <> 0 -> during (moment_image c t0) [moment_image c tau] s ->
  t0 <= / ch_rate c * (s - ch_shift c) <= tau \/ tau <= / ch_rate c * (s - ch_shift c) <= t0.
Proof.
  intros N (tk & [<-|[]] & H). set (u := / ch_rate c * (s - ch_shift c)). assert (E : s = moment_image c u) by (symmetry; now apply moment_there).
  rewrite E in H. unfold moment_image in H. destruct (Rtotal_order (ch_rate c) 0) as [L|[L|L]]; [|contradiction|].
  - assert (G : forall a b, ch_rate c * a <= ch_rate c * b -> b <= a).
    { intros a b Q. apply (Rmult_le_reg_l (- ch_rate c)); lra. }
    destruct H as [[H1 H2]|[H1 H2]]; [right|left]; split; apply G; lra.
  - assert (G : forall a b, ch_rate c * a <= ch_rate c * b -> a <= b).
    { intros a b Q. apply (Rmult_le_reg_l (ch_rate c)); lra. }
    destruct H as [[H1 H2]|[H1 H2]]; [left|right]; split; apply G; lra.
Qed.
Lemma carried_rate c sol x s l : derivable_pt_lim (sol x) (/ ch_rate c * (s - ch_shift c)) l ->
  derivable_pt_lim (carried c sol x) s (ch_mul c x * (l * / ch_rate c)).
Proof.
  intros H. assert (K : derivable_pt_lim (mult_real_fct (/ ch_rate c) (fun s => s - ch_shift c)) s (/ ch_rate c * (1 - 0))).
  { apply derivable_pt_lim_scal, (derivable_pt_lim_minus (fun s => s) (fun _ => ch_shift c)); [apply derivable_pt_lim_id|apply derivable_pt_lim_const]. }
  assert (F := derivable_pt_lim_comp _ (sol x) _ _ _ K H). assert (G := derivable_pt_lim_scal _ (ch_mul c x) _ _ F).
  assert (Q := derivable_pt_lim_plus _ _ _ _ _ G (derivable_pt_lim_const (ch_add c x) s)). unfold plus_fct, mult_real_fct, comp, fct_cte in Q.
  replace (ch_mul c x * (l * (/ ch_rate c * (1 - 0))) + 0) with (ch_mul c x * (l * / ch_rate c)) in Q by ring. exact Q.
Qed.

Lemma carried_obeys c (P P' : written -> Prop) t names moves sol t0 ts tau : carries c P P' t names moves -> ~ In t names -> (forall x, In x moves -> In x names) ->
  dae_obeys_all P t names moves t0 ts sol -> during t0 ts tau -> dae_obeys_all P' t names moves (moment_image c t0) [moment_image c tau] (carried c sol).
Proof.
  intros (N & C) Nt Mn Ob Du s Ds. set (u := / ch_rate c * (s - ch_shift c)).
  assert (Du' : during t0 ts u) by exact (during_between t0 ts tau u Du (moment_between c t0 tau s N Ds)).
  destruct (Ob u Du') as ((en & A) & B). pose proof A as (A1 & A2 & A3). split.
  - exists (mkEnv (fun x => if String.eqb x t then s else image c x (sol x u)) (fun x _ => ch_mul c x * (e_der en x t * / ch_rate c))). split; [cbn; now rewrite String.eqb_refl|].
    split; intros x I; cbn.
    + destruct (String.eqb_spec x t) as [->|_]; [contradiction|reflexivity].
    + apply carried_rate. now apply A3.
  - intros en' (B1 & B2 & B3). apply (C en en' (B en A)). split; [rewrite A1, B1; symmetry; now apply moment_there|]. split.
    + intros x I. rewrite (B2 x I), (A2 x I). reflexivity.
    + intros x I. rewrite (uniqueness_limite _ _ _ _ (B3 x I) (carried_rate c sol x s _ (A3 x I))). field. exact N.
Qed.

(** Solutions, if the second equations determine theirs. *)
Lemma solutions_carried c P P' t names moves zs sol sol' t0 ts ts' : carries c P P' t names moves -> ~ In t names ->
  (forall x, In x names <-> In x moves \/ In x zs) -> follow P' P' t moves zs -> same_dae_rates P' P' t moves zs ->
  dae_obeys_all P t names moves t0 ts sol -> dae_obeys_all P' t names moves (moment_image c t0) ts' sol' ->
  (forall x, In x moves -> sol' x (moment_image c t0) = image c x (sol x t0)) ->
  forall tau, during t0 ts tau -> during (moment_image c t0) ts' (moment_image c tau) -> forall x, In x names -> sol' x (moment_image c tau) = image c x (sol x tau).
Proof.
  intros C Nt En Fo Sr Ob Ob' St tau Du Du' x Hx. assert (N := proj1 C).
  assert (Mn : forall x, In x moves -> In x names) by (intros z I; apply En; now left). assert (Zn : forall x, In x zs -> In x names) by (intros z I; apply En; now right).
  assert (Q := one_dae_solution P' P' t names moves zs (carried c sol) sol' Fo Sr Mn Zn (moment_image c t0) [moment_image c tau] ts'
    (carried_obeys c P P' t names moves sol t0 ts tau C Nt Mn Ob Du) Ob').
  rewrite <- (Q (fun z I => eq_trans (f_equal (fun r => image c z (sol z r)) (moment_back c t0 N)) (eq_sym (St z I))) (moment_image c tau)); [| |exact Du'|now apply En].
  - unfold carried. now rewrite (moment_back c tau N).
  - exists (moment_image c tau). split; [now left|]. destruct (Rle_lt_dec (moment_image c t0) (moment_image c tau)); [left|right]; lra.
Qed.

Lemma tables_carried c acts acts' P P' t names moves zs sol sol' t0 ts ts' d h d' h' eps eps' : carries c P P' t names moves -> ~ In t names ->
  (forall x, In x names <-> In x moves \/ In x zs) -> follow P' P' t moves zs -> same_dae_rates P' P' t moves zs -> starts_carried c acts acts' moves ->
  starts_right acts moves t0 sol -> dae_obeys_all P t names moves t0 ts sol -> recorded_as d t h names ts sol eps ->
  starts_right acts' moves (moment_image c t0) sol' -> dae_obeys_all P' t names moves (moment_image c t0) ts' sol' -> recorded_as d' t h' names ts' sol' eps' ->
  carried_within c eps eps' t names d h d' h'.
Proof.
  intros C Nt En Fo Sr Sc St Ob (Ct & Cx) St' Ob' (Ct' & Cx'). exists ts, ts'. split; [exact Ct|]. split; [exact Ct'|]. intros k k' tau T T' x I.
  destruct (Cx x I) as (col & Hc & F). destruct (Cx' x I) as (col' & Hc' & F'). destruct (forall2_nth _ _ _ _ _ F T) as (v & V & Hv). destruct (forall2_nth _ _ _ _ _ F' T') as (v' & V' & Hv').
  exists v, v'. split; [now exists col|]. split; [now exists col'|].
  assert (E : sol' x (moment_image c tau) = image c x (sol x tau)).
  { apply (solutions_carried c P P' t names moves zs sol sol' t0 ts ts' C Nt En Fo Sr Ob Ob'); [| | |exact I].
    - intros z Hz. destruct (St z Hz) as (j & w & J1 & J2 & ->). destruct (St' z Hz) as (j' & w' & J1' & J2' & ->). exact (Sc z j j' w w' Hz J1 J1' J2 J2').
    - exists tau. split; [now apply nth_error_In in T|]. destruct (Rle_lt_dec t0 tau); [left|right]; lra.
    - exists (moment_image c tau). split; [now apply nth_error_In in T'|]. destruct (Rle_lt_dec (moment_image c t0) (moment_image c tau)); [left|right]; lra. }
  rewrite E in Hv'. unfold image in *. replace (v' - (ch_mul c x * v + ch_add c x)) with ((v' - (ch_mul c x * sol x tau + ch_add c x)) + ch_mul c x * - (v - sol x tau)) by ring.
  eapply Rle_trans; [apply Rabs_triang|]. rewrite Rabs_mult, Rabs_Ropp, Rplus_comm. apply Rplus_le_compat; [|exact Hv'].
  apply Rmult_le_compat_l; [apply Rabs_pos|exact Hv].
Qed.

(** ** Runs and simulations *)
Lemma obeys_names P t names names' moves moves' t0 ts sol : (forall x, In x names <-> In x names') -> (forall x, In x moves <-> In x moves') ->
  dae_obeys_all P t names' moves' t0 ts sol -> dae_obeys_all P t names moves t0 ts sol.
Proof.
  intros En Em Ob. assert (M : forall tau en, dae_moment t names' moves' sol tau en <-> dae_moment t names moves sol tau en).
  { intros tau en. unfold dae_moment. split; intros (M1 & M2 & M3); (split; [exact M1|]); (split; intros x Hx; [apply M2|apply M3]); now (apply En || apply Em). }
  intros tau Du. destruct (Ob tau Du) as ((en & A) & B). split; [exists en; now apply M|]. intros en' A'. apply B. now apply M.
Qed.
Lemma recorded_names d t h names names' ts sol eps : (forall x, In x names <-> In x names') -> recorded_as d t h names' ts sol eps -> recorded_as d t h names ts sol eps.
Proof. intros E (A & B). split; [exact A|]. intros x I. now apply B, E. Qed.
Lemma starts_names acts names names' t0 sol : (forall x, In x names <-> In x names') -> starts_right acts names' t0 sol -> starts_right acts names t0 sol.
Proof. intros E A x I. now apply A, E. Qed.

Lemma runs_carried c acts s b P t pn ode acts' s' b' P' pn' ode' t0 ts d h eps ts' d' h' eps' :
  ode_problem acts s b P t pn ode -> ode_problem acts' s' b' P' t pn' ode' -> (forall x, In x (map fst ode) <-> In x (map fst ode')) ->
  carries c P P' t (map fst ode) (map fst ode) -> same_rates P' P' t (map fst ode) -> starts_carried c acts acts' (map fst ode) ->
  recorded_run s b t pn ode t0 ts d h eps -> recorded_run s' b' t pn' ode' (moment_image c t0) ts' d' h' eps' ->
  carried_within c eps eps' t (map fst ode) d h d' h'.
Proof.
  intros O O' En C Sr Sc Rr Rr'. destruct (run_records _ _ _ _ _ _ _ _ _ _ _ _ O Rr) as (_ & sol & St & Ob & Rc).
  destruct (run_records _ _ _ _ _ _ _ _ _ _ _ _ O' Rr') as (_ & sol' & St' & Ob' & Rc').
  assert (Nt : ~ In t (map fst ode)) by (destruct O as (_ & _ & _ & _ & _ & _ & _ & (_ & N & _) & _); exact N).
  apply (tables_carried c acts acts' P P' t (map fst ode) (map fst ode) [] sol sol' t0 ts ts' d h d' h' eps eps' C Nt); try assumption.
  - intros x. cbn. tauto.
  - exact I.
  - now apply ode_as_dae.
  - exact (starts_names _ _ _ _ _ En St').
  - apply (obeys_names _ _ _ (map fst ode') _ (map fst ode') _ _ _ En En). now apply ode_as_dae.
  - exact (recorded_names _ _ _ _ _ _ _ _ En Rc').
Qed.
Lemma simulations_carried c acts s b P t pn ode lib arrays ps h st doms sm sanity st1 doms1 ts rows o names eps t0
    acts' s' b' P' pn' ode' lib' arrays' ps' h' st' doms' sm' sanity' st1' doms1' ts' rows' o' names' eps' t0' :
  ode_problem acts s b P t pn ode -> ode_problem acts' s' b' P' t pn' ode' -> (forall x, In x (map fst ode) <-> In x (map fst ode')) ->
  carries c P P' t (map fst ode) (map fst ode) -> same_rates P' P' t (map fst ode) -> starts_carried c acts acts' (map fst ode) ->
  simulates s b t pn ode lib doms sm o names eps t0 -> simulates s' b' t pn' ode' lib' doms' sm' o' names' eps' t0' ->
  whole_run lib arrays pn ps h st doms sm sanity = (st1, doms1, Ok (WRun ts rows)) ->
  whole_run lib' arrays' pn' ps' h' st' doms' sm' sanity' = (st1', doms1', Ok (WRun ts' rows')) ->
  t0' ts' = moment_image c (t0 ts) ->
  exists d d', nth_error doms1 o = Some d /\ nth_error doms1' o' = Some d' /\ carried_within c eps eps' t (map fst ode) d names d' names'.
Proof.
  intros O O' En C Sr Sc S S' H H' T.
  destruct (simulated_recorded _ _ _ _ _ _ _ _ _ _ _ _ _ _ _ _ _ _ _ _ _ _ O S H) as (ts1 & rows1 & d & E & (_ & Od & _) & Rr).
  destruct (simulated_recorded _ _ _ _ _ _ _ _ _ _ _ _ _ _ _ _ _ _ _ _ _ _ O' S' H') as (ts2 & rows2 & d' & E' & (_ & Od' & _) & Rr').
  injection E as <- <-. injection E' as <- <-. rewrite T in Rr'. exists d, d'. split; [exact Od|]. split; [exact Od'|].
  exact (runs_carried c _ _ _ _ _ _ _ _ _ _ _ _ _ _ _ _ _ _ _ _ _ _ O O' En C Sr Sc Rr Rr').
Qed.
Lemma dae_simulations_carried c acts s b P t pn dae lib arrays ps h st doms sm sanity st1 doms1 out o names eps t0 e n
    acts' s' b' P' pn' dae' lib' arrays' ps' h' st' doms' sm' sanity' st1' doms1' out' o' names' eps' t0' e' n' zs :
  dae_problem acts s b P t pn dae -> dae_problem acts' s' b' P' t pn' dae' ->
  (forall x, In x (dnames dae) <-> In x (dnames dae')) -> (forall x, In x (b_varlist b) <-> In x (b_varlist b')) ->
  (forall x, In x (b_varlist b) <-> In x (dnames dae) \/ In x zs) ->
  carries c P P' t (b_varlist b) (dnames dae) -> follow P' P' t (dnames dae) zs -> same_dae_rates P' P' t (dnames dae) zs -> starts_carried c acts acts' (dnames dae) ->
  dae_simulates s b t pn lib doms sm o names eps t0 e n -> dae_simulates s' b' t pn' lib' doms' sm' o' names' eps' t0' e' n' ->
  whole_run lib arrays pn ps h st doms sm sanity = (st1, doms1, Ok out) ->
  whole_run lib' arrays' pn' ps' h' st' doms' sm' sanity' = (st1', doms1', Ok out') -> t0' = moment_image c t0 ->
  exists d d', nth_error doms1 o = Some d /\ nth_error doms1' o' = Some d' /\ carried_within c eps eps' t (b_varlist b) d names d' names'.
Proof.
  intros O O' Ed Ev Ea C Fo Sr Sc S S' H H' T.
  destruct (dae_simulated_table _ _ _ _ _ _ _ _ _ _ _ _ _ _ _ _ _ _ _ _ _ _ _ _ O S H) as (_ & _ & d & times & sol & _ & (_ & Hd & _) & _ & St & Ob & Rc).
  destruct (dae_simulated_table _ _ _ _ _ _ _ _ _ _ _ _ _ _ _ _ _ _ _ _ _ _ _ _ O' S' H') as (_ & _ & d' & times' & sol' & _ & (_ & Hd' & _) & _ & St' & Ob' & Rc').
  rewrite T in *. exists d, d'. split; [exact Hd|]. split; [exact Hd'|].
  assert (Nt : ~ In t (b_varlist b)) by (destruct O as (_ & _ & _ & _ & _ & _ & _ & _ & N & _); exact N).
  apply (tables_carried c acts acts' P P' t (b_varlist b) (dnames dae) zs sol sol' t0 times times' d names d' names' eps eps' C Nt Ea Fo Sr Sc St Ob Rc).
  - exact (starts_names _ _ _ _ _ Ed St').
  - exact (obeys_names _ _ _ _ _ _ _ _ _ Ev Ed Ob').
  - exact (recorded_names _ _ _ _ _ _ _ _ Ev Rc').
Qed.

(** ** Rest *)
Lemma rest_obeys P t names moves y t0 ts : at_rest P t names moves y -> ~ In t names -> dae_obeys_all P t names moves t0 ts (fun x _ => y x).
Proof.
  intros Q Nt tau _. split.
  - exists (mkEnv (fun x => if String.eqb x t then tau else y x) (fun _ _ => 0)). split; [cbn; now rewrite String.eqb_refl|]. split; intros x I; cbn.
    + destruct (String.eqb_spec x t) as [->|_]; [contradiction|reflexivity].
    + apply derivable_pt_lim_const.
  - intros en (_ & B & C). apply Q; [exact B|]. intros x I. exact (uniqueness_limite _ _ _ _ (C x I) (derivable_pt_lim_const (y x) tau)).
Qed.
Lemma stays_at_rest P t names moves zs y t0 ts sol : at_rest P t names moves y -> ~ In t names -> (forall x, In x names <-> In x moves \/ In x zs) ->
  follow P P t moves zs -> same_dae_rates P P t moves zs -> dae_obeys_all P t names moves t0 ts sol -> (forall x, In x moves -> sol x t0 = y x) ->
  forall tau, during t0 ts tau -> forall x, In x names -> sol x tau = y x.
Proof.
  intros Q Nt En Fo Sr Ob St tau Du x Hx.
  exact (one_dae_solution P P t names moves zs sol (fun x _ => y x) Fo Sr (fun z I => proj2 (En z) (or_introl I)) (fun z I => proj2 (En z) (or_intror I))
    t0 ts ts Ob (rest_obeys P t names moves y t0 ts Q Nt) St tau Du Du x (proj1 (En x) Hx)).
Qed.

(** ** Algebraic problems *)
Lemma demands_carried c lam (here : env -> Prop) (P P' : written -> Prop) vars K eps eps' en en' : carries_demands c lam P P' -> conditioned_in here P' vars K ->
  0 <= lam -> 0 <= eps -> 0 <= eps' -> here (image_env c en) -> here en' -> (forall y, P y -> nearly eps (demanded y en)) -> (forall y, P' y -> nearly eps' (demanded y en')) ->
  forall v, In v vars -> Rabs (image c v (e_sym en v) - e_sym en' v) <= K * (lam * eps + eps').
Proof.
  intros C Cd Hl He He' H H' N N' v Hv. assert (Z : 0 <= lam * eps) by now apply Rmult_le_pos.
  apply (Cd (image_env c en) en' (lam * eps + eps') H H'); [lra| |exact Hv]. intros y Hy.
  destruct (C y Hy) as (x & Hx & Q). destruct (N x Hx) as (a & Ea & Ba). destruct (Q en a Ea) as (a' & Ea' & Ba'). destruct (N' y Hy) as (d & Ed & Bd).
  exists a', d. split; [exact Ea'|]. split; [exact Ed|]. assert (T := Rabs_triang a' (- d)). rewrite Rabs_Ropp in T.
  assert (lam * Rabs a <= lam * eps) by now apply Rmult_le_compat_l. unfold Rminus. lra.
Qed.
Lemma answers_carried c lam acts s b P eps eng out acts' s' b' P' eps' eng' out' (here : env -> Prop) K v : sets_up acts s b P -> sets_up acts' s' b' P' ->
  honest_within eps eng -> answer eng b out -> honest_within eps' eng' -> answer eng' b' out' ->
  0 <= lam -> 0 <= eps -> 0 <= eps' -> here (image_env c (bind_env out)) -> here (bind_env out') ->
  carries_demands c lam P P' -> conditioned_in here P' (b_varlist b') K -> In v (b_varlist b') ->
  Rabs (image c v (e_sym (bind_env out) v) - e_sym (bind_env out') v) <= K * (lam * eps + eps').
Proof.
  intros S S' Hh A Hh' A' Hl He He' H H' C Cd Hv. apply (demands_carried c lam here P P' (b_varlist b') K eps eps'); try assumption.
  - intros y Hy. exact (answer_said_nearly _ _ _ _ _ _ _ _ S Hh A Hy).
  - intros y Hy. exact (answer_said_nearly _ _ _ _ _ _ _ _ S' Hh' A' Hy).
Qed.
Lemma results_carried c lam acts s b P eps lib arrays pn ps st doms sm st1 doms1 out r acts' s' b' P' eps' lib' arrays' pn' ps' st' doms' sm' st1' doms1' out' r' (here : env -> Prop) K v :
  sets_up acts s b P -> sets_up acts' s' b' P' ->
  honest_within eps (lib_roots lib) -> proper_answers (lib_roots lib) -> honest_within eps' (lib_roots lib') -> proper_answers (lib_roots lib') ->
  sm_problem sm = Some (snd s) -> whole_run lib arrays pn ps (pw_heap (fst s)) st doms sm true = (st1, doms1, Ok out) -> whole_results doms1 sm out RDict = Ok (WByName r) ->
  sm_problem sm' = Some (snd s') -> whole_run lib' arrays' pn' ps' (pw_heap (fst s')) st' doms' sm' true = (st1', doms1', Ok out') -> whole_results doms1' sm' out' RDict = Ok (WByName r') ->
  0 <= lam -> 0 <= eps -> 0 <= eps' -> here (image_env c (bind_env r)) -> here (bind_env r') ->
  carries_demands c lam P P' -> conditioned_in here P' (b_varlist b') K -> In v (b_varlist b') ->
  Rabs (image c v (e_sym (bind_env r) v) - e_sym (bind_env r') v) <= K * (lam * eps + eps').
Proof.
  intros S S' Hh Pa Hh' Pa' Hp R1 W Hp' R' W' Hl He He' H H' C Cd Hv. apply (demands_carried c lam here P P' (b_varlist b') K eps eps'); try assumption.
  - exact (proj2 (run_nearly _ _ _ _ _ _ _ _ _ _ _ _ _ _ _ _ S Hh Pa Hp R1 W)).
  - exact (proj2 (run_nearly _ _ _ _ _ _ _ _ _ _ _ _ _ _ _ _ S' Hh' Pa' Hp' R' W')).
Qed.
(** To show that a map carries equations: the expressions handed over. *)
Lemma carried_by_exprs c lam acts s b P acts' s' b' P' : sets_up acts s b P -> sets_up acts' s' b' P' ->
  Forall2 (fun x' x => forall en a, den x en = Some a -> exists a', den x' (image_env c en) = Some a' /\ Rabs a' <= lam * Rabs a) (b_exprs b') (b_exprs b) ->
  carries_demands c lam P P'.
Proof.
  intros S S' F y Hy. destruct (handed_said _ _ _ _ S') as [H1 _]. destruct (handed_said _ _ _ _ S) as [_ H2]. destruct (H1 y Hy) as (x & Hx & E).
  assert (Z : exists x1, In x1 (b_exprs b) /\ forall en a, den x1 en = Some a -> exists a', den x (image_env c en) = Some a' /\ Rabs a' <= lam * Rabs a).
  { clear - F Hx. induction F as [|z z' l l' Q F IH]; [destruct Hx|]. destruct Hx as [->|Hx]; [exists z'; split; [now left|exact Q]|].
    destruct (IH Hx) as (x1 & Hx1 & G). exists x1. split; [now right|exact G]. }
  destruct Z as (x1 & Hx1 & G). destruct (H2 x1 Hx1) as (y1 & Hy1 & E1). exists y1. split; [exact Hy1|]. intros en a Ha. rewrite <- E1 in Ha.
  destruct (G en a Ha) as (a' & Ea & Ba). exists a'. split; [now rewrite <- E|exact Ba].
Qed.
Close Scope R_scope.
