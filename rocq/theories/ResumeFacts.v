(** Proofs about simulations that go on from where another stopped (C100). *)
From Verif Require Import Base BaseFacts Num UnitModel Sympy Node Build EquationModel ModelModel ProblemModel SpecUnits SpecExpr SpecModel SpecInc SpecCall SpecProblem
  ProblemFacts SessionFacts SpecLink SolverModel DomainModel SpecSolver SolverFacts SpecSymbols OdeFacts DaeFacts SpecWritten SpecExact SpecOwn SpecSession StudyFacts
  SpecSaid SaidFacts SpecCompose ComposeFacts SpecInit InitFacts SimModel RunModel SpecRun RunFacts WholeModel SpecWhole WholeFacts SpecUnique TameFacts UniqueFacts SpecSimulated SimulatedFacts
  DaeRunFacts SpecUniqueDae UniqueDaeFacts DaeAgreeFacts SpecDepend DependFacts SpecDependDae DependDaeFacts SpecConserve ConserveFacts SpecSymmetry SymmetryFacts SpecResume.
From Coq Require Import Reals Lra Lia.
Notation num := Verif.Num.num.
Open Scope R_scope.

Lemma carried_back h sol x s : carried (set_back h) sol x s = sol x (s + h).
Proof. unfold carried, image. cbn. replace (/ 1 * (s - - h)) with (s + h) by field. ring. Qed.
Lemma moment_set_back h tau : moment_image (set_back h) tau = tau - h.
Proof. unfold moment_image. cbn. ring. Qed.
Lemma during_span t0 ts sigma tau s : during t0 ts sigma -> during t0 ts tau -> during sigma [tau] s -> during t0 ts s.
Proof.
  intros D D' (tk & [<-|[]] & H). destruct (Rle_lt_dec t0 s) as [L|L].
  - destruct (Rle_lt_dec s tau); [apply (during_between t0 ts tau s D'); lra|apply (during_between t0 ts sigma s D); lra].
  - destruct (Rle_lt_dec tau s); [apply (during_between t0 ts tau s D'); lra|apply (during_between t0 ts sigma s D); lra].
Qed.
Lemma between_self sigma tau : during sigma [tau] tau.
Proof. exists tau. split; [now left|]. destruct (Rle_lt_dec sigma tau); [left|right]; lra. Qed.

(** The functions of the first simulation, read by the second clock from [sigma] on. *)
Lemma set_back_obeys h (P P' : written -> Prop) t names moves sol t0 ts sigma tau : carries (set_back h) P P' t names moves -> ~ In t names -> (forall x, In x moves -> In x names) ->
  dae_obeys_all P t names moves t0 ts sol -> during t0 ts sigma -> during t0 ts tau ->
  dae_obeys_all P' t names moves (sigma - h) [tau - h] (carried (set_back h) sol).
Proof.
  intros C Nt Mn Ob Ds Dt. rewrite <- !moment_set_back. apply (carried_obeys (set_back h) P P' t names moves sol sigma [tau] tau C Nt Mn); [|apply between_self].
  intros s H. apply Ob. exact (during_span _ _ _ _ _ Ds Dt H).
Qed.
Lemma set_back_here h (here here' : env -> Prop) P t names moves sol t0 ts sigma tau : (forall x, In x moves -> In x names) ->
  dae_obeys_all P t names moves t0 ts sol -> during t0 ts sigma -> during t0 ts tau ->
  (forall s en, during t0 ts s -> dae_moment t names moves sol s en -> here en) -> (forall en en', here en -> related (set_back h) t names moves en en' -> here' en') ->
  forall s en, during (sigma - h) [tau - h] s -> dae_moment t names moves (carried (set_back h) sol) s en -> here' en.
Proof.
  intros Mn Ob Ds Dt H Q s en (tk & [<-|[]] & B) (A1 & A2 & A3).
  assert (Du : during t0 ts (s + h)). { apply (during_span t0 ts sigma tau _ Ds Dt). exists tau. split; [now left|]. lra. }
  destruct (Ob (s + h) Du) as ((en0 & M) & _). apply (Q en0 en (H _ _ Du M)). destruct M as (M1 & M2 & M3). split; [rewrite M1, A1, moment_set_back; ring|].
  split; intros x I.
  - rewrite (A2 x I), carried_back, (M2 x I). unfold image. cbn. ring.
  - cbn. assert (E : / 1 * (s - - h) = s + h) by field.
    assert (K := carried_rate (set_back h) sol x s (e_der en0 x t)). cbn in K. rewrite E in K. rewrite (uniqueness_limite _ _ _ _ (A3 x I) (K (M3 x I))). field.
Qed.
Lemma dae_as_ode P t names t0 ts sol : dae_obeys_all P t names names t0 ts sol -> obeys_all P t names t0 ts sol.
Proof.
  assert (M : forall tau en, dae_moment t names names sol tau en <-> at_moment t names sol tau en).
  { intros tau en. unfold dae_moment, at_moment. split.
    - intros (A & B & C). split; [exact A|]. auto.
    - intros (A & B). split; [exact A|]. split; intros x I; now apply B. }
  intros Ob tau Du. destruct (Ob tau Du) as ((en & A) & B). split; [exists en; now apply M|]. intros en' A'. apply B. now apply M.
Qed.
Lemma moment_same t names sol tau en : dae_moment t names names sol tau en <-> at_moment t names sol tau en.
Proof.
  unfold dae_moment, at_moment. split.
  - intros (A & B & C). split; [exact A|]. auto.
  - intros (A & B). split; [exact A|]. split; intros x I; now apply B.
Qed.

Lemma solutions_go_on h (here here' : env -> Prop) L eta (P P' : written -> Prop) t names sol sol' t0 ts t0' ts' sigma : 0 <= L -> 0 <= eta ->
  carries (set_back h) P P' t names names -> ~ In t names -> rates_near here' L 0 P' P' t names ->
  obeys_all P t names t0 ts sol -> obeys_all P' t names t0' ts' sol' -> during t0 ts sigma -> t0' = sigma - h ->
  (forall s en, during t0 ts s -> at_moment t names sol s en -> here en) -> (forall en en', here en -> related (set_back h) t names names en en' -> here' en') ->
  (forall s en, during t0' ts' s -> at_moment t names sol' s en -> here' en) ->
  (forall x, In x names -> Rabs (sol x sigma - sol' x t0') <= eta) ->
  forall tau, during t0 ts tau -> during t0' ts' (tau - h) -> forall x, In x names ->
  Rabs (sol x tau - sol' x (tau - h)) <= drift (List.length names) L eta 0 (Rabs (tau - sigma)).
Proof.
  intros HL He C Nt Rn Ob Ob' Ds -> H Q H' St tau Dt Dt' x Hx. apply ode_as_dae in Ob.
  assert (Hd : forall s en, during t0 ts s -> dae_moment t names names sol s en -> here en) by (intros s en D M; apply (H s en D); now apply moment_same).
  assert (O1 := dae_as_ode _ _ _ _ _ _ (set_back_obeys h P P' t names names sol t0 ts sigma tau C Nt (fun _ i => i) Ob Ds Dt)).
  assert (G := solutions_near P' P' t names (carried (set_back h) sol) sol' here' L 0 eta HL (Rle_refl 0) He Rn (sigma - h) [tau - h] ts' O1 Ob').
  specialize (G (fun s en D M => set_back_here h here here' P t names names sol t0 ts sigma tau (fun _ i => i) Ob Ds Dt Hd Q s en D (proj2 (moment_same _ _ _ _ _) M)) H').
  assert (E : forall z s, carried (set_back h) sol z (s - h) = sol z s) by (intros z s; rewrite carried_back; f_equal; ring).
  rewrite <- (E x tau). replace (tau - sigma) with (tau - h - (sigma - h)) by ring. apply G; [|apply between_self|exact Dt'|exact Hx].
  intros z Hz. rewrite E. now apply St.
Qed.
Lemma dae_solutions_go_on h (here here' : env -> Prop) L Lz eta (P P' : written -> Prop) t names moves zs sol sol' t0 ts t0' ts' sigma : 0 <= L -> 0 <= Lz -> 0 <= eta ->
  carries (set_back h) P P' t names moves -> ~ In t names -> (forall x, In x names <-> In x moves \/ In x zs) ->
  given_near here' Lz 0 P' P' t moves zs -> changes_near here' L 0 P' P' t moves zs ->
  dae_obeys_all P t names moves t0 ts sol -> dae_obeys_all P' t names moves t0' ts' sol' -> during t0 ts sigma -> t0' = sigma - h ->
  (forall s en, during t0 ts s -> dae_moment t names moves sol s en -> here en) -> (forall en en', here en -> related (set_back h) t names moves en en' -> here' en') ->
  (forall s en, during t0' ts' s -> dae_moment t names moves sol' s en -> here' en) ->
  (forall x, In x moves -> Rabs (sol x sigma - sol' x t0') <= eta) ->
  forall tau, during t0 ts tau -> during t0' ts' (tau - h) -> forall x, In x names ->
  Rabs (sol x tau - sol' x (tau - h)) <= spread (List.length moves) Lz 0 (drift (List.length moves) (total_slope L Lz (List.length zs)) eta (total_shift L 0 0 (List.length zs)) (Rabs (tau - sigma))).
Proof.
  intros HL HLz He C Nt En Gn Cn Ob Ob' Ds -> H Q H' St tau Dt Dt' x Hx.
  assert (Mn : forall x, In x moves -> In x names) by (intros z I; apply En; now left). assert (Zn : forall x, In x zs -> In x names) by (intros z I; apply En; now right).
  assert (O1 := set_back_obeys h P P' t names moves sol t0 ts sigma tau C Nt Mn Ob Ds Dt).
  assert (G := dae_solutions_near P' P' t names moves zs (carried (set_back h) sol) sol' here' L 0 Lz 0 eta HL (Rle_refl 0) HLz (Rle_refl 0) He Gn Cn Mn Zn
    (sigma - h) [tau - h] ts' O1 Ob' (set_back_here h here here' P t names moves sol t0 ts sigma tau Mn Ob Ds Dt H Q) H').
  assert (E : forall z s, carried (set_back h) sol z (s - h) = sol z s) by (intros z s; rewrite carried_back; f_equal; ring).
  rewrite <- (E x tau). replace (tau - sigma) with (tau - h - (sigma - h)) by ring. apply G; [|apply between_self|exact Dt'|now apply En].
  intros z Hz. rewrite E. now apply St.
Qed.

(** ** Tables *)
Lemma recorded_row d t hd names ts sol eps k x tau : recorded_as d t hd names ts sol eps -> In x names -> row_says d t hd k t tau ->
  exists v, row_says d t hd k x v /\ Rabs (v - sol x tau) <= eps.
Proof.
  intros (Ct & Cx) Hx (col & Hc & N). rewrite Ct in Hc. injection Hc as <-. destruct (Cx x Hx) as (col & Hc & F). destruct (forall2_nth _ _ _ _ _ F N) as (v & V & B).
  exists v. split; [now exists col|exact B].
Qed.
Lemma recorded_during d t hd names ts sol eps k tau t0 : recorded_as d t hd names ts sol eps -> row_says d t hd k t tau -> during t0 ts tau.
Proof.
  intros (Ct & _) (col & Hc & N). rewrite Ct in Hc. injection Hc as <-. exists tau. split; [now apply nth_error_In in N|]. destruct (Rle_lt_dec t0 tau); [left|right]; lra.
Qed.
Lemma taken_up eta acts' names d t hd k all ts sol eps sigma t0' sol' : takes_up eta acts' names d t hd k -> (forall x, In x names -> In x all) -> recorded_as d t hd all ts sol eps ->
  row_says d t hd k t sigma -> starts_right acts' names t0' sol' -> forall x, In x names -> Rabs (sol x sigma - sol' x t0') <= eps + eta.
Proof.
  intros T Al Rc Rk St x Hx. destruct (recorded_row _ _ _ _ _ _ _ _ _ _ Rc (Al x Hx) Rk) as (v & V & B). destruct (St x Hx) as (j & w & J & W & ->).
  assert (G := T x j w v Hx J W V). replace (sol x sigma - w) with (- (v - sol x sigma) + - (w - v)) by ring.
  eapply Rle_trans; [apply Rabs_triang|]. rewrite !Rabs_Ropp. lra.
Qed.
Lemma rows_go_on h bound t names d hd ts sol eps d' hd' ts' sol' eps' : recorded_as d t hd names ts sol eps -> recorded_as d' t hd' names ts' sol' eps' ->
  (forall i i' tau, row_says d t hd i t tau -> row_says d' t hd' i' t (tau - h) -> forall x, In x names -> Rabs (sol x tau - sol' x (tau - h)) <= bound tau) ->
  goes_on h (fun tau => eps + eps' + bound tau) t names d hd d' hd'.
Proof.
  intros Rc Rc' B i i' tau Ri Ri' x Hx. destruct (recorded_row _ _ _ _ _ _ _ _ _ _ Rc Hx Ri) as (v & V & Bv). destruct (recorded_row _ _ _ _ _ _ _ _ _ _ Rc' Hx Ri') as (v' & V' & Bv').
  exists v, v'. split; [exact V|]. split; [exact V'|]. assert (G := B i i' tau Ri Ri' x Hx).
  replace (v' - v) with ((v' - sol' x (tau - h)) + (- (sol x tau - sol' x (tau - h)) + - (v - sol x tau))) by ring.
  assert (T := Rabs_triang (v' - sol' x (tau - h)) (- (sol x tau - sol' x (tau - h)) + - (v - sol x tau))).
  assert (T' := Rabs_triang (- (sol x tau - sol' x (tau - h))) (- (v - sol x tau))). rewrite !Rabs_Ropp in T'. lra.
Qed.

Lemma runs_go_on h (here here' : env -> Prop) L eta acts s b P t pn ode acts' s' b' P' pn' ode' t0 ts d hd eps t0' ts' d' hd' eps' k sigma : 0 <= L -> 0 <= eps + eta ->
  ode_problem acts s b P t pn ode -> ode_problem acts' s' b' P' t pn' ode' -> (forall x, In x (map fst ode) <-> In x (map fst ode')) ->
  carries (set_back h) P P' t (map fst ode) (map fst ode) -> rates_near here' L 0 P' P' t (map fst ode) ->
  confined here acts P t (map fst ode) t0 ts -> (forall en en', here en -> related (set_back h) t (map fst ode) (map fst ode) en en' -> here' en') ->
  confined here' acts' P' t (map fst ode) t0' ts' ->
  recorded_run s b t pn ode t0 ts d hd eps -> recorded_run s' b' t pn' ode' t0' ts' d' hd' eps' ->
  row_says d t hd k t sigma -> takes_up eta acts' (map fst ode) d t hd k -> t0' = sigma - h ->
  goes_on h (fun tau => eps + eps' + drift (List.length ode) L (eps + eta) 0 (Rabs (tau - sigma))) t (map fst ode) d hd d' hd'.
Proof.
  intros HL He O O' En C Rn Cf Q Cf' Rr Rr' Rk Tk T0. destruct (run_records _ _ _ _ _ _ _ _ _ _ _ _ O Rr) as (_ & sol & St & Ob & Rc).
  destruct (run_records _ _ _ _ _ _ _ _ _ _ _ _ O' Rr') as (_ & sol' & St' & Ob' & Rc').
  assert (Nt : ~ In t (map fst ode)) by (destruct O as (_ & _ & _ & _ & _ & _ & _ & (_ & N & _) & _); exact N).
  apply (starts_names _ _ _ _ _ En) in St'. apply (recorded_names _ _ _ _ _ _ _ _ En) in Rc'. apply ode_as_dae, (obeys_names _ _ _ _ _ _ _ _ _ En En), dae_as_ode in Ob'.
  apply (rows_go_on h (fun tau => drift (List.length ode) L (eps + eta) 0 (Rabs (tau - sigma))) t (map fst ode) d hd ts sol eps d' hd' ts' sol' eps' Rc Rc').
  intros i i' tau Ri Ri' x Hx. rewrite <- (map_length fst ode).
  exact (solutions_go_on h here here' L (eps + eta) P P' t (map fst ode) sol sol' t0 ts t0' ts' sigma HL He C Nt Rn Ob Ob' (recorded_during _ _ _ _ _ _ _ _ _ _ Rc Rk) T0
    (Cf sol St Ob) Q (Cf' sol' St' Ob') (taken_up _ _ _ _ _ _ _ _ _ _ _ _ _ _ Tk (fun _ i => i) Rc Rk St') tau (recorded_during _ _ _ _ _ _ _ _ _ _ Rc Ri)
    (recorded_during _ _ _ _ _ _ _ _ _ _ Rc' Ri') x Hx).
Qed.
Lemma simulations_go_on h (here here' : env -> Prop) L eta acts s b P t pn ode lib arrays ps hp st doms sm sanity st1 doms1 ts rows o names eps t0
    acts' s' b' P' pn' ode' lib' arrays' ps' hp' st' doms' sm' sanity' st1' doms1' ts' rows' o' names' eps' t0' d k sigma : 0 <= L -> 0 <= eps + eta ->
  ode_problem acts s b P t pn ode -> ode_problem acts' s' b' P' t pn' ode' -> (forall x, In x (map fst ode) <-> In x (map fst ode')) ->
  carries (set_back h) P P' t (map fst ode) (map fst ode) -> rates_near here' L 0 P' P' t (map fst ode) ->
  confined here acts P t (map fst ode) (t0 ts) ts -> (forall en en', here en -> related (set_back h) t (map fst ode) (map fst ode) en en' -> here' en') ->
  confined here' acts' P' t (map fst ode) (t0' ts') ts' ->
  simulates s b t pn ode lib doms sm o names eps t0 -> simulates s' b' t pn' ode' lib' doms' sm' o' names' eps' t0' ->
  whole_run lib arrays pn ps hp st doms sm sanity = (st1, doms1, Ok (WRun ts rows)) ->
  whole_run lib' arrays' pn' ps' hp' st' doms' sm' sanity' = (st1', doms1', Ok (WRun ts' rows')) ->
  nth_error doms1 o = Some d -> row_says d t names k t sigma -> takes_up eta acts' (map fst ode) d t names k -> t0' ts' = sigma - h ->
  exists d', nth_error doms1' o' = Some d' /\
    goes_on h (fun tau => eps + eps' + drift (List.length ode) L (eps + eta) 0 (Rabs (tau - sigma))) t (map fst ode) d names d' names'.
Proof.
  intros HL He O O' En C Rn Cf Q Cf' S S' H H' Hd Rk Tk T0.
  destruct (simulated_recorded _ _ _ _ _ _ _ _ _ _ _ _ _ _ _ _ _ _ _ _ _ _ O S H) as (ts1 & rows1 & d1 & E & (_ & Od & _) & Rr).
  destruct (simulated_recorded _ _ _ _ _ _ _ _ _ _ _ _ _ _ _ _ _ _ _ _ _ _ O' S' H') as (ts2 & rows2 & d' & E' & (_ & Od' & _) & Rr').
  injection E as <- <-. injection E' as <- <-. rewrite Hd in Od. injection Od as <-. exists d'. split; [exact Od'|].
  exact (runs_go_on h here here' L eta _ _ _ _ _ _ _ _ _ _ _ _ _ _ _ _ _ _ _ _ _ _ _ k sigma HL He O O' En C Rn Cf Q Cf' Rr Rr' Rk Tk T0).
Qed.
Lemma dae_simulations_go_on h (here here' : env -> Prop) L Lz eta acts s b P t pn dae lib arrays ps hp st doms sm sanity st1 doms1 out o names eps t0 e n
    acts' s' b' P' pn' dae' lib' arrays' ps' hp' st' doms' sm' sanity' st1' doms1' out' o' names' eps' t0' e' n' zs d k sigma : 0 <= L -> 0 <= Lz -> 0 <= eps + eta ->
  dae_problem acts s b P t pn dae -> dae_problem acts' s' b' P' t pn' dae' ->
  (forall x, In x (dnames dae) <-> In x (dnames dae')) -> (forall x, In x (b_varlist b) <-> In x (b_varlist b')) ->
  (forall x, In x (b_varlist b) <-> In x (dnames dae) \/ In x zs) ->
  carries (set_back h) P P' t (b_varlist b) (dnames dae) -> given_near here' Lz 0 P' P' t (dnames dae) zs -> changes_near here' L 0 P' P' t (dnames dae) zs ->
  (forall times, even_points times t0 e n -> dae_confined here acts P t (b_varlist b) (dnames dae) t0 times) ->
  (forall en en', here en -> related (set_back h) t (b_varlist b) (dnames dae) en en' -> here' en') ->
  (forall times, even_points times t0' e' n' -> dae_confined here' acts' P' t (b_varlist b) (dnames dae) t0' times) ->
  dae_simulates s b t pn lib doms sm o names eps t0 e n -> dae_simulates s' b' t pn' lib' doms' sm' o' names' eps' t0' e' n' ->
  whole_run lib arrays pn ps hp st doms sm sanity = (st1, doms1, Ok out) ->
  whole_run lib' arrays' pn' ps' hp' st' doms' sm' sanity' = (st1', doms1', Ok out') ->
  nth_error doms1 o = Some d -> row_says d t names k t sigma -> takes_up eta acts' (dnames dae) d t names k -> t0' = sigma - h ->
  exists d', nth_error doms1' o' = Some d' /\
    goes_on h (fun tau => eps + eps' + spread (List.length dae) Lz 0 (drift (List.length dae) (total_slope L Lz (List.length zs)) (eps + eta)
      (total_shift L 0 0 (List.length zs)) (Rabs (tau - sigma)))) t (b_varlist b) d names d' names'.
Proof.
  intros HL HLz He O O' Ed Ev Ea C Gn Cn Cf Q Cf' S S' H H' Hd Rk Tk T0.
  destruct (dae_simulated_table _ _ _ _ _ _ _ _ _ _ _ _ _ _ _ _ _ _ _ _ _ _ _ _ O S H) as (_ & _ & d1 & times & sol & _ & (_ & Od & _) & Ep & St & Ob & Rc).
  destruct (dae_simulated_table _ _ _ _ _ _ _ _ _ _ _ _ _ _ _ _ _ _ _ _ _ _ _ _ O' S' H') as (_ & _ & d' & times' & sol' & _ & (_ & Od' & _) & Ep' & St' & Ob' & Rc').
  rewrite Hd in Od. injection Od as <-. exists d'. split; [exact Od'|].
  assert (Nt : ~ In t (b_varlist b)) by (destruct O as (_ & _ & _ & _ & _ & _ & _ & _ & N & _); exact N).
  assert (Mn : forall x, In x (dnames dae) -> In x (b_varlist b)) by (intros z I; apply Ea; now left).
  apply (starts_names _ _ _ _ _ Ed) in St'. apply (recorded_names _ _ _ _ _ _ _ _ Ev) in Rc'. apply (obeys_names _ _ _ _ _ _ _ _ _ Ev Ed) in Ob'.
  apply (rows_go_on h (fun tau => spread (List.length dae) Lz 0 (drift (List.length dae) (total_slope L Lz (List.length zs)) (eps + eta)
      (total_shift L 0 0 (List.length zs)) (Rabs (tau - sigma)))) t (b_varlist b) d names times sol eps d' names' times' sol' eps' Rc Rc').
  intros i i' tau Ri Ri' x Hx. replace (List.length dae) with (List.length (dnames dae)) by apply map_length.
  exact (dae_solutions_go_on h here here' L Lz (eps + eta) P P' t (b_varlist b) (dnames dae) zs sol sol' t0 times t0' times' sigma HL HLz He C Nt Ea Gn Cn Ob Ob'
    (recorded_during _ _ _ _ _ _ _ _ _ _ Rc Rk) T0 (Cf times Ep sol St Ob) Q (Cf' times' Ep' sol' St' Ob') (taken_up _ _ _ _ _ _ _ _ _ _ _ _ _ _ Tk Mn Rc Rk St') tau
    (recorded_during _ _ _ _ _ _ _ _ _ _ Rc Ri) (recorded_during _ _ _ _ _ _ _ _ _ _ Rc' Ri') x Hx).
Qed.
Close Scope R_scope.
