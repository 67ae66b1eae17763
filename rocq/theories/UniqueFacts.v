(** Proofs: equations determine one trajectory, and runs of equal programs record the
    same (C84). *)
From Verif Require Import Base BaseFacts Num UnitModel Sympy Node Build EquationModel ModelModel ProblemModel SpecExpr SpecModel SpecProblem ProblemFacts SolverModel SpecSolver
  SolverFacts SpecWritten SpecExact SpecLink SpecOwn SpecSession SpecSaid SaidFacts SpecCompose ComposeFacts SpecInit InitFacts RunModel SpecRun RunFacts SpecUnique TameFacts UniqueAnalysis.
From Verif Require DomainModel.
From Coq Require Import Reals Lra Lia.
Notation num := Verif.Num.num.
Open Scope R_scope.

(** ** What equations with two sides are worth *)
Definition sound_sides (w : written) : Prop := forall f g, wr_sides w = Some (f, g) -> forall en, wr_value w en = arith BSub (f en) (g en).
Lemma sides_read D n q : sound_sides (read_eq D n q).
Proof. destruct q; intros f g H en; cbn in *; try discriminate H; injection H as <- <-; reflexivity. Qed.
Lemma sides_given h q : sound_sides (given h q).
Proof. destruct q; intros f g H en; cbn in *; try discriminate H; injection H as <- <-; reflexivity. Qed.
Lemma sides_moved k w : sound_sides w -> sound_sides (moved k w).
Proof.
  intros S f g H en. unfold moved in *. cbn [wr_sides wr_value] in *. destruct (wr_sides w) as [[f0 g0]|] eqn:E; [|discriminate]. injection H as <- <-. now apply S.
Qed.
Lemma sides_written M D cs : forall w, In w (equations_written M D cs) -> sound_sides w.
Proof.
  revert D. induction cs as [|c cs IH]; intros D w H; [destruct H|]. cbn [equations_written] in H. apply in_app_or in H. destruct H as [H|H]; [|now apply IH in H].
  destruct c; try destruct H. - subst. apply sides_read. - destruct H.
Qed.
Lemma no_sides n v : sound_sides (mkWritten n v None).
Proof. intros f g H. discriminate H. Qed.
Lemma sides_bring past a j p w : bring past a = Some (j, p, w) -> sound_sides w.
Proof.
  destruct a as [n d|i c|i|i k f|i|m i outs ins e|m i out inp|ns|c|]; cbn [bring]; intros H; try discriminate H.
  - destruct c; try discriminate H. destruct (nth_error (views past) i); [|discriminate H]. injection H as <- <- <-. apply sides_read.
  - injection H as <- <- <-. destruct e; [apply sides_given|apply no_sides].
  - injection H as <- <- <-. apply no_sides.
Qed.
Lemma sides_program acts w : program_says acts w -> sound_sides w.
Proof.
  intros [(v & i & _ & _ & H)|(j & _ & a1 & a & a2 & p & _ & H & _)]; [now apply sides_written in H|now apply sides_bring in H].
Qed.

(** Accounts. *)
Definition sound_account (v : account) : Prop := forall p w, In (p, w) (ac_says v) -> sound_sides w.
Lemma sound_file p x L : sound_sides x -> (forall q w, In (q, w) L -> sound_sides w) -> forall q w, In (q, w) (file p x L) -> sound_sides w.
Proof. intros X H q w [E|E]; [now injection E as _ <-|]. apply filter_In in E. apply (H q w), E. Qed.
Lemma sound_cmd c v v' : sound_account v -> account_cmd c v = Some v' -> sound_account v'.
Proof.
  intros S E. destruct c; cbn in E; try (injection E as <-; exact S). destruct (_ && _); [|discriminate]. injection E as <-.
  intros p w. cbn [ac_says]. apply sound_file; [apply sides_read|exact S].
Qed.
Lemma sound_cmds cs : forall v v', sound_account v -> account_cmds cs v = Some v' -> sound_account v'.
Proof.
  induction cs as [|c cs IH]; intros v v' S E; cbn in E; [now injection E as <-|]. destruct (account_cmd c v) as [v1|] eqn:E1; [|discriminate].
  now apply (IH v1 v'); [apply (sound_cmd c v)|].
Qed.
Lemma sound_inc f d v v' : sound_account d -> sound_account v -> account_inc f d v = Some v' -> sound_account v'.
Proof.
  intros Sd S E. unfold account_inc in E. destruct (_ && _); [|discriminate]. injection E as <-. intros p w. cbn [ac_says]. destruct (i_eqs f); [|apply S].
  unfold adopt_equations. revert p w. unfold sound_account in Sd. induction (ac_says d) as [|[p0 w0] l IH]; cbn [fold_right fst snd]; [exact S|].
  apply sound_file; [apply sides_moved, (Sd p0 w0); now left|]. apply IH. intros q w H. apply (Sd q w). now right.
Qed.
Definition sound_accounts (vs : list account) : Prop := forall v, In v vs -> sound_account v.
Lemma in_change_at {A} (f : A -> A) i l x : In x (change_at f i l) -> In x l \/ exists y, nth_error l i = Some y /\ x = f y.
Proof.
  revert i. induction l as [|a l IH]; intros [|i] H; cbn in *; try tauto; destruct H as [<-|H]; eauto.
  destruct (IH i H) as [H1|(y & H1 & H2)]; eauto.
Qed.
Lemma sound_at f i vs vs' : (forall v v', sound_account v -> f v = Some v' -> sound_account v') -> sound_accounts vs -> at_model f i vs = Some vs' -> sound_accounts vs'.
Proof.
  intros F S E. unfold at_model in E. destruct (nth_error vs i) as [v|] eqn:Ev; [|discriminate]. destruct (f v) as [v1|] eqn:E1; [|discriminate]. injection E as <-.
  intros u H. apply in_change_at in H. destruct H as [H|(y & _ & ->)]; [now apply S|]. apply (F v); [|exact E1]. apply S. now apply nth_error_In in Ev.
Qed.
Lemma sound_calls is : forall vs vs', sound_accounts vs -> account_calls is vs = Some vs' -> sound_accounts vs'.
Proof.
  induction is as [|i is IH]; intros vs vs' S E; cbn in E; [now injection E as <-|]. destruct (at_model account_call i vs) as [vs1|] eqn:E1; [|discriminate].
  apply (IH vs1 vs'); [|exact E]. revert E1. apply sound_at; [|exact S]. intros v v'. apply sound_cmds.
Qed.
Lemma sound_act past vs a vs' : sound_accounts vs -> account_act past vs a = Some vs' -> sound_accounts vs'.
Proof.
  intros S E. assert (B : forall j p x, bring past a = Some (j, p, x) -> at_model (add_equation_to p x) j vs = Some vs' -> sound_accounts vs').
  { intros j p x Eb. apply sound_at; [|exact S]. intros v v' Sv E'. injection E' as <-. intros q w. cbn [ac_says]. apply sound_file; [exact (sides_bring _ _ _ _ _ Eb)|exact Sv]. }
  destruct a as [n d|i c|i|i k f|i|m i outs ins e|m i out inp|ns|c|]; cbn [account_act] in E; try (injection E as <-; exact S).
  - injection E as <-. intros v H. apply in_app_or in H. destruct H as [H|[<-|[]]]; [now apply S|]. intros p w [].
  - revert E. apply sound_at; [|exact S]. intros v v'. apply sound_cmd.
  - revert E. apply sound_at; [|exact S]. intros v v'. apply sound_cmds.
  - destruct (nth_error vs k) as [d|] eqn:Ed; [|discriminate]. revert E. apply sound_at; [|exact S]. intros v v'. apply sound_inc. apply S. now apply nth_error_In in Ed.
  - cbn [bring] in E, B. exact (B _ _ _ eq_refl E).
  - cbn [bring] in E, B. exact (B _ _ _ eq_refl E).
  - now apply sound_calls in E.
Qed.
Lemma sound_acts acts : forall past vs vs', sound_accounts vs -> account_acts past vs acts = Some vs' -> sound_accounts vs'.
Proof.
  induction acts as [|a acts IH]; intros past vs vs' S E; cbn [account_acts] in E; [now injection E as <-|]. destruct (account_act past vs a) as [vs1|] eqn:E1; [|discriminate].
  apply (IH (past ++ [a]) vs1 vs'); [|exact E]. exact (sound_act past vs a vs1 S E1).
Qed.
Lemma sides_composed acts vs w : accounts (acts ++ [AResolve]) = Some vs -> composed_says acts vs w -> sound_sides w.
Proof.
  intros E (i & v & p & _ & Hv & H). assert (S : sound_accounts vs). { apply (sound_acts (acts ++ [AResolve]) [] [] vs); [intros u []|exact E]. }
  apply nth_error_In in Hv. exact (S v Hv p w H).
Qed.
Lemma sides_set_up acts s b P w : sets_up acts s b P -> P w -> sound_sides w.
Proof. intros [_ _ _ _ _ _ _|vs _ _ _ _ _ E]; [apply sides_program|now apply sides_composed]. Qed.
Lemma stated_set_up acts s b P : sets_up acts s b P -> resolved acts s b /\ stated b P.
Proof.
  intros [Re O D Rd Ti Pl Kn|vs Re O D N Pl A]; (split; [exact Re|]); [exact (block_says _ _ _ Re O D Rd Ti Pl Kn)|exact (block_composed _ _ _ _ Re O D N Pl A)].
Qed.

(** ** One solution *)
Lemma gap_total names en en' : gap names en en' = total (fun y => Rabs (e_sym en y - e_sym en' y)) names.
Proof. reflexivity. Qed.

(** Constants that serve all of finitely many. *)
Lemma common {A} (l : list A) (Q : A -> R -> R -> Prop) :
  (forall x d L d' L', In x l -> Q x d L -> 0 < d' <= d -> L <= L' -> Q x d' L') ->
  (forall x, In x l -> exists d L, 0 < d /\ Q x d L) -> exists d L, 0 < d /\ forall x, In x l -> Q x d L.
Proof.
  induction l as [|a l IH]; intros M H; [exists 1, 0; split; [lra|intros x []]|].
  destruct IH as (d & L & Hd & HQ). { intros; eapply M; eauto. now right. } { intros; apply H; now right. }
  destruct (H a (or_introl eq_refl)) as (d' & L' & Hd' & HQ').
  assert (Pm : 0 < Rmin d d') by now apply Rmin_glb_lt.
  exists (Rmin d d'), (Rmax L L'). split; [exact Pm|]. intros x [<-|Hx].
  - apply (M a d' L'); [now left|exact HQ'|split; [exact Pm|apply Rmin_r]|apply Rmax_r].
  - apply (M x d L); [now right|now apply HQ|split; [exact Pm|apply Rmin_l]|apply Rmax_l].
Qed.

(** An equation whose left side is the rate. *)
Lemma rate_of_sides (Q : written -> Prop) w x u g : Q w -> (forall en, wr_value w en = arith BSub (Some (e_der en x u)) (g en)) -> rate_said Q x u g.
Proof.
  intros Hw Hv. exists w. split; [exact Hw|]. intros en H. rewrite Hv in H. unfold arith in H. destruct (g en) as [v|]; [|discriminate].
  f_equal. assert (e_der en x u - v = 0) by congruence. lra.
Qed.

Section One.
Variables (P P' : written -> Prop) (t : string) (names : list string) (sol sol' : string -> R -> R).
Hypothesis Sr : same_rates P P' t names.

(** The equations hold at [s]. *)
Definition held (Q : written -> Prop) (so : string -> R -> R) (s : R) : Prop :=
  (exists en, at_moment t names so s en) /\ forall en, at_moment t names so s en -> forall w, Q w -> wr_value w en = Some 0.

Lemma rate_value Q so s en x g : held Q so s -> at_moment t names so s en -> rate_said Q x t g -> g en = Some (e_der en x t).
Proof.
  intros (_ & H) A (w & Hw & Hv). exact (Hv en (H en A w Hw)).
Qed.

Lemma held_tied a b s : (forall r, a <= r <= b -> held P sol r /\ held P' sol' r) -> a <= s <= b -> (forall x, In x names -> sol x s = sol' x s) ->
  tied names sol sol' a b s.
Proof.
  intros H Hs Es. destruct (H s Hs) as (H1 & H2). destruct H1 as ((en0 & A0) & H1). destruct H2 as ((en0' & A0') & H2).
  destruct (common names (fun x d L => exists g g', rate_said P x t g /\ rate_said P' x t g' /\ (forall en, g en = g' en) /\
    forall en en', near d (t :: names) en0 en -> near d (t :: names) en0 en' -> e_sym en t = e_sym en' t ->
      forall u v, g en = Some u -> g en' = Some v -> Rabs (u - v) <= L * gap names en en')) as (d & L & Hd & HL).
  { intros x d L d' L' _ (g & g' & G1 & G2 & G3 & G4) Hd HL. exists g, g'. do 3 (split; [assumption|]). intros en en' N N' Et u v Hu Hv.
    assert (Q := G4 en en' (near_less _ _ _ _ _ (proj2 Hd) N) (near_less _ _ _ _ _ (proj2 Hd) N') Et u v Hu Hv).
    assert (Gn := gap_nonneg names en en'). assert (L * gap names en en' <= L' * gap names en en') by now apply Rmult_le_compat_r. lra. }
  { intros x Hx. destruct (Sr x Hx) as (g & g' & G1 & G2 & G3 & G4).
    assert (E0 := rate_value P sol s en0 x g (conj (ex_intro _ en0 A0) H1) A0 G1).
    destruct (G4 en0 _ E0) as (d & L & Hd & Hl). exists d, L. split; [exact Hd|]. exists g, g'. auto. }
  (* near in time, near in state *)
  assert (Co : forall x so Q, held Q so s -> In x names -> exists c, 0 < c /\ forall r, Rabs (r - s) < c -> Rabs (so x r - so x s) < d).
  { intros x so Q ((en & A) & _) Hx. destruct A as (_ & A). destruct (A x Hx) as (_ & D).
    assert (C : continuity_pt (so x) s) by (apply derivable_continuous_pt; now exists (e_der en x t)).
    destruct (C d Hd) as (c & Hc & K). exists c. split; [exact Hc|]. intros r Hr. destruct (Req_dec r s) as [->|Nr]; [rewrite less_self, Rabs_R0; exact Hd|].
    apply (K r). split; [split; [exact I|auto]|exact Hr]. }
  destruct (common names (fun x c _ => forall r, Rabs (r - s) < c -> Rabs (sol x r - sol x s) < d /\ Rabs (sol' x r - sol' x s) < d)) as (c & L1 & Hc & HC).
  { intros x c _ c' _ _ K Hc' _ r Hr. apply K. lra. }
  { intros x Hx. destruct (Co x sol P (conj (ex_intro _ en0 A0) H1) Hx) as (c1 & C1 & K1). destruct (Co x sol' P' (conj (ex_intro _ en0' A0') H2) Hx) as (c2 & C2 & K2).
    exists (Rmin c1 c2), 0. split; [now apply Rmin_glb_lt|]. intros r Hr. split; [apply K1|apply K2].
    - assert (M := Rmin_l c1 c2). lra.
    - assert (M := Rmin_r c1 c2). lra. }
  exists (Rmin c d), L. split; [now apply Rmin_glb_lt|]. intros tau Ht Dt. destruct (H tau Ht) as (T1 & T2).
  assert (Dc : Rabs (tau - s) < c) by (assert (M := Rmin_l c d); lra). assert (Dd : Rabs (tau - s) < d) by (assert (M := Rmin_r c d); lra).
  destruct T1 as ((en1 & A1) & T1). destruct T2 as ((en2 & A2) & T2).
  exists (fun x => e_der en1 x t), (fun x => e_der en2 x t). intros x Hx.
  split; [apply A1; exact Hx|]. split; [apply A2; exact Hx|]. destruct (HL x Hx) as (g & g' & G1 & G2 & G3 & G4).
  assert (E1 := rate_value P sol tau en1 x g (conj (ex_intro _ en1 A1) T1) A1 G1).
  assert (E2 := rate_value P' sol' tau en2 x g' (conj (ex_intro _ en2 A2) T2) A2 G2). rewrite <- G3 in E2.
  destruct A0 as (A0t & A0). destruct A1 as (A1t & A1). destruct A2 as (A2t & A2).
  assert (Q : Rabs (e_der en1 x t - e_der en2 x t) <= L * gap names en1 en2).
  { apply (G4 en1 en2); [| |congruence|exact E1|exact E2].
    - intros y [<-|Hy]; [now rewrite A1t, A0t|]. rewrite (proj1 (A1 y Hy)), (proj1 (A0 y Hy)). now apply HC.
    - intros y [<-|Hy]; [now rewrite A2t, A0t|]. rewrite (proj1 (A2 y Hy)), (proj1 (A0 y Hy)), (Es y Hy). now apply HC. }
  rewrite gap_total in Q. erewrite total_ext in Q; [exact Q|]. intros y Hy. cbv beta. now rewrite (proj1 (A1 y Hy)), (proj1 (A2 y Hy)).
Qed.

Lemma held_derivable s x : held P sol s -> held P' sol' s -> In x names -> exists df dg, derivable_pt_lim (sol x) s df /\ derivable_pt_lim (sol' x) s dg.
Proof. intros ((en & _ & A) & _) ((en' & _ & A') & _) Hx. exists (e_der en x t), (e_der en' x t). split; [apply A|apply A']; exact Hx. Qed.

Lemma one_solution t0 times times' : obeys_all P t names t0 times sol -> obeys_all P' t names t0 times' sol' ->
  (forall x, In x names -> sol x t0 = sol' x t0) -> forall tau, during t0 times tau -> during t0 times' tau -> forall x, In x names -> sol x tau = sol' x tau.
Proof.
  intros O O' E tau (tk & Hk & Dk) (tk' & Hk' & Dk') x Hx.
  destruct (Rle_lt_dec t0 tau) as [Lt|Lt].
  - assert (H : forall r, t0 <= r <= tau -> held P sol r /\ held P' sol' r).
    { intros r Hr. split; [apply O|apply O']; [exists tk|exists tk']; (split; [assumption|]).
      - destruct Dk as [Dk|Dk]; [left; lra|]. right. lra.
      - destruct Dk' as [Dk'|Dk']; [left; lra|]. right. lra. }
    apply (equal_to_end names sol sol' t0 tau Lt); [| |exact E|lra|exact Hx].
    + intros s y Hs Hy. destruct (H s Hs). now apply held_derivable.
    + intros s Hs Es. now apply held_tied.
  - assert (H : forall r, tau <= r <= t0 -> held P sol r /\ held P' sol' r).
    { intros r Hr. split; [apply O|apply O']; [exists tk|exists tk']; (split; [assumption|]).
      - destruct Dk as [Dk|Dk]; [left; lra|]. right. lra.
      - destruct Dk' as [Dk'|Dk']; [left; lra|]. right. lra. }
    apply (equal_to_start names sol sol' tau t0 ltac:(lra)); [| |exact E|lra|exact Hx].
    + intros s y Hs Hy. destruct (H s Hs). now apply held_derivable.
    + intros s Hs Es. now apply held_tied.
Qed.
End One.

(** ** Runs *)
Lemma run_records acts s b P t pn ode t0 ts d names eps : ode_problem acts s b P t pn ode -> recorded_run s b t pn ode t0 ts d names eps ->
  (forall x, In x (map fst ode) <-> rated_in P t x) /\
  exists sol, starts_right acts (map fst ode) t0 sol /\ obeys_all P t (map fst ode) t0 ts sol /\ recorded_as d t names (map fst ode) ts sol eps.
Proof.
  intros (Su & Dc & Pn & Wt & Ut & Tt & Fe & Cl & Eb & Un & Ne) R. destruct (stated_set_up _ _ _ _ Su) as (Re & Sta).
  destruct (resolve_keeps _ _ _ Re) as (_ & Kt). assert (Tt' : pr_time (snd s) = Some [t]) by (rewrite Kt; now apply time_exact).
  destruct R as [ps tn compile ds odeint cvode eps o d0 d' ts rows In_ Cd Id Dd Nd So Ho S|ps tn compile ds odeint cvode eps o d0 d' ts rows In_ Cd Id Dd Nd So Ho S].
  - destruct (odeint_run_stated P acts s b t pn ps tn compile ds ode odeint cvode eps o d0 d' ts rows Re Sta Dc Pn Wt Ut Tt Fe Cl Eb Un Ne In_ Cd Id Dd Nd So Ho S) as (_ & A & B).
    split; [exact A|exact B].
  - split; [|exact (cvode_run_stated P acts s b t pn ps tn compile ds ode odeint cvode eps o d0 d' ts rows Re Sta Dc Pn Wt Ut Tt Fe Cl Eb Un Ne In_ Cd Id Dd Nd So Ho S)].
    intros x. exact (rated_names s b t pn _ tn compile ds ode P Sta Pn Wt Ut Tt' Fe Cl Eb Un Ne In_ x).
Qed.

Lemma forall2_at {A B} (Q : A -> B -> Prop) l m : Forall2 Q l m -> forall k a c, nth_error l k = Some a -> nth_error m k = Some c -> Q a c.
Proof. induction 1; intros [|k] a c H1 H2; try discriminate; cbn in *; [now injection H1 as <-; injection H2 as <-|eauto]. Qed.

Lemma runs_agree acts s b P t pn ode acts' s' b' P' pn' ode' t0 ts d names eps ts' d' names' eps' :
  ode_problem acts s b P t pn ode -> ode_problem acts' s' b' P' t pn' ode' ->
  (forall x, In x (map fst ode) <-> In x (map fst ode')) -> same_rates P P' t (map fst ode) -> same_starts acts acts' (map fst ode) ->
  recorded_run s b t pn ode t0 ts d names eps -> recorded_run s' b' t pn' ode' t0 ts' d' names' eps' ->
  agree_within (eps + eps') t (map fst ode) d names d' names'.
Proof.
  intros O O' En Sr Ss R R'. destruct (run_records _ _ _ _ _ _ _ _ _ _ _ _ O R) as (_ & sol & St & Ob & (Ct & Cx)).
  destruct (run_records _ _ _ _ _ _ _ _ _ _ _ _ O' R') as (_ & sol' & St' & Ob' & (Ct' & Cx')).
  assert (Eq : forall x, In x (map fst ode) -> sol x t0 = sol' x t0).
  { intros x Hx. destruct (St x Hx) as (k & v & K1 & K2 & ->). destruct (St' x (proj1 (En x) Hx)) as (k' & v' & K1' & K2' & ->).
    assert (Q := Ss x k k' Hx K1 K1'). congruence. }
  assert (Ob2 : obeys_all P' t (map fst ode) t0 ts' sol').
  { assert (M : forall tau en, at_moment t (map fst ode') sol' tau en <-> at_moment t (map fst ode) sol' tau en).
    { intros tau en. unfold at_moment. split; intros (M1 & M2); (split; [exact M1|]); intros x Hx; apply M2; now apply En. }
    intros tau Hd. destruct (Ob' tau Hd) as ((en & A) & B). split; [exists en; now apply M|]. intros en' A'. apply B. now apply M. }
  exists ts, ts'. split; [exact Ct|]. split; [exact Ct'|]. intros x Hx. destruct (Cx x Hx) as (col & Hc & F). destruct (Cx' x (proj1 (En x) Hx)) as (col' & Hc' & F').
  exists col, col'. do 2 (split; [assumption|]). split; [symmetry; exact (forall2_length _ _ _ F)|]. split; [symmetry; exact (forall2_length _ _ _ F')|].
  intros k k' tau v v' T1 T2 V1 V2. assert (Q1 := forall2_at _ _ _ F k tau v T1 V1). assert (Q2 := forall2_at _ _ _ F' k' tau v' T2 V2). cbv beta in Q1, Q2.
  assert (E : sol x tau = sol' x tau).
  { apply (one_solution P P' t (map fst ode) sol sol' Sr t0 ts ts' Ob Ob2 Eq tau); [| |exact Hx].
    - exists tau. split; [now apply nth_error_In in T1|]. destruct (Rle_lt_dec t0 tau); [left|right]; lra.
    - exists tau. split; [now apply nth_error_In in T2|]. destruct (Rle_lt_dec t0 tau); [left|right]; lra. }
  rewrite <- E in Q2. replace (v - v') with ((v - sol x tau) + - (v' - sol x tau)) by ring.
  assert (T := Rabs_triang (v - sol x tau) (- (v' - sol x tau))). rewrite Rabs_Ropp in T. lra.
Qed.

Lemma starts_unique acts x k k' : dictionaries acts -> starts_at acts x k -> starts_at acts x k' -> k = k'.
Proof. intros D H H'. apply (init_exact acts D) in H. apply (init_exact acts D) in H'. congruence. Qed.

Lemma same_program_runs acts s b P t pn ode t0 ts d names eps ts' d' names' eps' :
  ode_problem acts s b P t pn ode -> (forall x w g, P w -> rate w x t g -> steady t (map fst ode) g) ->
  recorded_run s b t pn ode t0 ts d names eps -> recorded_run s b t pn ode t0 ts' d' names' eps' ->
  agree_within (eps + eps') t (map fst ode) d names d' names'.
Proof.
  intros O St R R'. apply (runs_agree acts s b P t pn ode acts s b P pn ode t0 ts d names eps ts' d' names' eps' O O); [tauto| | |exact R|exact R'].
  - destruct (run_records _ _ _ _ _ _ _ _ _ _ _ _ O R) as (A & _). intros x Hx. apply A in Hx. destruct Hx as (w & g & Hw & Hr).
    assert (Rs : rate_said P x t g).
    { apply (rate_of_sides _ w); [exact Hw|]. intros en. destruct O as (Su & _). assert (S := sides_set_up _ _ _ _ _ Su Hw).
      destruct Hr as (f & Hs & Hf). rewrite (S f g Hs en). now rewrite Hf. }
    exists g, g. do 3 (split; [auto|]). now apply (St x w).
  - destruct O as (_ & Dc & _). intros x k k' _ H H'. now rewrite (starts_unique acts x k k' Dc H H').
Qed.

(** ** The rates of a program are the right-hand sides of its system *)
Lemma forall2_in_l {A B} (Q : A -> B -> Prop) l m : Forall2 Q l m -> forall a, In a l -> exists c, In c m /\ Q a c.
Proof. induction 1; intros z []; [subst; eexists; split; [now left|assumption]|]. destruct (IHForall2 z H1) as (c & Hc & Hq). exists c. split; [now right|exact Hq]. Qed.
Lemma forall2_in_r {A B} (Q : A -> B -> Prop) l m : Forall2 Q l m -> forall c, In c m -> exists a, In a l /\ Q a c.
Proof. induction 1; intros z []; [subst; eexists; split; [now left|assumption]|]. destruct (IHForall2 z H1) as (c & Hc & Hq). exists c. split; [now right|exact Hq]. Qed.
Lemma system_rates acts s b P t pn ode x r : ode_problem acts s b P t pn ode -> In (x, r) ode -> exists g, rate_said P x t g /\ forall en, g en = den r en.
Proof.
  intros (Su & _ & _ & _ & _ & _ & Fe & _ & Eb & _) H. destruct (stated_set_up _ _ _ _ Su) as (_ & _ & Sta).
  destruct (forall2_in_r _ _ _ Fe _ H) as (e & He & a & c & n & _ & E1 & E2 & _ & E3 & _). cbn [fst snd] in *. rewrite <- Eb in He.
  destruct (Sta e He) as (w & Hw & _ & Sw). destruct (wr_sides w) as [[f g]|] eqn:Es.
  - destruct Sw as (_ & a' & c' & E4 & F1 & F2). rewrite E1 in E4. injection E4 as <- <-. rewrite E2 in F1. rewrite E3 in F2. exists g. split; [|intros en; now rewrite F2].
    apply (rate_of_sides _ w); [exact Hw|]. intros en. rewrite (sides_set_up _ _ _ _ _ Su Hw f g Es en), <- F1. reflexivity.
  - destruct (forall2_in_l _ _ _ Fe e) as (xr & _ & a' & c' & n' & El & _). { now rewrite <- Eb. } rewrite El in Sw. discriminate Sw.
Qed.
Lemma rates_system acts s b P t pn ode w x g : ode_problem acts s b P t pn ode -> P w -> rate w x t g -> exists y r, In (y, r) ode /\ forall en, g en = den r en.
Proof.
  intros (Su & _ & _ & _ & _ & _ & Fe & _ & Eb & _) Hw (f & Es & Hf). destruct (stated_set_up _ _ _ _ Su) as (_ & Sta & _).
  destruct (Sta w Hw) as (e & He & _ & Sw). rewrite Es in Sw. destruct Sw as (_ & a & c & E4 & F1 & F2). rewrite Eb in He.
  destruct (forall2_in_l _ _ _ Fe e He) as ((y, r) & Hy & a' & c' & n & _ & E1 & E2 & _ & E3 & _). cbn [fst snd] in *. rewrite E1 in E4. injection E4 as <- <-.
  exists y, r. split; [exact Hy|]. intros en. now rewrite <- F2, E3.
Qed.
Lemma steady_ext t names g g' : (forall en, g en = g' en) -> steady t names g -> steady t names g'.
Proof. intros E S en0 c Hc. rewrite <- E in Hc. destruct (S en0 c Hc) as (d & L & Hd & H). exists d, L. split; [exact Hd|]. intros en en' N N' Et a b Ha Hb. apply (H en en' N N' Et); now rewrite E. Qed.
(** Systems with the same steady right-hand sides. *)
Lemma systems_same acts s b P t pn ode acts' s' b' P' pn' ode' : ode_problem acts s b P t pn ode -> ode_problem acts' s' b' P' t pn' ode' ->
  (forall x r, In (x, r) ode -> steady t (map fst ode) (den r) /\ exists r', In (x, r') ode' /\ forall en, den r en = den r' en) ->
  same_rates P P' t (map fst ode).
Proof.
  intros O O' H x Hx. apply in_map_iff in Hx. destruct Hx as ([y r] & E & Hx). cbn in E. subst y. destruct (H x r Hx) as (S & r' & Hx' & Er).
  destruct (system_rates _ _ _ _ _ _ _ x r O Hx) as (g & G1 & G2). destruct (system_rates _ _ _ _ _ _ _ x r' O' Hx') as (g' & G1' & G2').
  exists g, g'. do 2 (split; [assumption|]). split; [intros en; now rewrite G2, G2', Er|]. apply (steady_ext t _ (den r)); [intros en; now rewrite G2|exact S].
Qed.
