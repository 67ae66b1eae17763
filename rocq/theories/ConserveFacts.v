(** Proofs about what the equations of a problem keep account of. *)
From Verif Require Import Base BaseFacts Num UnitModel Sympy Node Build EquationModel ModelModel ProblemModel SpecUnits SpecExpr SpecModel SpecInc SpecCall SpecProblem
  ProblemFacts SessionFacts SpecLink SolverModel DomainModel SpecSolver SolverFacts SpecSymbols OdeFacts DaeFacts SpecWritten SpecExact SpecOwn SpecSession StudyFacts
  SpecSaid SaidFacts SpecCompose ComposeFacts SpecInit InitFacts SimModel RunModel SpecRun RunFacts WholeModel SpecWhole WholeFacts SpecUnique TameFacts UniqueFacts SpecSimulated SimulatedFacts
  DaeRunFacts SpecUniqueDae UniqueDaeFacts DaeAgreeFacts SpecDepend DependFacts SpecDependDae DependDaeFacts SpecConserve.
From Coq Require Import Reals Lra Lia.
From Coquelicot Require Import Coquelicot.
Notation num := Verif.Num.num.
Open Scope R_scope.

Lemma worth_same v v' a : (forall x, In x (made_of a) -> v x = v' x) -> worth v a = worth v' a.
Proof.
  induction a as [r|x|a IHa b IHb|a IHa b IHb]; cbn; intros H; auto.
  all: rewrite IHa, IHb; auto; intros x I; apply H, in_or_app; auto.
Qed.
Lemma change_same v v' d d' a : (forall x, In x (made_of a) -> v x = v' x) -> (forall x, In x (made_of a) -> d x = d' x) -> change v d a = change v' d' a.
Proof.
  induction a as [r|x|a IHa b IHb|a IHa b IHb]; cbn; intros H H'; auto.
  - rewrite IHa, IHb; auto; intros x I; first [apply H|apply H']; apply in_or_app; auto.
  - rewrite IHa, IHb; try (intros x I; first [apply H|apply H']; apply in_or_app; auto).
    rewrite (worth_same v v' a), (worth_same v v' b); [reflexivity| |]; intros x I; apply H, in_or_app; auto.
Qed.
Lemma worth_moves (f : string -> R -> R) d tau a : (forall x, In x (made_of a) -> derivable_pt_lim (f x) tau (d x)) ->
  derivable_pt_lim (fun s => worth (fun x => f x s) a) tau (change (fun x => f x tau) d a).
Proof.
  induction a as [r|x|a IHa b IHb|a IHa b IHb]; cbn [worth change made_of]; intros H.
  - apply derivable_pt_lim_const.
  - apply H. now left.
  - apply (derivable_pt_lim_plus (fun s => worth (fun x => f x s) a) (fun s => worth (fun x => f x s) b)); [apply IHa|apply IHb]; intros x I; apply H, in_or_app; auto.
  - apply (derivable_pt_lim_mult (fun s => worth (fun x => f x s) a) (fun s => worth (fun x => f x s) b)); [apply IHa|apply IHb]; intros x I; apply H, in_or_app; auto.
Qed.

(** ** Rates and changes *)
Lemma mean_rate (V : R -> R) lo hi t0 tau : (forall s, t0 <= s <= tau \/ tau <= s <= t0 -> exists r, lo <= r <= hi /\ derivable_pt_lim V s r) ->
  exists r, lo <= r <= hi /\ V tau = V t0 + r * (tau - t0).
Proof.
  intros H.
  assert (D : forall s, t0 <= s <= tau \/ tau <= s <= t0 -> lo <= Derive V s <= hi /\ derivable_pt_lim V s (Derive V s)).
  { intros s Hs. destruct (H s Hs) as (r & B & L). assert (E : Derive V s = r) by (apply is_derive_unique; now apply is_derive_Reals).
    rewrite E. auto. }
  destruct (Rtotal_order t0 tau) as [L|[E|L]].
  - destruct (MVT_cor2 V (Derive V) t0 tau L) as (c & Ec & Hc); [intros c Hc; apply D; now left|].
    exists (Derive V c). split; [apply D; lra|lra].
  - subst tau. exists (Derive V t0). split; [apply D; lra|lra].
  - destruct (MVT_cor2 V (Derive V) tau t0 L) as (c & Ec & Hc); [intros c Hc; apply D; now right|].
    exists (Derive V c). split; [apply D; lra|lra].
Qed.

Definition with_time (t : string) (sol : string -> R -> R) (x : string) (s : R) : R := if String.eqb x t then s else sol x s.
Lemma during_between t0 ts tau s : during t0 ts tau -> t0 <= s <= tau \/ tau <= s <= t0 -> during t0 ts s.
Proof. intros (tk & I & H) B. exists tk. split; [exact I|]. lra. Qed.

(** What any functions that obey the equations of a differential(-algebraic) problem keep
    account of; [moves] are the variables with a rate. *)
Lemma account (here : env -> Prop) (P : written -> Prop) t names moves a lo hi sol t0 ts :
  paced here P t a lo hi -> (forall x, In x (made_of a) -> x = t \/ In x moves) -> (forall x, In x moves -> In x names) ->
  dae_obeys_all P t names moves t0 ts sol -> (forall tau en, during t0 ts tau -> dae_moment t names moves sol tau en -> here en) ->
  forall tau, during t0 ts tau -> exists r, lo <= r <= hi /\
    worth (fun x => with_time t sol x tau) a = worth (fun x => with_time t sol x t0) a + r * (tau - t0).
Proof.
  intros Pc M Mn Ob Hh tau Du. apply (mean_rate (fun s => worth (fun x => with_time t sol x s) a)). intros s Hs.
  assert (Ds := during_between t0 ts tau s Du Hs). destruct (Ob s Ds) as ((en & A) & B). pose proof A as (A1 & A2 & A3).
  exists (change (e_sym en) (motion t en) a). split; [exact (Pc en (Hh s en Ds A) (B en A))|].
  assert (E : change (e_sym en) (motion t en) a = change (fun x => with_time t sol x s) (motion t en) a).
  { apply change_same; [|reflexivity]. intros x I. unfold with_time. destruct (String.eqb_spec x t) as [->|N]; [exact A1|].
    destruct (M x I) as [?|I']; [contradiction|]. now apply A2, Mn. }
  rewrite E. apply worth_moves. intros x I. unfold motion, with_time. destruct (String.eqb_spec x t) as [->|N]; [apply derivable_pt_lim_id|].
  destruct (M x I) as [?|I']; [contradiction|]. now apply A3.
Qed.

Lemma ode_as_dae P t names t0 ts sol : obeys_all P t names t0 ts sol -> dae_obeys_all P t names names t0 ts sol.
Proof.
  assert (M : forall tau en, dae_moment t names names sol tau en <-> at_moment t names sol tau en).
  { intros tau en. unfold dae_moment, at_moment. split.
    - intros (A & B & C). split; [exact A|]. auto.
    - intros (A & B). split; [exact A|]. split; intros x I; now apply B. }
  intros Ob tau Du. destruct (Ob tau Du) as ((en & A) & B). split; [exists en; now apply M|]. intros en' A'. apply B. now apply M.
Qed.

Lemma solutions_account (here : env -> Prop) P t names a lo hi sol t0 ts :
  paced here P t a lo hi -> (forall x, In x (made_of a) -> x = t \/ In x names) ->
  obeys_all P t names t0 ts sol -> (forall tau en, during t0 ts tau -> at_moment t names sol tau en -> here en) ->
  forall tau, during t0 ts tau -> exists r, lo <= r <= hi /\
    worth (fun x => if String.eqb x t then tau else sol x tau) a = worth (fun x => if String.eqb x t then t0 else sol x t0) a + r * (tau - t0).
Proof.
  intros Pc M Ob Hh. refine (account here P t names names a lo hi sol t0 ts Pc M (fun _ I => I) (ode_as_dae _ _ _ _ _ _ Ob) _).
  intros tau en Du (A & B & C). apply (Hh tau en Du). split; [exact A|]. auto.
Qed.

(** ** Tables *)
Lemma forall2_nth {A B} (Q : A -> B -> Prop) l m k x : Forall2 Q l m -> nth_error l k = Some x -> exists y, nth_error m k = Some y /\ Q x y.
Proof.
  intros F. revert k. induction F as [|a b l m H F IH]; intros [|k] E; cbn in E; try discriminate.
  - injection E as <-. exists b. auto.
  - exact (IH k E).
Qed.
Lemma table_account (here : env -> Prop) acts P t names moves a lo hi sol t0 ts d headers eps :
  paced here P t a lo hi -> (forall x, In x (made_of a) -> x = t \/ In x moves) -> (forall x, In x moves -> In x names) -> ~ In t names ->
  starts_right acts moves t0 sol -> dae_obeys_all P t names moves t0 ts sol ->
  (forall tau en, during t0 ts tau -> dae_moment t names moves sol tau en -> here en) -> recorded_as d t headers names ts sol eps ->
  exists y0, given_start acts t moves t0 y0 /\ keeps_account lo hi eps t names a d headers t0 y0.
Proof.
  intros Pc M Mn Nt St Ob Hh (Ct & Cx). exists (fun x => with_time t sol x t0). split.
  - split; [unfold with_time; now rewrite String.eqb_refl|]. intros x I. destruct (St x I) as (k & v & K1 & K2 & K3). exists k. split; [exact K1|].
    unfold with_time. destruct (String.eqb_spec x t) as [->|_]; [now destruct Nt; apply Mn|]. now rewrite K3.
  - exists ts. split; [exact Ct|]. intros k tau T. assert (Du : during t0 ts tau).
    { exists tau. split; [now apply nth_error_In in T|]. destruct (Rle_lt_dec t0 tau); [left|right]; lra. }
    destruct (account here P t names moves a lo hi sol t0 ts Pc M Mn Ob Hh tau Du) as (r & B & E).
    exists (fun x => with_time t sol x tau), r. split; [unfold with_time; now rewrite String.eqb_refl|]. split; [exact B|]. split; [exact E|].
    intros x I. destruct (Cx x I) as (col & Hc & F). destruct (forall2_nth _ _ _ _ _ F T) as (v & V & Hv). exists v. split; [now exists col|].
    unfold with_time. destruct (String.eqb_spec x t) as [->|_]; [now destruct Nt|exact Hv].
Qed.

Lemma runs_account (here : env -> Prop) a lo hi acts s b P t pn ode t0 ts d names eps :
  ode_problem acts s b P t pn ode -> paced here P t a lo hi -> (forall x, In x (made_of a) -> x = t \/ In x (map fst ode)) ->
  confined here acts P t (map fst ode) t0 ts -> recorded_run s b t pn ode t0 ts d names eps ->
  exists y0, given_start acts t (map fst ode) t0 y0 /\ keeps_account lo hi eps t (map fst ode) a d names t0 y0.
Proof.
  intros O Pc M Cf R. destruct (run_records _ _ _ _ _ _ _ _ _ _ _ _ O R) as (_ & sol & St & Ob & Rc).
  assert (Nt : ~ In t (map fst ode)) by (destruct O as (_ & _ & _ & _ & _ & _ & _ & (_ & N & _) & _); exact N).
  refine (table_account here acts P t (map fst ode) (map fst ode) a lo hi sol t0 ts d names eps Pc M (fun _ I => I) Nt St (ode_as_dae _ _ _ _ _ _ Ob) _ Rc).
  intros tau en Du (A & B & C). apply (Cf sol St Ob tau en Du). split; [exact A|]. auto.
Qed.

Lemma simulations_account (here : env -> Prop) a lo hi acts s b P t pn ode lib arrays ps h st doms sm sanity st1 doms1 ts rows o names eps t0 :
  ode_problem acts s b P t pn ode -> paced here P t a lo hi -> (forall x, In x (made_of a) -> x = t \/ In x (map fst ode)) ->
  simulates s b t pn ode lib doms sm o names eps t0 ->
  whole_run lib arrays pn ps h st doms sm sanity = (st1, doms1, Ok (WRun ts rows)) -> confined here acts P t (map fst ode) (t0 ts) ts ->
  exists d y0, nth_error doms1 o = Some d /\ given_start acts t (map fst ode) (t0 ts) y0 /\ keeps_account lo hi eps t (map fst ode) a d names (t0 ts) y0.
Proof.
  intros O Pc M S H Cf. destruct (simulated_recorded _ _ _ _ _ _ _ _ _ _ _ _ _ _ _ _ _ _ _ _ _ _ O S H) as (ts1 & rows1 & d & E & (_ & Od & _) & R).
  injection E as <- <-. destruct (runs_account here a lo hi acts s b P t pn ode (t0 ts) ts d names eps O Pc M Cf R) as (y0 & A & B).
  exists d, y0. auto.
Qed.

Lemma dae_simulations_account (here : env -> Prop) a lo hi acts s b P t pn dae lib arrays ps h st doms sm sanity st1 doms1 out o names eps t0 e n :
  dae_problem acts s b P t pn dae -> paced here P t a lo hi -> (forall x, In x (made_of a) -> x = t \/ In x (dnames dae)) ->
  (forall x, In x (dnames dae) -> In x (b_varlist b)) ->
  dae_simulates s b t pn lib doms sm o names eps t0 e n ->
  whole_run lib arrays pn ps h st doms sm sanity = (st1, doms1, Ok out) ->
  (forall times, even_points times t0 e n -> dae_confined here acts P t (b_varlist b) (dnames dae) t0 times) ->
  exists d y0, nth_error doms1 o = Some d /\ given_start acts t (dnames dae) t0 y0 /\ keeps_account lo hi eps t (b_varlist b) a d names t0 y0.
Proof.
  intros O Pc M Mn S H Cf.
  destruct (dae_simulated_table _ _ _ _ _ _ _ _ _ _ _ _ _ _ _ _ _ _ _ _ _ _ _ _ O S H) as (ts & rows & d & times & sol & _ & (_ & Od & _) & Ep & St & Ob & Rc).
  assert (Nt : ~ In t (b_varlist b)) by (destruct O as (_ & _ & _ & _ & _ & _ & _ & _ & N & _); exact N).
  destruct (table_account here acts P t (b_varlist b) (dnames dae) a lo hi sol t0 times d names eps Pc M Mn Nt St Ob (Cf times Ep sol St Ob) Rc) as (y0 & A & B).
  exists d, y0. auto.
Qed.

(** ** Weighed sums *)
Lemma weighed_near ws v y eps : 0 <= eps -> (forall x, In x (map fst ws) -> Rabs (v x - y x) <= eps) ->
  Rabs (worth v (weighed ws) - worth y (weighed ws)) <= weights ws * eps.
Proof.
  intros He. induction ws as [|[x c] ws IH]; cbn; intros H; [rewrite Rminus_0_r, Rabs_R0; lra|].
  assert (A := H x (or_introl eq_refl)). assert (B := IH (fun z I => H z (or_intror I))). unfold weighed in B.
  replace (c * v x + worth v (fold_right (fun w a => am_sum (am_product (am_number (snd w)) (am_of (fst w))) a) (am_number 0) ws) -
    (c * y x + worth y (fold_right (fun w a => am_sum (am_product (am_number (snd w)) (am_of (fst w))) a) (am_number 0) ws)))
    with (c * (v x - y x) + (worth v (fold_right (fun w a => am_sum (am_product (am_number (snd w)) (am_of (fst w))) a) (am_number 0) ws) -
    worth y (fold_right (fun w a => am_sum (am_product (am_number (snd w)) (am_of (fst w))) a) (am_number 0) ws))) by ring.
  eapply Rle_trans; [apply Rabs_triang|]. rewrite Rabs_mult, Rmult_plus_distr_r. apply Rplus_le_compat; [|exact B].
  apply Rmult_le_compat_l; [apply Rabs_pos|exact A].
Qed.
Lemma sums_account lo hi eps t names ws d headers t0 y0 : 0 <= eps -> (forall x, In x (map fst ws) -> In x names) ->
  keeps_account lo hi eps t names (weighed ws) d headers t0 y0 ->
  exists ts, column d t (LName (header headers t)) = Some ts /\ forall k tau, nth_error ts k = Some tau ->
    exists v r, (forall x, In x names -> row_says d t headers k x (v x)) /\ lo <= r <= hi /\
      Rabs (worth v (weighed ws) - (worth y0 (weighed ws) + r * (tau - t0))) <= weights ws * eps.
Proof.
  intros He Hn (ts & Ct & H). exists ts. split; [exact Ct|]. intros k tau T. destruct (H k tau T) as (y & r & _ & B & E & Rw).
  assert (V : exists v : string -> R, forall x, In x names -> row_says d t headers k x (v x) /\ Rabs (v x - y x) <= eps).
  { exists (fun x => match column d t (LName (header headers x)) with Some col => nth k col 0 | None => 0 end). intros x I.
    destruct (Rw x I) as (v & (col & Hc & Hv) & N). rewrite Hc, (nth_error_nth _ _ 0 Hv). split; [now exists col|exact N]. }
  destruct V as (v & V). exists v, r. split; [intros x I; now apply V|]. split; [exact B|]. rewrite <- E. apply weighed_near; [exact He|].
  intros x I. now apply V, Hn.
Qed.

(** ** Growth *)
Lemma rising (V : R -> R) t0 tau : t0 <= tau -> (forall s, t0 <= s <= tau -> exists r, 0 <= r /\ derivable_pt_lim V s r) -> V t0 <= V tau.
Proof.
  intros L H. destruct L as [L| ->]; [|lra].
  assert (D : forall s, t0 <= s <= tau -> 0 <= Derive V s /\ derivable_pt_lim V s (Derive V s)).
  { intros s Hs. destruct (H s Hs) as (r & B & Q). assert (E : Derive V s = r) by (apply is_derive_unique; now apply is_derive_Reals). rewrite E. auto. }
  destruct (MVT_cor2 V (Derive V) t0 tau L) as (c & Ec & Hc); [intros c Hc; now apply D|].
  assert (0 <= Derive V c * (tau - t0)) by (apply Rmult_le_pos; [apply D; lra|lra]). lra.
Qed.
Lemma scaled_rate (V : R -> R) l k t0 s r : derivable_pt_lim V s r ->
  derivable_pt_lim (fun s => l * (V s * exp (- k * (s - t0)))) s (l * ((r - k * V s) * exp (- k * (s - t0)))).
Proof.
  intros H. assert (K : derivable_pt_lim (mult_real_fct (- k) (fun s => s - t0)) s (- k * (1 - 0))).
  { apply derivable_pt_lim_scal, (derivable_pt_lim_minus (fun s => s) (fun _ => t0)); [apply derivable_pt_lim_id|apply derivable_pt_lim_const]. }
  assert (F := derivable_pt_lim_comp _ exp _ _ _ K (derivable_pt_lim_exp _)). assert (G := derivable_pt_lim_mult _ _ _ _ _ H F).
  assert (Q := derivable_pt_lim_scal _ l _ _ G). unfold mult_real_fct, mult_fct, comp in Q.
  replace (l * ((r - k * V s) * exp (- k * (s - t0)))) with (l * (r * exp (- k * (s - t0)) + V s * (exp (- k * (s - t0)) * (- k * (1 - 0))))) by ring. exact Q.
Qed.
Lemma compound_rate (V : R -> R) lo hi t0 tau : t0 <= tau ->
  (forall s, t0 <= s <= tau -> exists r, lo * V s <= r <= hi * V s /\ derivable_pt_lim V s r) -> compounded lo hi (V t0) (tau - t0) (V tau).
Proof.
  intros L H.
  assert (S : forall l k, (forall s, t0 <= s <= tau -> exists r, 0 <= l * (r - k * V s) /\ derivable_pt_lim V s r) ->
    l * (V t0 * exp (k * (tau - t0))) <= l * V tau).
  { intros l k Hk. assert (Q := rising (fun s => l * (V s * exp (- k * (s - t0)))) t0 tau L). cbv beta in Q.
    assert (Q' : l * (V t0 * exp (- k * (t0 - t0))) <= l * (V tau * exp (- k * (tau - t0)))).
    { apply Q. intros s Hs. destruct (Hk s Hs) as (r & B & Dr). exists (l * ((r - k * V s) * exp (- k * (s - t0)))). split; [|now apply scaled_rate].
      rewrite <- Rmult_assoc. apply Rmult_le_pos; [exact B|left; apply exp_pos]. }
    replace (- k * (t0 - t0)) with 0 in Q' by ring. rewrite exp_0, Rmult_1_r in Q'.
    assert (E : exp (- k * (tau - t0)) * exp (k * (tau - t0)) = 1) by (rewrite <- exp_plus; replace (- k * (tau - t0) + k * (tau - t0)) with 0 by ring; apply exp_0).
    apply (Rmult_le_compat_r (exp (k * (tau - t0)))) in Q'; [|left; apply exp_pos].
    replace (l * (V tau * exp (- k * (tau - t0))) * exp (k * (tau - t0))) with (l * V tau * (exp (- k * (tau - t0)) * exp (k * (tau - t0)))) in Q' by ring.
    rewrite E in Q'. lra. }
  split.
  - assert (Q := S 1 lo). assert (1 * (V t0 * exp (lo * (tau - t0))) <= 1 * V tau); [|lra]. apply Q. intros s Hs. destruct (H s Hs) as (r & B & Dr). exists r. split; [lra|exact Dr].
  - assert (Q := S (-1) hi). assert (-1 * (V t0 * exp (hi * (tau - t0))) <= -1 * V tau); [|lra]. apply Q. intros s Hs. destruct (H s Hs) as (r & B & Dr). exists r. split; [lra|exact Dr].
Qed.

Lemma growth_account (here : env -> Prop) (P : written -> Prop) t names moves a lo hi sol t0 ts :
  compounds here P t a lo hi -> (forall x, In x (made_of a) -> x = t \/ In x moves) -> (forall x, In x moves -> In x names) ->
  dae_obeys_all P t names moves t0 ts sol -> (forall tau en, during t0 ts tau -> dae_moment t names moves sol tau en -> here en) ->
  forall tau, t0 <= tau -> during t0 ts tau ->
  compounded lo hi (worth (fun x => with_time t sol x t0) a) (tau - t0) (worth (fun x => with_time t sol x tau) a).
Proof.
  intros Pc M Mn Ob Hh tau L Du. apply (compound_rate (fun s => worth (fun x => with_time t sol x s) a) lo hi t0 tau L). intros s Hs.
  assert (Ds := during_between t0 ts tau s Du (or_introl Hs)). destruct (Ob s Ds) as ((en & A) & B). pose proof A as (A1 & A2 & A3).
  assert (V : forall x, In x (made_of a) -> e_sym en x = with_time t sol x s).
  { intros x I. unfold with_time. destruct (String.eqb_spec x t) as [->|N]; [exact A1|]. destruct (M x I) as [?|I']; [contradiction|]. now apply A2, Mn. }
  exists (change (e_sym en) (motion t en) a). split.
  - rewrite <- (worth_same _ _ a V). exact (Pc en (Hh s en Ds A) (B en A)).
  - rewrite (change_same _ _ (motion t en) (motion t en) a V (fun _ _ => eq_refl)). apply worth_moves. intros x I. unfold motion, with_time.
    destruct (String.eqb_spec x t) as [->|N]; [apply derivable_pt_lim_id|]. destruct (M x I) as [?|I']; [contradiction|]. now apply A3.
Qed.
Lemma table_growth (here : env -> Prop) acts P t names moves a lo hi sol t0 ts d headers eps :
  compounds here P t a lo hi -> (forall x, In x (made_of a) -> x = t \/ In x moves) -> (forall x, In x moves -> In x names) -> ~ In t names ->
  starts_right acts moves t0 sol -> dae_obeys_all P t names moves t0 ts sol ->
  (forall tau en, during t0 ts tau -> dae_moment t names moves sol tau en -> here en) -> recorded_as d t headers names ts sol eps ->
  exists y0, given_start acts t moves t0 y0 /\ keeps_growth lo hi eps t names a d headers t0 y0.
Proof.
  intros Pc M Mn Nt St Ob Hh (Ct & Cx). exists (fun x => with_time t sol x t0). split.
  - split; [unfold with_time; now rewrite String.eqb_refl|]. intros x I. destruct (St x I) as (k & v & K1 & K2 & K3). exists k. split; [exact K1|].
    unfold with_time. destruct (String.eqb_spec x t) as [->|_]; [now destruct Nt; apply Mn|]. now rewrite K3.
  - exists ts. split; [exact Ct|]. intros k tau T L. assert (Du : during t0 ts tau).
    { exists tau. split; [now apply nth_error_In in T|]. left. lra. }
    exists (fun x => with_time t sol x tau). split; [unfold with_time; now rewrite String.eqb_refl|].
    split; [exact (growth_account here P t names moves a lo hi sol t0 ts Pc M Mn Ob Hh tau L Du)|].
    intros x I. destruct (Cx x I) as (col & Hc & F). destruct (forall2_nth _ _ _ _ _ F T) as (v & V & Hv). exists v. split; [now exists col|].
    unfold with_time. destruct (String.eqb_spec x t) as [->|_]; [now destruct Nt|exact Hv].
Qed.
Lemma runs_growth (here : env -> Prop) a lo hi acts s b P t pn ode t0 ts d names eps :
  ode_problem acts s b P t pn ode -> compounds here P t a lo hi -> (forall x, In x (made_of a) -> x = t \/ In x (map fst ode)) ->
  confined here acts P t (map fst ode) t0 ts -> recorded_run s b t pn ode t0 ts d names eps ->
  exists y0, given_start acts t (map fst ode) t0 y0 /\ keeps_growth lo hi eps t (map fst ode) a d names t0 y0.
Proof.
  intros O Pc M Cf Rr. destruct (run_records _ _ _ _ _ _ _ _ _ _ _ _ O Rr) as (_ & sol & St & Ob & Rc).
  assert (Nt : ~ In t (map fst ode)) by (destruct O as (_ & _ & _ & _ & _ & _ & _ & (_ & N & _) & _); exact N).
  refine (table_growth here acts P t (map fst ode) (map fst ode) a lo hi sol t0 ts d names eps Pc M (fun _ I => I) Nt St (ode_as_dae _ _ _ _ _ _ Ob) _ Rc).
  intros tau en Du (A & B & C). apply (Cf sol St Ob tau en Du). split; [exact A|]. auto.
Qed.
Lemma simulations_growth (here : env -> Prop) a lo hi acts s b P t pn ode lib arrays ps h st doms sm sanity st1 doms1 ts rows o names eps t0 :
  ode_problem acts s b P t pn ode -> compounds here P t a lo hi -> (forall x, In x (made_of a) -> x = t \/ In x (map fst ode)) ->
  simulates s b t pn ode lib doms sm o names eps t0 ->
  whole_run lib arrays pn ps h st doms sm sanity = (st1, doms1, Ok (WRun ts rows)) -> confined here acts P t (map fst ode) (t0 ts) ts ->
  exists d y0, nth_error doms1 o = Some d /\ given_start acts t (map fst ode) (t0 ts) y0 /\ keeps_growth lo hi eps t (map fst ode) a d names (t0 ts) y0.
Proof.
  intros O Pc M S H Cf. destruct (simulated_recorded _ _ _ _ _ _ _ _ _ _ _ _ _ _ _ _ _ _ _ _ _ _ O S H) as (ts1 & rows1 & d & E & (_ & Od & _) & Rr).
  injection E as <- <-. destruct (runs_growth here a lo hi acts s b P t pn ode (t0 ts) ts d names eps O Pc M Cf Rr) as (y0 & A & B).
  exists d, y0. auto.
Qed.
Lemma dae_simulations_growth (here : env -> Prop) a lo hi acts s b P t pn dae lib arrays ps h st doms sm sanity st1 doms1 out o names eps t0 e n :
  dae_problem acts s b P t pn dae -> compounds here P t a lo hi -> (forall x, In x (made_of a) -> x = t \/ In x (dnames dae)) ->
  (forall x, In x (dnames dae) -> In x (b_varlist b)) ->
  dae_simulates s b t pn lib doms sm o names eps t0 e n ->
  whole_run lib arrays pn ps h st doms sm sanity = (st1, doms1, Ok out) ->
  (forall times, even_points times t0 e n -> dae_confined here acts P t (b_varlist b) (dnames dae) t0 times) ->
  exists d y0, nth_error doms1 o = Some d /\ given_start acts t (dnames dae) t0 y0 /\ keeps_growth lo hi eps t (b_varlist b) a d names t0 y0.
Proof.
  intros O Pc M Mn S H Cf.
  destruct (dae_simulated_table _ _ _ _ _ _ _ _ _ _ _ _ _ _ _ _ _ _ _ _ _ _ _ _ O S H) as (ts & rows & d & times & sol & _ & (_ & Od & _) & Ep & St & Ob & Rc).
  assert (Nt : ~ In t (b_varlist b)) by (destruct O as (_ & _ & _ & _ & _ & _ & _ & _ & N & _); exact N).
  destruct (table_growth here acts P t (b_varlist b) (dnames dae) a lo hi sol t0 times d names eps Pc M Mn Nt St Ob (Cf times Ep sol St Ob) Rc) as (y0 & A & B).
  exists d, y0. auto.
Qed.

(** What solutions are confined to, from what is given and what compounds. *)
Lemma given_worth acts t names t0 y0 sol a : dictionaries acts -> (forall x, In x (made_of a) -> x = t \/ In x names) ->
  given_start acts t names t0 y0 -> starts_right acts names t0 sol -> worth (fun x => with_time t sol x t0) a = worth y0 a.
Proof.
  intros D M (T & G) St. apply worth_same. intros x I. unfold with_time. destruct (String.eqb_spec x t) as [->|N]; [now symmetry|].
  destruct (M x I) as [?|I']; [contradiction|]. destruct (St x I') as (k & v & K1 & K2 & K3). destruct (G x I') as (k' & K1' & K2').
  apply (init_exact acts D) in K1. apply (init_exact acts D) in K1'. rewrite K1 in K1'. injection K1' as <-. congruence.
Qed.
Lemma growth_confines acts P t names a lo hi t0 ts y0 : dictionaries acts ->
  compounds (fun _ => True) P t a lo hi -> (forall x, In x (made_of a) -> x = t \/ In x names) -> given_start acts t names t0 y0 ->
  (forall tk, In tk ts -> t0 <= tk) ->
  confined (fun en => compounded lo hi (worth y0 a) (e_sym en t - t0) (worth (e_sym en) a)) acts P t names t0 ts.
Proof.
  intros D Pc M G Fw sol St Ob tau en Du (A & B).
  assert (L : t0 <= tau). { destruct Du as (tk & I & H). assert (Q := Fw tk I). lra. }
  assert (Q := growth_account (fun _ => True) P t names names a lo hi sol t0 ts Pc M (fun _ I => I) (ode_as_dae _ _ _ _ _ _ Ob) (fun _ _ _ _ => I) tau L Du).
  rewrite (given_worth acts t names t0 y0 sol a D M G St) in Q. rewrite A.
  rewrite (worth_same (e_sym en) (fun x => with_time t sol x tau)); [exact Q|]. intros x I. unfold with_time. destruct (String.eqb_spec x t) as [->|N]; [exact A|].
  destruct (M x I) as [?|I']; [contradiction|]. now apply B.
Qed.
Lemma dae_growth_confines acts P t names moves a lo hi t0 ts y0 : dictionaries acts ->
  compounds (fun _ => True) P t a lo hi -> (forall x, In x (made_of a) -> x = t \/ In x moves) -> (forall x, In x moves -> In x names) ->
  given_start acts t moves t0 y0 -> (forall tk, In tk ts -> t0 <= tk) ->
  dae_confined (fun en => compounded lo hi (worth y0 a) (e_sym en t - t0) (worth (e_sym en) a)) acts P t names moves t0 ts.
Proof.
  intros D Pc M Mn G Fw sol St Ob tau en Du (A & B & C).
  assert (L : t0 <= tau). { destruct Du as (tk & I & H). assert (Q := Fw tk I). lra. }
  assert (Q := growth_account (fun _ => True) P t names moves a lo hi sol t0 ts Pc M Mn Ob (fun _ _ _ _ => I) tau L Du).
  rewrite (given_worth acts t moves t0 y0 sol a D M G St) in Q. rewrite A.
  rewrite (worth_same (e_sym en) (fun x => with_time t sol x tau)); [exact Q|]. intros x I. unfold with_time. destruct (String.eqb_spec x t) as [->|N]; [exact A|].
  destruct (M x I) as [?|I']; [contradiction|]. now apply B, Mn.
Qed.
Lemma pace_confines acts P t names a lo hi t0 ts y0 : dictionaries acts ->
  paced (fun _ => True) P t a lo hi -> (forall x, In x (made_of a) -> x = t \/ In x names) -> given_start acts t names t0 y0 ->
  (forall tk, In tk ts -> t0 <= tk) ->
  confined (fun en => lo * (e_sym en t - t0) <= worth (e_sym en) a - worth y0 a <= hi * (e_sym en t - t0)) acts P t names t0 ts.
Proof.
  intros D Pc M G Fw sol St Ob tau en Du (A & B).
  assert (L : t0 <= tau). { destruct Du as (tk & I & H). assert (Q := Fw tk I). lra. }
  destruct (account (fun _ => True) P t names names a lo hi sol t0 ts Pc M (fun _ I => I) (ode_as_dae _ _ _ _ _ _ Ob) (fun _ _ _ _ => I) tau Du) as (r & Br & Q).
  rewrite (given_worth acts t names t0 y0 sol a D M G St) in Q. rewrite A.
  rewrite (worth_same (e_sym en) (fun x => with_time t sol x tau)).
  - rewrite Q. replace (worth y0 a + r * (tau - t0) - worth y0 a) with (r * (tau - t0)) by ring. split; apply Rmult_le_compat_r; lra.
  - intros x I. unfold with_time. destruct (String.eqb_spec x t) as [->|N]; [exact A|]. destruct (M x I) as [?|I']; [contradiction|]. now apply B.
Qed.
Close Scope R_scope.
