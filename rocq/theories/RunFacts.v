(** Proofs about whole dynamic runs (C79). *)
From Verif Require Import Base BaseFacts Num NumFacts UnitModel UnitFacts Sympy Node Build EquationModel ModelModel ProblemModel SolverModel DomainModel
  SpecUnits SpecExpr SpecModel SpecInc SpecCall SpecProblem SpecSolver SpecWritten SpecExact SpecSession SpecSaid SpecInit ModelFacts ProblemFacts SessionFacts
  SolverFacts OdeFacts DaeFacts DomainFacts SaidFacts InitFacts RunModel SpecRun.
From Coq Require Import Reals Lra.
Notation num := Verif.Num.num.

(** Later calls of the right-hand side. *)
Lemma bind_times_diff pn b l t : b_diff (with_varlist b l) = b_diff b -> forall names m,
  bind_times pn (with_varlist b l) t names m = bind_times pn b t names m.
Proof. intros H. induction names as [|x r IH]; intros m; [reflexivity|]. cbn [bind_times]. rewrite H. destruct (has_var pn (Some [x]) (b_diff b)); [cbn [rbind]; apply IH|reflexivity]. Qed.

Definition component (ode : list (string * sx)) (Y : R -> list R) (x : string) (tau : R) : R :=
  match index_of x (map fst ode) with Some j => nth j (Y tau) 0%R | None => 0%R end.

Lemma in_names (ode : list (string * sx)) x : In x (map fst ode) -> exists j r, nth_error ode j = Some (x, r) .
Proof. intros H. apply in_map_iff in H. destruct H as ([y r] & <- & H). apply In_nth_error in H. destruct H as [j H]. exists j, r. exact H. Qed.

Section Flow.
Variables (s : session) (b : block) (t : string) (pn : num -> string) (init : dict num) (tn : tname) (compile : bool) (ds : dsolver)
  (ode : list (string * sx)) (P : written -> Prop).
Hypotheses (Sta : stated b P)
  (Pn : prints_numbers pn) (Wt : one_word t = true) (Ut : str_contains "_" t = true) (Tt : pr_time (snd s) = Some [t])
  (Fe : Forall2 (explicit t) (b_diff b) ode) (Cl : closed_system t ode) (Eb : b_eqs b = b_diff b)
  (Un : ode_unknowns t ode (b_varlist b)) (Ne : ode <> []) (In_ : dsolver_init b init tn compile = Ok ds).

Lemma comp_nth Y j x r tau : nth_error ode j = Some (x, r) -> component ode Y x tau = nth j (Y tau) 0%R.
Proof.
  intros H. unfold component. rewrite (index_of_nth x (map fst ode) j); [reflexivity|exact (proj1 Cl)|].
  now rewrite nth_error_map, H.
Qed.

Lemma moment_state (Y : R -> list R) tau en : List.length (Y tau) = List.length ode ->
  e_sym en t = tau -> (forall x, In x (map fst ode) -> e_sym en x = component ode Y x tau) -> state_of t ode (Y tau) tau en.
Proof.
  intros L T H. split; [exact L|]. split; [|exact T]. intros j x r Hj.
  rewrite (H x), (comp_nth Y j x r tau Hj); [|apply nth_error_In in Hj; now apply (in_map fst) in Hj].
  apply nth_error_nth'. rewrite L. apply nth_error_Some. congruence.
Qed.

Lemma moment_rates (Y : R -> list R) tau en : List.length (Y tau) = List.length ode ->
  e_sym en t = tau -> (forall x, In x (map fst ode) -> e_sym en x = component ode Y x tau) ->
  rates pn (snd s) b ds (Y tau) tau = Ok (map (fun xr => den (snd xr) en) ode).
Proof.
  intros L T H. unfold rates. rewrite (ode_rhs t pn (snd s) b init tn compile ds ode (Y tau) tau en); auto. now apply moment_state.
Qed.

Lemma flow_obeys y0 t0 times rows eps : integrated (rates pn (snd s) b ds) y0 t0 times rows eps -> List.length y0 = List.length ode ->
  exists Y, Y t0 = y0 /\ obeys_all P t (map fst ode) t0 times (component ode Y) /\
    (forall tk, In tk times -> List.length (Y tk) = List.length ode) /\
    Forall2 (fun tk row => Forall2 (fun y v => Rabs (v - y) <= eps)%R (Y tk) row) times rows.
Proof.
  intros (Y & Y0 & F & Rw) Ly. exists Y. split; [exact Y0|].
  split; [|split; [intros tk Hk; rewrite <- Ly; apply (proj1 (F tk ltac:(exists tk; split; [exact Hk|lra])))|exact Rw]]. intros tau D.
  destruct (F tau D) as (L & vs & Ef & Dv). rewrite Ly in L, Dv.
  assert (Key : forall en, e_sym en t = tau -> (forall x, In x (map fst ode) -> e_sym en x = component ode Y x tau) ->
    forall j x r, nth_error ode j = Some (x, r) -> exists v, den r en = Some v /\ derivable_pt_lim (component ode Y x) tau v).
  { intros en T H j x r Hj. rewrite (moment_rates Y tau en L T H) in Ef. injection Ef as <-.
    destruct (Dv j) as (v & Hv & Hd). { apply nth_error_Some. congruence. }
    rewrite (map_nth_error (fun xr => den (snd xr) en) j ode Hj) in Hv. injection Hv as Hv. exists v. split; [exact Hv|].
    intros eps' He. destruct (Hd eps' He) as (d & Hdd). exists d. intros h Hh Hl. rewrite !(comp_nth Y j x r _ Hj). exact (Hdd h Hh Hl). }
  split.
  - set (en0 := mkEnv (fun x => if String.eqb x t then tau else component ode Y x tau) (fun _ _ => 0%R)).
    assert (T0 : e_sym en0 t = tau) by (cbn; now rewrite String.eqb_refl).
    assert (H0 : forall x, In x (map fst ode) -> e_sym en0 x = component ode Y x tau).
    { intros x Hx. cbn. destruct (String.eqb_spec x t) as [->|]; [|reflexivity]. exfalso. exact (proj1 (proj2 Cl) Hx). }
    exists (mkEnv (e_sym en0) (fun x _ => match index_of x (map fst ode) with
      | Some j => match nth_error ode j with Some (_, r) => match den r en0 with Some v => v | None => 0%R end | None => 0%R end | None => 0%R end)).
    split; [exact T0|]. intros x Hx. split; [exact (H0 x Hx)|]. cbn [e_der]. destruct (in_names _ _ Hx) as (j & r & Hj).
    rewrite (index_of_nth x (map fst ode) j); [|exact (proj1 Cl)|now rewrite nth_error_map, Hj]. rewrite Hj.
    destruct (Key en0 T0 H0 j x r Hj) as (v & -> & Hd). exact Hd.
  - intros en (T & H) w Hw. destruct Sta as [B1 _]. destruct (B1 w Hw) as (e & He & (n & En & Dn) & _).
    rewrite Eb in He. assert (X : exists j xr, nth_error ode j = Some xr /\ explicit t e xr).
    { clear -Fe He. induction Fe as [|e' y es ys H F IH]; [destruct He|]. destruct He as [->|He].
      - exists 0%nat, y. split; [reflexivity|exact H].
      - destruct (IH F He) as (j & xr & A & B). exists (S j), xr. split; [exact A|exact B]. }
    destruct X as (j & [x r] & Hj & (a & c & n' & _ & _ & _ & _ & _ & En' & Sn)). rewrite En in En'. injection En' as <-. cbn [fst snd] in Sn.
    rewrite <- Dn, Sn. assert (Hx : In x (map fst ode)) by (apply nth_error_In in Hj; now apply (in_map fst) in Hj).
    destruct (Key en T (fun y Hy => proj1 (H y Hy)) j x r Hj) as (v & Ev & Hd). cbn [den]. rewrite Ev. cbn.
    rewrite (uniqueness_limite _ _ _ _ (proj2 (H x Hx)) Hd). f_equal. lra.
Qed.

Lemma rated_names x : In x (map fst ode) <-> rated_in P t x.
Proof.
  set (en := mkEnv (fun _ => 0%R) (fun _ _ => 0%R)).
  assert (St : state_of t ode (map (fun _ => 0%R) ode) 0%R en).
  { split; [apply map_length|]. split; [|reflexivity]. intros j y r H. now rewrite (map_nth_error (fun _ => 0%R) j ode H). }
  destruct (rates_stated P s b t pn init tn compile ds ode _ _ en Sta Pn Wt Ut Tt Fe Cl Eb Un Ne In_ St) as (vs & _ & A & B).
  split.
  - intros H. destruct (in_names _ _ H) as (j & r & Hj). destruct (A j x r Hj) as (w & g & Hw & Hr & _). exists w, g. auto.
  - intros (w & g & Hw & Hr). destruct (B w x g Hw Hr) as (j & r & Hj & _). apply nth_error_In in Hj. now apply (in_map fst) in Hj.
Qed.
End Flow.

Lemma in_app_filter (l m : list string) : filter (fun k => negb (mem_str k (l ++ filter (fun k => negb (mem_str k l)) m))) m = [].
Proof.
  assert (H : forall x, In x m -> mem_str x (l ++ filter (fun k => negb (mem_str k l)) m) = true).
  { intros x Hx. apply mem_str_spec. apply in_or_app. destruct (mem_str x l) eqn:E; [left; now apply mem_str_spec|right].
    apply filter_In. split; [exact Hx|now rewrite E]. }
  generalize dependent (l ++ filter (fun k => negb (mem_str k l)) m). intros L H.
  induction m as [|x m IH]; [reflexivity|]. cbn. rewrite (H x (or_introl eq_refl)). cbn. apply IH. intros y Hy. apply H. now right.
Qed.

(** The keys of the mapping do not depend on the state, if it has the right length. *)
Lemma dset_keys_same {A B} x (u : A) (v : B) : forall m m', dkeys m = dkeys m' -> dkeys (dset x u m) = dkeys (dset x v m').
Proof.
  induction m as [|[y a] m IH]; intros [|[z c] m'] H; try discriminate; [reflexivity|]. cbn in H. injection H as -> H. cbn.
  destruct (String.eqb x z); cbn; [now rewrite H|]. f_equal. now apply IH.
Qed.
Lemma dupdate_keys_same {A B} : forall (l : list (string * A)) (l' : list (string * B)) m m', map fst l = map fst l' -> dkeys m = dkeys m' ->
  dkeys (dupdate m l) = dkeys (dupdate m' l').
Proof.
  unfold dupdate. induction l as [|[x a] l IH]; intros [|[y c] l'] m m' H K; try discriminate; [exact K|]. cbn in H. injection H as -> H. cbn [fold_left fst snd].
  apply IH; [exact H|now apply dset_keys_same].
Qed.
Lemma combine_fst {A B} (l : list A) (a c : list B) : List.length a = List.length c -> map fst (List.combine l a) = map fst (List.combine l c).
Proof. revert l c. induction a as [|x a IH]; intros [|y l] [|z c] H; try discriminate; try reflexivity. cbn. f_equal. apply IH. now injection H. Qed.
Lemma bind_times_keys pn b t t' : forall names m m', dkeys m = dkeys m' ->
  match bind_times pn b t names m, bind_times pn b t' names m' with
  | Ok a, Ok c => dkeys a = dkeys c
  | Raise x, Raise y => x = y
  | _, _ => False
  end.
Proof.
  induction names as [|x r IH]; intros m m' H; [exact H|]. cbn [bind_times]. destruct (has_var pn (Some [x]) (b_diff b)) as [f|]; cbn [rbind]; [|reflexivity].
  apply IH. destruct f; [now apply dset_keys_same|exact H].
Qed.

Lemma rates_again pn p b s Y t b' r Y' t' : List.length Y = List.length Y' -> ode_interface pn p b s Y t = (b', r) ->
  rates pn p b' s Y' t' = rates pn p b s Y' t'.
Proof.
  intros L H. unfold rates. unfold ode_interface in *. destruct (pr_time p) as [names|]; [|now injection H as <- _].
  assert (K := bind_times_keys pn b t t' names (dof (List.combine (dkeys (ds_y s)) Y)) (dof (List.combine (dkeys (ds_y s)) Y'))).
  assert (K0 : dkeys (dof (List.combine (dkeys (ds_y s)) Y)) = dkeys (dof (List.combine (dkeys (ds_y s)) Y'))).
  { unfold dof. apply dupdate_keys_same; [now apply combine_fst|reflexivity]. }
  specialize (K K0). destruct (bind_times pn b t names _) as [m|] eqn:E1; [|now injection H as <- _].
  destruct (bind_times pn b t' names _) as [m'|] eqn:E2; [|destruct K]. destruct (ds_fun s) as [[params es]|]; [|injection H as <- _; now rewrite E2].
  injection H as <- _. rewrite bind_times_diff by reflexivity. rewrite E2. cbn [snd with_varlist b_varlist]. rewrite K, in_app_filter, app_nil_r. reflexivity.
Qed.

(** ** The run *)
Lemma resolve_keeps acts s b : resolved acts s b ->
  pr_init (snd s) = pr_init (snd (run_acts start_session acts)) /\ pr_time (snd s) = pr_time (snd (run_acts start_session acts)).
Proof.
  intros (H & _). assert (E : s = fst (do_act (run_acts start_session acts) AResolve)) by now rewrite H. rewrite E. split.
  - apply act_keeps. discriminate.
  - apply act_keeps_time. discriminate.
Qed.

Lemma forall2_length {A B} (P : A -> B -> Prop) l m : Forall2 P l m -> List.length l = List.length m.
Proof. induction 1; cbn; congruence. Qed.
Lemma forall2_nth {A B} (P : A -> B -> Prop) l m : Forall2 P l m -> forall j x, nth_error l j = Some x -> exists y, nth_error m j = Some y /\ P x y.
Proof. induction 1 as [|a c l m H F IH]; intros [|j] x E; try discriminate; cbn in *; [injection E as <-; eauto|exact (IH j x E)]. Qed.

Lemma reals_in_order names init : forall k, in_order names init k -> forall y0, map_res real_of k = Ok y0 ->
  List.length y0 = List.length names /\
  forall j x, nth_error names j = Some x -> exists n v, dget x init = Some n /\ num_value n = Some v /\ nth_error y0 j = Some v.
Proof.
  intros k (L & H) y0 E. apply map_res_in in E. assert (Le := forall2_length _ _ _ E). split; [congruence|].
  intros j x Hj. specialize (H j x Hj). destruct (nth_error k j) as [n|] eqn:En.
  - destruct (forall2_nth _ _ _ E j n En) as (v & Hv & Er). exists n, v. split; [now symmetry|]. split; [|exact Hv].
    unfold real_of in Er. destruct (num_value n); [now injection Er as ->|discriminate].
  - apply nth_error_None in En. assert (j < List.length names)%nat by (apply nth_error_Some; congruence). lia.
Qed.

Lemma recorded_rows (Y : R -> list R) j rows times col eps n :
  Forall2 (fun tk row => Forall2 (fun y v => Rabs (v - y) <= eps)%R (Y tk) row) times rows ->
  (forall tk, In tk times -> List.length (Y tk) = n) -> (j < n)%nat ->
  trajectory j rows col -> Forall2 (fun tk v => Rabs (v - nth j (Y tk) 0) <= eps)%R times col.
Proof.
  intros F L J. revert col. induction F as [|tk row times rows H F IH]; intros col T; inversion T as [|? v ? col' Hv T']; subst; constructor.
  - destruct (forall2_nth _ _ _ H j (nth j (Y tk) 0%R)) as (v' & Hv' & Hc).
    { apply nth_error_nth'. rewrite (L tk (or_introl eq_refl)). exact J. }
    rewrite Hv in Hv'. injection Hv' as <-. exact Hc.
  - apply IH; [|exact T']. intros t' Ht. apply L. now right.
Qed.

Section Run.
Variables (acts : list act) (s : session) (b : block) (t : string) (pn : num -> string) (ps : sx -> string) (tn : tname) (compile : bool) (ds : dsolver)
  (ode : list (string * sx)) (P : written -> Prop).
Hypotheses (Re : resolved acts s b) (Sta : stated b P) (Dc : dictionaries acts)
  (Pn : prints_numbers pn) (Wt : one_word t = true) (Ut : str_contains "_" t = true) (Tt : times_by acts [t])
  (Fe : Forall2 (explicit t) (b_diff b) ode) (Cl : closed_system t ode) (Eb : b_eqs b = b_diff b)
  (Un : ode_unknowns t ode (b_varlist b)) (Ne : ode <> []) (In_ : dsolver_init b (pr_init (snd s)) tn compile = Ok ds).

Lemma run_solution odeint cvode o d d' ts rows t0 eps :
  (forall y0 times, time_points o = Ok times -> integrate odeint cvode o (rates pn (snd s) b ds) y0 times = Ok (ts, rows) ->
     integrated (rates pn (snd s) b ds) y0 t0 ts rows eps) ->
  cleared d -> d_ind d = [t] -> d_dep d = map fst ode -> NoDup (map (header (oo_names o)) (d_ind d ++ d_dep d)) ->
  ode_solve odeint cvode pn ps (snd s) b ds o d = (d', Ok (ts, rows)) ->
  exists sol, starts_right acts (map fst ode) t0 sol /\ obeys_all P t (map fst ode) t0 ts sol /\
    recorded_as d' t (oo_names o) (map fst ode) ts sol eps.
Proof.
  intros Hi Cd Id Dd Nd S. unfold ode_solve in S. destruct (resolve_keeps _ _ _ Re) as (Ki & Kt).
  assert (Tt' : pr_time (snd s) = Some [t]) by (rewrite Kt; now apply time_exact).
  destruct (initial_state ps ds (pr_init (snd s))) as [k|] eqn:Ek; [|discriminate]. cbn [rbind] in S.
  destruct (time_points o) as [times|] eqn:Et; [|discriminate]. cbn [rbind] in S.
  destruct (map_res real_of k) as [y0|] eqn:Ey; [|discriminate]. cbn [rbind] in S.
  destruct (integrate odeint cvode o (rates pn (snd s) b ds) y0 times) as [[ts' rows']|] eqn:Ei; [|discriminate]. cbn [rbind] in S.
  destruct (record_run d ts' (mkM (List.length y0) rows') (oo_names o)) as [d1 [u|]] eqn:Er; [|discriminate]. injection S as <- <- <-.
  destruct u. specialize (Hi y0 times eq_refl Ei).
  assert (Io := proj1 (ode_initial t ps b (pr_init (snd s)) tn compile ds ode Fe In_) k Ek).
  destruct (reals_in_order _ _ _ Io _ Ey) as (Ly & Hy). rewrite map_length in Ly.
  destruct (flow_obeys s b t pn (pr_init (snd s)) tn compile ds ode P Sta Pn Wt Ut Tt' Fe Cl Eb Un Ne In_ y0 t0 ts' rows' eps Hi Ly)
    as (Y & Y0 & Ob & Ln & Rw).
  exists (component ode Y). split; [|split; [exact Ob|]].
  - intros x Hx. destruct (in_names _ _ Hx) as (j & r & Hj). destruct (Hy j x) as (n & v & Hn & Hv & Ev). { now rewrite nth_error_map, Hj. }
    exists n, v. split; [apply (init_exact acts Dc); now rewrite <- Ki|]. split; [exact Hv|].
    rewrite (comp_nth t ode Cl Y j x r t0 Hj), Y0. now apply nth_error_nth.
  - assert (Mo : mx_ok (mkM (List.length y0) rows')). { intros row Hr. cbn [mx_rows mx_width] in *. rewrite Ly.
      destruct (In_nth_error _ _ Hr) as (i & Hi'). clear -Rw Ln Hr. induction Rw as [|tk row' ts rs H F IH]; [destruct Hr|]. destruct Hr as [->|Hr].
      - rewrite <- (forall2_length _ _ _ H). apply Ln. now left.
      - apply IH; [|exact Hr]. intros tk' Hk. apply Ln. now right. }
    destruct (record_columns d d1 t ts' _ (oo_names o) ode Cd Id Mo Er Nd Dd) as (Ct & Cx). split; [exact Ct|].
    intros x Hx. destruct (in_names _ _ Hx) as (j & r & Hj). destruct (Cx j x r Hj) as (col & Hc & Tr). exists col. split; [exact Hc|].
    assert (J : (j < List.length ode)%nat) by (apply nth_error_Some; congruence).
    assert (Q := recorded_rows Y j rows' ts' col eps _ Rw Ln J Tr). clear -Q Hj Cl.
    induction Q; constructor; [|assumption]. rewrite (comp_nth t ode Cl Y j x r _ Hj). assumption.
Qed.
End Run.

Lemma odeint_run_stated P acts s b t pn ps tn compile ds ode odeint cvode eps o d d' ts rows :
  resolved acts s b -> stated b P -> dictionaries acts ->
  prints_numbers pn -> one_word t = true -> str_contains "_" t = true -> times_by acts [t] ->
  Forall2 (explicit t) (b_diff b) ode -> closed_system t ode -> b_eqs b = b_diff b -> ode_unknowns t ode (b_varlist b) -> ode <> [] ->
  dsolver_init b (pr_init (snd s)) tn compile = Ok ds ->
  cleared d -> d_ind d = [t] -> d_dep d = map fst ode -> NoDup (map (header (oo_names o)) (d_ind d ++ d_dep d)) ->
  oo_solver o = None \/ oo_solver o = Some "ODEINT" -> odeint_solves odeint (rates pn (snd s) b ds) eps ->
  ode_solve odeint cvode pn ps (snd s) b ds o d = (d', Ok (ts, rows)) ->
  time_points o = Ok ts /\ (forall x, In x (map fst ode) <-> rated_in P t x) /\
  exists sol, starts_right acts (map fst ode) (hd 0%R ts) sol /\ obeys_all P t (map fst ode) (hd 0%R ts) ts sol /\
    recorded_as d' t (oo_names o) (map fst ode) ts sol eps.
Proof.
  intros Re Sta Dc Pn Wt Ut Tt Fe Cl Eb Un Ne In_ Cd Id Dd Nd So Ho S.
  assert (Hi : forall f y0 times out, integrate odeint cvode o f y0 times = Ok out -> fst out = times /\ odeint f y0 times = Ok (snd out)).
  { intros f y0 times out E. unfold integrate in E. assert (E' : rbind (odeint f y0 times) (fun rows => Ok (times, rows)) = Ok out).
    { destruct So as [So|So]; rewrite So in E; exact E. }
    destruct (odeint f y0 times) as [rs|]; [|discriminate]. cbn in E'. injection E' as <-. auto. }
  assert (Et : time_points o = Ok ts).
  { unfold ode_solve in S. destruct (initial_state ps ds (pr_init (snd s))) as [k|]; [|discriminate]. cbn [rbind] in S.
    destruct (time_points o) as [times|]; [|discriminate]. cbn [rbind] in S. destruct (map_res real_of k) as [y0|]; [|discriminate]. cbn [rbind] in S.
    destruct (integrate odeint cvode o (rates pn (snd s) b ds) y0 times) as [[ts' rs']|] eqn:Ei; [|discriminate]. cbn [rbind] in S.
    destruct (record_run _ _ _ _) as [d1 [u|]]; [|discriminate]. injection S as _ <- _. destruct (Hi _ _ _ _ Ei) as [<- _]. reflexivity. }
  split; [exact Et|]. split.
  - intros x. destruct (resolve_keeps _ _ _ Re) as (_ & Kt).
    assert (Tt' : pr_time (snd s) = Some [t]) by (rewrite Kt; now apply time_exact).
    exact (rated_names s b t pn _ tn compile ds ode P Sta Pn Wt Ut Tt' Fe Cl Eb Un Ne In_ x).
  - refine (run_solution acts s b t pn ps tn compile ds ode P Re Sta Dc Pn Wt Ut Tt Fe Cl Eb Un Ne In_ odeint cvode o d d' ts rows _ eps _ Cd Id Dd Nd S).
    intros y0 times Et' E. destruct (Hi _ _ _ _ E) as [Q Eo]. cbn in Q, Eo. subst times. exact (Ho y0 ts rows Eo).
Qed.
Lemma odeint_run acts s b t pn ps tn compile ds ode odeint cvode eps o d d' ts rows :
  resolved acts s b -> all_ok start_session acts -> distinct_models acts -> readable_program acts ->
  forallb tidy_act acts = true -> plain_origins acts -> known_statements acts -> dictionaries acts ->
  prints_numbers pn -> one_word t = true -> str_contains "_" t = true -> times_by acts [t] ->
  Forall2 (explicit t) (b_diff b) ode -> closed_system t ode -> b_eqs b = b_diff b -> ode_unknowns t ode (b_varlist b) -> ode <> [] ->
  dsolver_init b (pr_init (snd s)) tn compile = Ok ds ->
  cleared d -> d_ind d = [t] -> d_dep d = map fst ode -> NoDup (map (header (oo_names o)) (d_ind d ++ d_dep d)) ->
  oo_solver o = None \/ oo_solver o = Some "ODEINT" -> odeint_solves odeint (rates pn (snd s) b ds) eps ->
  ode_solve odeint cvode pn ps (snd s) b ds o d = (d', Ok (ts, rows)) ->
  time_points o = Ok ts /\ (forall x, In x (map fst ode) <-> rated acts t x) /\
  exists sol, starts_right acts (map fst ode) (hd 0%R ts) sol /\ obeys acts t (map fst ode) (hd 0%R ts) ts sol /\
    recorded_as d' t (oo_names o) (map fst ode) ts sol eps.
Proof. intros Re O D Rd Ti Pl Kn. exact (odeint_run_stated (program_says acts) acts s b t pn ps tn compile ds ode odeint cvode eps o d d' ts rows Re (block_says _ _ _ Re O D Rd Ti Pl Kn)). Qed.

Lemma cvode_run_stated P acts s b t pn ps tn compile ds ode odeint cvode eps o d d' ts rows :
  resolved acts s b -> stated b P -> dictionaries acts ->
  prints_numbers pn -> one_word t = true -> str_contains "_" t = true -> times_by acts [t] ->
  Forall2 (explicit t) (b_diff b) ode -> closed_system t ode -> b_eqs b = b_diff b -> ode_unknowns t ode (b_varlist b) -> ode <> [] ->
  dsolver_init b (pr_init (snd s)) tn compile = Ok ds ->
  cleared d -> d_ind d = [t] -> d_dep d = map fst ode -> NoDup (map (header (oo_names o)) (d_ind d ++ d_dep d)) ->
  oo_solver o = Some "CVODE" -> cvode_solves cvode (rates pn (snd s) b ds) eps ->
  ode_solve odeint cvode pn ps (snd s) b ds o d = (d', Ok (ts, rows)) ->
  exists sol, starts_right acts (map fst ode) 0%R sol /\ obeys_all P t (map fst ode) 0%R ts sol /\
    recorded_as d' t (oo_names o) (map fst ode) ts sol eps.
Proof.
  intros Re Sta Dc Pn Wt Ut Tt Fe Cl Eb Un Ne In_ Cd Id Dd Nd So Ho S.
  refine (run_solution acts s b t pn ps tn compile ds ode P Re Sta Dc Pn Wt Ut Tt Fe Cl Eb Un Ne In_ odeint cvode o d d' ts rows _ eps _ Cd Id Dd Nd S).
  intros y0 times Et E. unfold integrate in E. rewrite So in E. change (match oo_end o with None => Raise EType | Some e => cvode (rates pn (snd s) b ds) y0 0%R e times end = Ok (ts, rows)) in E.
  destruct (oo_end o) as [e|]; [|discriminate]. exact (Ho _ _ _ _ _ _ E).
Qed.
Lemma cvode_run acts s b t pn ps tn compile ds ode odeint cvode eps o d d' ts rows :
  resolved acts s b -> all_ok start_session acts -> distinct_models acts -> readable_program acts ->
  forallb tidy_act acts = true -> plain_origins acts -> known_statements acts -> dictionaries acts ->
  prints_numbers pn -> one_word t = true -> str_contains "_" t = true -> times_by acts [t] ->
  Forall2 (explicit t) (b_diff b) ode -> closed_system t ode -> b_eqs b = b_diff b -> ode_unknowns t ode (b_varlist b) -> ode <> [] ->
  dsolver_init b (pr_init (snd s)) tn compile = Ok ds ->
  cleared d -> d_ind d = [t] -> d_dep d = map fst ode -> NoDup (map (header (oo_names o)) (d_ind d ++ d_dep d)) ->
  oo_solver o = Some "CVODE" -> cvode_solves cvode (rates pn (snd s) b ds) eps ->
  ode_solve odeint cvode pn ps (snd s) b ds o d = (d', Ok (ts, rows)) ->
  exists sol, starts_right acts (map fst ode) 0%R sol /\ obeys acts t (map fst ode) 0%R ts sol /\
    recorded_as d' t (oo_names o) (map fst ode) ts sol eps.
Proof. intros Re O D Rd Ti Pl Kn. exact (cvode_run_stated (program_says acts) acts s b t pn ps tn compile ds ode odeint cvode eps o d d' ts rows Re (block_says _ _ _ Re O D Rd Ti Pl Kn)). Qed.

Lemma points_even o l n e : oo_times o = None -> oo_steps o = Some n -> oo_end o = Some e -> (0 < n)%Z -> time_points o = Ok l ->
  Z.of_nat (List.length l) = (n + 1)%Z /\ nth_error l 0 = Some (oo_initial o) /\ nth_error l (Z.to_nat n) = Some e /\
  forall i a c, nth_error l i = Some a -> nth_error l (S i) = Some c -> (c - a = (e - oo_initial o) / IZR n)%R.
Proof.
  intros Et Es Ee P H. unfold time_points in H. rewrite Es, Et, Ee in H. unfold linspace in H.
  destruct (Z.ltb_spec (n + 1) 0) as [|_]; [lia|]. injection H as <-. destruct (Z.eqb_spec (n + 1) 1) as [|_]; [lia|].
  replace (n + 1 - 1)%Z with n by lia. assert (Nz : IZR n <> 0%R) by (apply not_0_IZR; lia).
  assert (Nt : forall i, (i < Z.to_nat (n + 1))%nat ->
    nth_error (map (fun k => (oo_initial o + INR k * ((e - oo_initial o) / IZR n))%R) (seq 0 (Z.to_nat (n + 1)))) i =
    Some (oo_initial o + INR i * ((e - oo_initial o) / IZR n))%R).
  { intros i Hi. rewrite (map_nth_error _ i (seq 0 (Z.to_nat (n + 1))) (d := i)); [reflexivity|].
    rewrite (nth_error_nth' _ 0%nat) by (now rewrite seq_length). now rewrite seq_nth. }
  split; [rewrite map_length, seq_length; lia|]. split; [|split].
  - rewrite Nt by lia. f_equal. cbn. lra.
  - rewrite Nt by lia. f_equal. rewrite INR_IZR_INZ, Z2Nat.id by lia. field. exact Nz.
  - intros i a c Ha Hc. assert (Hl : (S i < Z.to_nat (n + 1))%nat).
    { assert (Q : nth_error (map (fun k => (oo_initial o + INR k * ((e - oo_initial o) / IZR n))%R) (seq 0 (Z.to_nat (n + 1)))) (S i) <> None) by congruence;
      apply nth_error_Some in Q; now rewrite map_length, seq_length in Q. }
    rewrite Nt in Ha by lia. rewrite Nt in Hc by lia. assert (Ea : a = (oo_initial o + INR i * ((e - oo_initial o) / IZR n))%R) by congruence.
    assert (Ec : c = (oo_initial o + INR (S i) * ((e - oo_initial o) / IZR n))%R) by congruence. rewrite Ea, Ec, S_INR. ring.
Qed.

Lemma points_given o l ts : oo_times o = Some l -> time_points o = Ok ts -> ts = l.
Proof. intros Et H. unfold time_points in H. rewrite Et in H. destruct (oo_steps o); [congruence|discriminate]. Qed.
Lemma dae_points_even o l n e : oo_steps o = Some n -> oo_end o = Some e -> (0 < n)%Z -> dae_points o = Ok l ->
  Z.of_nat (List.length l) = (n + 1)%Z /\ nth_error l 0 = Some (oo_initial o) /\ nth_error l (Z.to_nat n) = Some e /\
  forall i a c, nth_error l i = Some a -> nth_error l (S i) = Some c -> (c - a = (e - oo_initial o) / IZR n)%R.
Proof.
  intros Es Ee P H. assert (T := points_even (mkOO (oo_solver o) (oo_initial o) (oo_end o) (oo_steps o) None (oo_names o)) l n e eq_refl Es Ee P).
  apply T. unfold time_points, dae_points in *. cbn [oo_steps oo_times oo_end oo_initial]. exact H.
Qed.
