(** The objective of a study is a function of the candidate (C73). *)
From Verif Require Import Base BaseFacts Num NumFacts UnitModel UnitFacts Sympy Node Build EquationModel ModelModel ProblemModel
  SpecUnits SpecExpr SpecModel SpecInc SpecCall SpecProblem SpecWritten SpecRepeat QtyFacts ModelFacts IncFacts CallFacts ProblemFacts SessionFacts
  WrittenFacts RepeatFacts SpecEval EvalFacts SolverModel SimModel EvalModel.
From Verif Require DomainModel SolverFacts.
Notation num := Verif.Num.num.


Lemma set_targets_single D ts : forall T s0 w p x w' r, sr T D s0 (w, p) -> incl (locs (fst s0) ts) T -> set_targets w ts x = (w', r) -> sr T D s0 (w', p).
Proof.
  induction ts as [|t ts IH]; intros T s0 w p [|k x] w' r S I H; cbn [set_targets] in H; try (injection H as <- _; exact S).
  - destruct t. injection H as <- _. exact S.
  - destruct t as [i a]. pose proof (set_single T D s0 (w, p) (i, a) k S) as X. rewrite set_act in X. cbn [fst snd] in X.
    destruct (on_model w i _) as [w1 r1]. cbn [fst] in X.
    assert (S1 : sr T D s0 (w1, p)).
    { apply X. intros l Hl. apply I. unfold locs in *. cbn [flat_map] in *. apply in_or_app. left. now rewrite app_nil_r in Hl. }
    destruct r1 as [[]|e]; [|injection H as <- _; exact S1]. refine (IH T s0 w1 p x w' r S1 _ H).
    intros l Hl. apply I. unfold locs in *. cbn [flat_map]. apply in_or_app. now right.
Qed.

Lemma set_targets_models ts : forall w x w' r, set_targets w ts x = (w', r) -> forall j, get_model w' j = get_model w j.
Proof.
  induction ts as [|[i a] ts IH]; intros w [|k x] w' r H j; cbn [set_targets] in H; try (injection H as <- _; reflexivity).
  destruct (set_step w (i, a) k) as (w1 & E & G & _). cbn [fst snd] in E. rewrite E in H. destruct (set_out w (i, a)) as [[]|e].
  - rewrite (IH _ _ _ _ H j). exact (G j).
  - injection H as <- _. exact (G j).
Qed.

Lemma set_targets_pair D ts : forall T w p w' p' x w1 r, sr (locs w ts ++ T) D (w, p) (w', p') -> List.length x = List.length ts ->
  set_targets w ts x = (w1, r) -> exists w1', set_targets w' ts x = (w1', r) /\ (r = Ok tt -> sr T D (w1, p) (w1', p')).
Proof.
  induction ts as [|t ts IH]; intros T w p w' p' [|k x] w1 r S L H; try discriminate.
  - cbn [set_targets] in *. injection H as <- <-. exists w'. split; [reflexivity|]. intros _. exact S.
  - injection L as L. destruct t as [i a]. cbn [set_targets] in *. destruct S as [Hr M P]. cbn [fst snd] in *.
    destruct (set_step w (i, a) k) as (w2 & E2 & G2 & H2). destruct (set_step w' (i, a) k) as (w2' & E2' & G2' & H2'). cbn [fst snd] in E2, E2'.
    rewrite E2 in H. rewrite E2'. rewrite (mr_set_out _ _ _ _ (i, a) M Hr).
    destruct (set_out w (i, a)) as [[]|e].
    2: { injection H as <- <-. exists w2'. split; [reflexivity|discriminate]. }
    apply (IH T w2 p w2' p' x w1 r); [|exact L|exact H]. constructor; cbn [fst snd]; auto.
    + rewrite H2, H2', (mr_target _ _ _ _ M).
      assert (Lw : locs w2 ts = locs w ts).
      { unfold locs. clear - G2. induction ts as [|t' ts IHt]; [reflexivity|]. cbn [flat_map]. rewrite IHt. unfold target. now rewrite G2. }
      rewrite Lw. unfold locs in Hr at 1. cbn [flat_map] in Hr. fold (locs w ts) in Hr.
      destruct (target w (i, a)) as [l|]; [|exact Hr]. apply hr_pair. exact Hr.
    + exact (mr_models2 _ _ _ _ _ M G2 G2').
Qed.

(** ** Simulations *)
Lemma nth_same {X} (st st' : list X) r : List.length st' = List.length st ->
  match nth_error st r, nth_error st' r with Some _, Some _ => True | None, None => True | _, _ => False end.
Proof.
  intros L. destruct (nth_error st r) eqn:E, (nth_error st' r) eqn:E'; try exact I.
  - apply nth_error_None in E'. assert (r < List.length st)%nat by (apply nth_error_Some; congruence). lia.
  - apply nth_error_None in E. assert (r < List.length st')%nat by (apply nth_error_Some; congruence). lia.
Qed.

Lemma add_time_same st st' a t : List.length st' = List.length st ->
  snd (add_time_name st' a t) = snd (add_time_name st a t) /\
  List.length (fst (add_time_name st a t)) = List.length st /\ List.length (fst (add_time_name st' a t)) = List.length st.
Proof.
  intros L. destruct a; cbn [add_time_name]; try (repeat split; auto; fail).
  pose proof (nth_same st st' r L) as X. destruct (nth_error st r), (nth_error st' r); try contradiction; [|repeat split; auto].
  cbn [fst snd]. split; [reflexivity|]. unfold store_set. split; [destruct (existsb _ _)|destruct (existsb _ _)]; rewrite ?set_nth_length; auto.
Qed.

Lemma name_map_is c hs : dget "variable_name_map" c = Some (VDict (map (fun kv => (fst kv, VStr (snd kv))) hs)) -> name_map c = hs.
Proof. unfold name_map. intros ->. induction hs as [|[k v] hs IH]; [reflexivity|]. cbn. now rewrite IH. Qed.
Lemma make_solver_same st st' p b c : List.length st' = List.length st ->
  snd (make_solver st' p b c) = snd (make_solver st p b c) /\
  List.length (fst (make_solver st p b c)) = List.length st /\ List.length (fst (make_solver st' p b c)) = List.length st.
Proof.
  intros L. unfold make_solver. destruct (rbind (opt c "linear_solver") _) as [sv|x]; [|repeat split; auto].
  assert (Z : forall (e : res (cval * cval)) (sv : solver), let f := fun st : store => match e return store * res solver with
      | Raise x => (st, Raise x)
      | Ok (t, a) => match add_time_name st a t with
                     | (st', Raise x) => (st', Raise x)
                     | (st', Ok _) => (st', Ok sv)
                     end
      end in snd (f st') = snd (f st) /\ List.length (fst (f st)) = List.length st /\ List.length (fst (f st')) = List.length st).
  { intros e s0 f. unfold f. clear f. destruct e as [[t a]|x]; [|repeat split; auto].
    destruct (add_time_same st st' a t L) as (A & B & C). destruct (add_time_name st a t) as [s1 r1], (add_time_name st' a t) as [s1' r1'].
    cbn [fst snd] in A, B, C. subst r1'. destruct r1; cbn [fst snd]; auto. }
  destruct sv; try (repeat split; auto; fail); exact (Z _ _).
Qed.

Lemma prepare_same st st' s s' sanity dof : List.length st' = List.length st -> sm_conf s' = sm_conf s -> sm_problem s' = sm_problem s ->
  snd (prepare st' s' sanity dof) = snd (prepare st s sanity dof) /\
  List.length (fst (prepare st s sanity dof)) = List.length st /\ List.length (fst (prepare st' s' sanity dof)) = List.length st.
Proof.
  intros L C P. unfold prepare. rewrite C, P. destruct (sm_conf s) as [c|]; [|repeat split; auto].
  destruct (rbind (opt c "problem_type") _) as [[p b]|x]; [|repeat split; auto].
  destruct (make_solver_same st st' p b c L) as (A & B & D). destruct (make_solver st p b c) as [s1 r1], (make_solver st' p b c) as [s1' r1'].
  cbn [fst snd] in A, B, D. subst r1'. destruct r1; cbn [fst snd]; auto.
Qed.

Lemma prepare_conf st s sanity dof st' c sv : prepare st s sanity dof = (st', Ok (c, sv)) -> sm_conf s = Some c.
Proof.
  unfold prepare. destruct (sm_conf s) as [c0|]; [|discriminate]. destruct (rbind (opt c0 "problem_type") _) as [[p b]|x]; [|discriminate].
  destruct (make_solver st p b c0) as [s1 [r1|]]; [|discriminate]. destruct sanity; [destruct dof; [|discriminate]|]; intros H; injection H as _ <- _; reflexivity.
Qed.


Lemma run_sim_same tables st st' s s' sanity show dof out : List.length st' = List.length st -> sm_conf s' = sm_conf s -> sm_problem s' = sm_problem s ->
  snd (run_sim tables st' s' sanity show dof out) = snd (run_sim tables st s sanity show dof out) /\
  List.length (fst (fst (run_sim tables st s sanity show dof out))) = List.length st /\
  List.length (fst (fst (run_sim tables st' s' sanity show dof out))) = List.length st /\
  (snd (run_sim tables st s sanity show dof out) = Ok tt ->
   core (snd (fst (run_sim tables st' s' sanity show dof out))) = core (snd (fst (run_sim tables st s sanity show dof out))) /\
   exists c d, sm_conf s = Some c /\ opt c "domain" = Ok d /\ sm_domain (snd (fst (run_sim tables st s sanity show dof out))) = d).
Proof.
  intros L C P. unfold run_sim. destruct (prepare_same st st' s s' sanity dof L C P) as (A & B & D).
  pose proof (prepare_conf st s sanity dof) as Pc.
  destruct (prepare st s sanity dof) as [s1 r1], (prepare st' s' sanity dof) as [s1' r1'].
  cbn [fst snd] in A, B, D. subst r1'. destruct r1 as [[c sv]|x]; cbn [fst snd]; [|repeat split; auto; discriminate].
  destruct out as [o|x]; cbn [fst snd]; [|repeat split; auto; discriminate].
  pose proof (Pc s1 c sv eq_refl) as Ec. rewrite C, P. destruct (opt c "domain") as [d|x] eqn:Ed; cbn [fst snd]; [|repeat split; auto; discriminate].
  destruct show.
  - assert (G : get_status tables {| sm_problem := sm_problem s; sm_conf := sm_conf s; sm_output := Some o; sm_domain := d; sm_status := sm_status s' |} =
                get_status tables {| sm_problem := sm_problem s; sm_conf := sm_conf s; sm_output := Some o; sm_domain := d; sm_status := sm_status s |}) by reflexivity.
    rewrite G. destruct (get_status tables _) as [n|x]; cbn [fst snd]; [|repeat split; auto; discriminate].
    split; [reflexivity|]. split; [exact B|]. split; [exact D|]. intros _. split; [reflexivity|]. exists c, d. auto.
  - cbn [fst snd]. split; [reflexivity|]. split; [exact B|]. split; [exact D|]. intros _. split; [reflexivity|]. exists c, d. auto.
Qed.

Lemma results_same tables s s' t : core s' = core s -> get_results tables s' t = get_results tables s t.
Proof. destruct s, s'. unfold core. cbn. intros E. injection E as -> -> -> ->. reflexivity. Qed.

Lemma configured_same s s' p a : 
  match set_configurations (with_problem s p) a, set_configurations (with_problem s' p) a with
  | Ok x, Ok x' => sm_conf x' = sm_conf x /\ sm_problem x' = sm_problem x
  | Raise e, Raise e' => e' = e
  | _, _ => False
  end.
Proof.
  unfold set_configurations, with_problem, with_conf. cbn [sm_problem sm_conf sm_output sm_domain sm_status].
  destruct (forallb _ _); [|exact eq_refl]. destruct (match ca_file a with Some r => r | None => _ end) as [c|x]; [|exact eq_refl]. cbn [rbind].
  destruct (cval_eqb _ _); [split; reflexivity|]. destruct (dget _ c); [|exact eq_refl]. destruct (cval_eqb _ _); split; reflexivity.
Qed.

Lemma reset_kept d d' : @DomainModel.d_ind num d' = DomainModel.d_ind d -> DomainModel.d_dep d' = DomainModel.d_dep d -> DomainModel.reset d' = DomainModel.reset d.
Proof. intros A B. unfold DomainModel.reset, DomainModel.set_domain, DomainModel.prototype. now rewrite A, B. Qed.

Lemma register_kept d m d' r : @DomainModel.register num d m = (d', r) -> DomainModel.reset d' = DomainModel.reset d.
Proof.
  unfold DomainModel.register. destruct (rev _); [intros H; injection H as <- _; reflexivity|].
  destruct (DomainModel.d_values d) as [t|]; [|intros H; injection H as <- _; reflexivity].
  destruct (dget s t); [|intros H; injection H as <- _; reflexivity].
  destruct (if DomainModel.frame_empty _ then _ else _); intros H; injection H as <- _; [|reflexivity]. apply reset_kept; reflexivity.
Qed.

Lemma record_kept d times y names d' r : @DomainModel.record_run num d times y names = (d', r) -> DomainModel.reset d' = DomainModel.reset d.
Proof.
  unfold DomainModel.record_run. destruct (DomainModel.hstack times y) as [m|]; [|intros H; injection H as <- _; reflexivity].
  destruct (DomainModel.register d m) as [d1 [[]|x]] eqn:E.
  2: { intros H; injection H as <- _. exact (register_kept _ _ _ _ E). }
  rewrite <- (register_kept _ _ _ _ E). unfold DomainModel.rename_headers. destruct (DomainModel.d_values d1); intros H; injection H as <- _; [|reflexivity].
  apply reset_kept; reflexivity.
Qed.

Lemma recorded_kept d c out d' o : recorded d c out = (d', o) ->
  DomainModel.reset d' = DomainModel.reset d /\ (d' = d \/ dget "domain" c = Some (VObj 0%nat)).
Proof.
  unfold recorded. destruct out as [[v|times y]|x]; try (intros H; injection H as <- _; split; [reflexivity|now left]).
  destruct (dget "domain" c) as [[ | | | | | | |[|n]]|]; try (intros H; injection H as <- _; split; [reflexivity|now left]).
  destruct (DomainModel.record_run d times _ _) as [d1 [[]|x]] eqn:E; intros H; injection H as <- _; (split; [exact (record_kept _ _ _ _ _ _ E)|now right]).
Qed.

Section Evaluate.
Context {A : Type} (solve : heap -> problem -> dict cval -> res sout) (dof : heap -> problem -> res bool) (objective : results -> res A).
Context (ts : list (nat * string)) (cfg : confargs) (sanity show : bool).
Notation run_candidate := (run_candidate solve dof).
Notation evaluate := (evaluate solve dof objective ts cfg sanity show).
Notation evaluate_all := (evaluate_all solve dof objective ts cfg sanity show).

Lemma run_candidate_state y s w p z r : run_candidate y s w p sanity show = (z, r) -> sy_world z = w /\ sy_problem z = p /\ List.length (sy_store z) = List.length (sy_store y) /\
  (r = Ok tt -> DomainModel.reset (sy_domain y) = sy_domain y -> sim_reset (sy_sim z) (sy_domain z) = (sy_domain y, Ok tt) \/ exists e, snd (sim_reset (sy_sim z) (sy_domain z)) = Raise e).
Proof.
  unfold EvalModel.run_candidate. destruct (prepare_same (sy_store y) (sy_store y) s s sanity (dof (pw_heap w) p) eq_refl eq_refl eq_refl) as (_ & L & _).
  pose proof (prepare_conf (sy_store y) s sanity (dof (pw_heap w) p)) as Pc.
  destruct (prepare (sy_store y) s sanity (dof (pw_heap w) p)) as [st [[c sv]|x]]; cbn [fst] in L.
  2: { intros H. injection H as <- <-. cbn. repeat split; auto; discriminate. }
  specialize (Pc st c sv eq_refl).
  destruct (recorded (sy_domain y) c _) as [d out] eqn:Er. destruct (recorded_kept _ _ _ _ _ Er) as [Rk Rd].
  destruct (run_sim_same (tables_of d) (sy_store y) (sy_store y) s s sanity show (dof (pw_heap w) p) out eq_refl eq_refl eq_refl) as (_ & L1 & _ & O).
  destruct (run_sim (tables_of d) (sy_store y) s sanity show (dof (pw_heap w) p) out) as [[st' s'] r'].
  cbn [fst snd] in L1, O. intros H. injection H as <- <-. cbn. split; [reflexivity|]. split; [reflexivity|]. split; [exact L1|]. intros Eo Cl.
  destruct (O Eo) as (_ & c' & dv & Ec & Od & Sd). rewrite Pc in Ec. injection Ec as <-.
  unfold opt in Od. destruct (dget "domain" c) as [v|]; [|discriminate]. injection Od as <-.
  unfold sim_reset. rewrite Sd. destruct v as [ | | | | | | |[|n]]; cbn [snd]; try (right; eexists; reflexivity).
  - left. destruct Rd as [->|X]; [reflexivity|discriminate].
  - left. now rewrite Rk, Cl.
  - left. destruct Rd as [->|X]; [reflexivity|discriminate].
Qed.

Lemma evaluate_state y x z r : evaluate y x = (z, r) -> exists w r1, set_targets (sy_world y) ts x = (w, r1) /\
  (sy_session z = (w, sy_problem y) \/ sy_session z = fst (do_act (w, sy_problem y) AResolve)) /\
  List.length (sy_store z) = List.length (sy_store y) /\
  (DomainModel.reset (sy_domain y) = sy_domain y -> (exists v, r = Ok v) -> sy_domain z = sy_domain y).
Proof.
  unfold EvalModel.evaluate. destruct (set_targets (sy_world y) ts x) as [w r1]. intros H. exists w, r1. split; [reflexivity|].
  destruct r1 as [[]|e]. 2: { injection H as <- <-. cbn. split; [now left|]. split; [reflexivity|]. intros _ [v X]. discriminate X. }
  unfold do_act. destruct (presolve w (sy_problem y)) as [[w' p] rp]. cbn [fst].
  destruct rp as [[]|e]. 2: { injection H as <- <-. cbn. split; [now right|]. split; [reflexivity|]. intros _ [v X]. discriminate X. }
  destruct (set_configurations _ cfg) as [s|e]. 2: { injection H as <- <-. cbn. split; [now right|]. split; [reflexivity|]. intros _ [v X]. discriminate X. }
  destruct (run_candidate y s w' p sanity show) as [y' ry] eqn:Er. destruct (run_candidate_state _ _ _ _ _ _ Er) as (W & P & L & Dm).
  destruct ry as [[]|e]. 2: { injection H as <- <-. unfold sy_session. rewrite W, P. split; [now right|]. split; [exact L|]. intros _ [v X]. discriminate X. }
  destruct (rbind (get_results _ _ _) objective) as [v|e].
  2: { injection H as <- <-. unfold sy_session. rewrite W, P. split; [now right|]. split; [exact L|]. intros _ [v X]. discriminate X. }
  destruct (sim_reset (sy_sim y') (sy_domain y')) as [d r0] eqn:Es. injection H as <- <-. unfold sy_session. cbn. rewrite W, P.
  split; [now right|]. split; [exact L|]. intros Cl [v' X]. destruct (Dm eq_refl Cl) as [E|[e E]].
  - now injection E.
  - cbn [snd] in E. rewrite E in X. discriminate X.
Qed.

Lemma set_targets_acts ts0 : forall w p x w', set_targets w ts0 x = (w', Ok tt) -> run_acts (w, p) (sets ts0 x) = (w', p).
Proof.
  unfold sets. induction ts0 as [|[i a] ts0 IH]; intros w p [|k x] w' H; cbn [set_targets combine map] in *; try (injection H as <-; reflexivity).
  destruct (on_model w i _) as [w1 [[]|e]] eqn:E; [|discriminate].
  change (run_acts (w, p) (?a :: ?l)) with (run_acts (fst (do_act (w, p) a)) l).
  cbn [do_act fst snd]. rewrite E. cbn [fst]. now apply IH.
Qed.

Lemma evaluate_means y x z v : evaluate y x = (z, Ok v) ->
  let s := run_acts (sy_session y) (evaluation ts x) in
  sy_session z = s /\
  exists c out r, solve (pw_heap (fst s)) (snd s) c = Ok out /\ objective r = Ok v /\ means (sy_domain y) c (snd s) out r.
Proof.
  unfold EvalModel.evaluate. destruct (set_targets (sy_world y) ts x) as [w [[]|e]] eqn:Et; [|discriminate].
  cbv zeta. unfold evaluation. rewrite run_acts_app.
  replace (run_acts (sy_session y) (sets ts x)) with (w, sy_problem y) by (symmetry; exact (set_targets_acts _ _ _ _ _ Et)).
  cbn [run_acts fold_left do_act fst snd].
  destruct (presolve w (sy_problem y)) as [[w' p] [[]|e]] eqn:Ep; [|discriminate]. cbn [fst snd].
  destruct (set_configurations (with_problem (sy_sim y) p) cfg) as [s|e] eqn:Ec; [|discriminate].
  assert (Sp : sm_problem s = Some p).
  { revert Ec. unfold set_configurations, with_problem, with_conf. cbn [sm_problem sm_conf sm_output sm_domain sm_status].
    destruct (forallb _ _); [|discriminate]. destruct (match ca_file cfg with Some r => r | None => _ end) as [c|e]; [|discriminate]. cbn [rbind].
    destruct (cval_eqb _ _); [intros H; injection H as <-; reflexivity|]. destruct (dget _ c); [|discriminate].
    destruct (cval_eqb _ _); intros H; injection H as <-; reflexivity. }
  unfold EvalModel.run_candidate.
  pose proof (prepare_conf (sy_store y) s sanity (dof (pw_heap w') p)) as Pc.
  destruct (prepare (sy_store y) s sanity (dof (pw_heap w') p)) as [st [[c sv]|e]] eqn:Epr; [|discriminate].
  specialize (Pc st c sv eq_refl).
  destruct (recorded (sy_domain y) c (solve (pw_heap w') p c)) as [d out] eqn:Er.
  destruct (run_sim_same (tables_of d) (sy_store y) (sy_store y) s s sanity show (dof (pw_heap w') p) out eq_refl eq_refl eq_refl) as (_ & _ & _ & _).
  destruct (run_sim (tables_of d) (sy_store y) s sanity show (dof (pw_heap w') p) out) as [[st' s'] rr] eqn:Es.
  destruct rr as [[]|e]; [|discriminate]. cbn [sy_domain sy_sim sy_world sy_problem sy_store].
  destruct (get_results (tables_of d) s' RDict) as [r|e] eqn:Eg; [|discriminate]. cbn [rbind].
  destruct (objective r) as [v'|e] eqn:Eo; [|discriminate].
  destruct (sim_reset s' d) as [d' rd]. intros H. injection H as <- H. destruct rd as [[]|]; [|discriminate]. injection H as <-.
  split; [reflexivity|].
  assert (Out : exists o, out = Ok o /\ sm_problem s' = Some p /\ sm_conf s' = Some c /\ sm_output s' = Some o).
  { revert Es. unfold run_sim. rewrite Epr. destruct out as [o|e]; [|discriminate].
    destruct (opt c "domain") as [dv|e]; [|discriminate]. intros H. exists o. split; [reflexivity|].
    destruct show; [destruct (get_status _ _); [|discriminate]|]; injection H as _ <-; cbn; auto. }
  destruct Out as (o & -> & P' & C' & O').
  revert Eg. unfold get_results. rewrite P'. destruct (pr_block p) as [b|] eqn:Eb; [|discriminate].
  revert Er. unfold recorded. destruct (solve (pw_heap w') p c) as [[vs|times rows]|e] eqn:Ev; [| |discriminate].
  - intros H Eg. injection H as <- <-. exists c, (OutDict vs), r. split; [exact Ev|]. split; [exact Eo|]. unfold means. rewrite Eb.
    intros St. rewrite O' in Eg. unfold problem_type in Eg. rewrite St in Eg. cbn [is_empty negb andb orb] in Eg.
    exists (results_dict vs). split; [|intros N; apply (SolverFacts.results_same vs N)].
    destruct (is_empty (b_nonlin b)), (is_empty (b_lin b)); cbn [negb andb] in Eg; try discriminate Eg; now injection Eg as <-.
  - intros H Eg. exists c, (OutRun times rows), r. split; [exact Ev|]. split; [exact Eo|]. unfold means.
    destruct (dget "domain" c) as [[ | | | | | | |[|n]]|] eqn:Ed; try discriminate H.
    + destruct (DomainModel.record_run (sy_domain y) times (matrix_of rows) (name_map c)) as [d1 [[]|e]] eqn:Erun; [|discriminate].
      injection H as <- <-. exists (name_map c), d1.
      rewrite C', O' in Eg. unfold opt in Eg. rewrite Ed in Eg. cbn [rbind tables_of] in Eg.
      destruct (problem_type b) as [[ | | | ]|]; try discriminate Eg; destruct (DomainModel.d_values d1) as [t|]; try discriminate Eg; injection Eg as <-; exists t; (split; [intros hs; apply name_map_is|auto]).
    + injection H as <- <-. rewrite C', O' in Eg. unfold opt in Eg. rewrite Ed in Eg. cbn [rbind tables_of] in Eg.
      destruct (problem_type b) as [[ | | | ]|]; discriminate Eg.
Qed.

Lemma evaluate_single T D s0 y x z r : sr T D s0 (sy_session y) -> incl (locs (fst s0) ts) T -> covers D (dvals (pr_models (snd s0))) (fst s0) ->
  evaluate y x = (z, r) -> sr T D s0 (sy_session z).
Proof.
  intros S I C H. destruct (evaluate_state _ _ _ _ H) as (w & r1 & E & X & _).
  pose proof (set_targets_single _ _ _ _ _ _ _ _ _ S I E) as S1. destruct X as [->| ->]; [exact S1|]. exact (resolve_single _ _ _ _ S1 C).
Qed.


Lemma evaluate_pair D y y' x z r : sr (locs (sy_world y) ts) D (sy_session y) (sy_session y') -> List.length x = List.length ts ->
  List.length (sy_store y') = List.length (sy_store y) -> sy_domain y' = sy_domain y ->
  NoDup (dvals (pr_models (sy_problem y))) -> covers D (dvals (pr_models (sy_problem y))) (sy_world y) ->
  (forall i, ~ In i (dvals (pr_models (sy_problem y))) -> D i = ([], [])) ->
  evaluate y x = (z, r) -> exists z', evaluate y' x = (z', r) /\ ((exists v, r = Ok v) -> same_study z z').
Proof.
  intros S L Ls Ed ND C Z H. unfold EvalModel.evaluate in *.
  destruct (set_targets (sy_world y) ts x) as [w r1] eqn:E1.
  assert (S' : sr (locs (sy_world y) ts ++ []) D (sy_world y, sy_problem y) (sy_world y', sy_problem y')) by (rewrite app_nil_r; exact S).
  destruct (set_targets_pair D ts [] _ _ _ _ _ _ _ S' L E1) as (w' & E1' & Q). rewrite E1'.
  assert (F : forall (a b : study) (e : exn), (a, @Raise A e) = (z, r) -> exists z', (b, @Raise A e) = (z', r) /\ ((exists v, r = Ok v) -> same_study z z')).
  { intros a b e X. injection X as <- <-. exists b. split; [reflexivity|]. intros [v Y]. discriminate Y. }
  destruct r1 as [[]|e]; [|exact (F _ _ _ H)]. specialize (Q eq_refl).
  assert (G := set_targets_models _ _ _ _ _ E1).
  destruct (resolve_pair D _ _ Q ND (fun i m d Hi Gi => C i m d Hi (eq_trans (eq_sym (G i)) Gi)) Z) as [Rs Rq].
  unfold do_act in Rs, Rq. destruct (presolve w (sy_problem y)) as [[w1 p] rp]. destruct (presolve w' (sy_problem y')) as [[w1' p'] rp']. cbn [fst snd] in Rs, Rq.
  subst rp'. destruct rp as [[]|e]; [|exact (F _ _ _ H)]. specialize (Rq eq_refl). pose proof Rq as (Eh & Ep & _). cbn [fst snd] in Eh, Ep. subst p'.
  pose proof (configured_same (sy_sim y) (sy_sim y') p cfg) as Cf.
  destruct (set_configurations (with_problem (sy_sim y) p) cfg) as [s|e], (set_configurations (with_problem (sy_sim y') p) cfg) as [s'|e']; try contradiction; [|subst e'; exact (F _ _ _ H)].
  destruct Cf as [Cc Cp].
  unfold EvalModel.run_candidate in *. rewrite Eh, Ed in *.
  destruct (prepare_same _ _ s s' sanity (dof (pw_heap w1) p) Ls Cc Cp) as (Pr & _).
  destruct (prepare (sy_store y) s sanity (dof (pw_heap w1) p)) as [st rr], (prepare (sy_store y') s' sanity (dof (pw_heap w1) p)) as [st' rr']. cbn [snd] in Pr. subst rr'.
  destruct rr as [[c sv]|e]; [|exact (F _ _ _ H)].
  destruct (recorded (sy_domain y) c (solve (pw_heap w1) p c)) as [d out].
  destruct (run_sim_same (tables_of d) _ _ s s' sanity show (dof (pw_heap w1) p) out Ls Cc Cp) as (A1 & _ & _ & A2).
  destruct (run_sim (tables_of d) (sy_store y) s sanity show (dof (pw_heap w1) p) out) as [[s1 m1] q1].
  destruct (run_sim (tables_of d) (sy_store y') s' sanity show (dof (pw_heap w1) p) out) as [[s1' m1'] q1']. cbn [fst snd] in A1, A2. subst q1'.
  destruct q1 as [[]|e]; [|exact (F _ _ _ H)]. destruct (A2 eq_refl) as [Ec _]. cbn [sy_domain sy_sim sy_world sy_problem sy_store] in *.
  rewrite (results_same _ _ _ _ Ec). destruct (rbind (get_results _ m1 RDict) objective) as [v|e]; [|exact (F _ _ _ H)].
  assert (Er : sim_reset m1' d = sim_reset m1 d) by (unfold sim_reset; now rewrite (f_equal snd Ec : sm_domain m1' = sm_domain m1)).
  rewrite Er. destruct (sim_reset m1 d) as [d2 r2]. injection H as <- <-. eexists. split; [reflexivity|]. intros _.
  split; [exact Rq|]. split; [exact Ec|reflexivity].
Qed.


Lemma all_single D s0 xs : forall y z vs, sr (locs (fst s0) ts) D s0 (sy_session y) -> covers D (dvals (pr_models (snd s0))) (fst s0) ->
  DomainModel.reset (sy_domain y) = sy_domain y -> evaluate_all y xs = (z, vs) -> Forall returned vs ->
  sr (locs (fst s0) ts) D s0 (sy_session z) /\ List.length (sy_store z) = List.length (sy_store y) /\ sy_domain z = sy_domain y.
Proof.
  induction xs as [|x xs IH]; intros y z vs S C Cl H F; cbn [EvalModel.evaluate_all] in H.
  - injection H as <- _. auto.
  - destruct (evaluate y x) as [y1 v] eqn:E. destruct (evaluate_all y1 xs) as [y2 vs2] eqn:E2. injection H as <- <-.
    inversion F as [|? ? F1 F2]; subst. destruct (evaluate_state _ _ _ _ E) as (w & r1 & _ & _ & L & Dm).
    specialize (Dm Cl F1). assert (S1 := evaluate_single _ _ _ _ _ _ _ S (incl_refl _) C E).
    destruct (IH _ _ _ S1 C (eq_trans (f_equal _ Dm) (eq_trans Cl (eq_sym Dm))) E2 F2) as (B1 & B2 & B3).
    split; [exact B1|]. split; congruence.
Qed.

Lemma evaluation_free acts b y xs x z vs : resolved acts (sy_session y) b -> constructed acts -> List.length x = List.length ts ->
  DomainModel.reset (sy_domain y) = sy_domain y -> evaluate_all y xs = (z, vs) -> Forall returned vs ->
  snd (evaluate z x) = snd (evaluate y x) /\ (returned (snd (evaluate y x)) -> same_study (fst (evaluate y x)) (fst (evaluate z x))).
Proof.
  intros R Co L Cl H F. destruct (resolved_open _ _ _ R Co) as (S0 & C & ND). cbn [fst snd sy_session] in *.
  destruct (all_single (open_in (sy_session y)) (sy_session y) xs y z vs (sr_more _ (locs (sy_world y) ts) _ _ _ S0 (fun x H => match H with end)) C Cl H F) as (S1 & Ls & Dm).
  destruct (evaluate y x) as [f r] eqn:E.
  destruct (evaluate_pair _ y z x f r S1 L Ls Dm ND C (open_closed (sy_session y)) E) as (z' & E' & Q). rewrite E'. cbn [fst snd]. auto.
Qed.

Lemma evaluate_all_app xs x : forall y, evaluate_all y (xs ++ [x]) =
  (fst (evaluate (fst (evaluate_all y xs)) x), snd (evaluate_all y xs) ++ [snd (evaluate (fst (evaluate_all y xs)) x)]).
Proof.
  induction xs as [|x0 xs IH]; intros y; cbn [EvalModel.evaluate_all app].
  - cbn [fst snd app]. destruct (evaluate y x). reflexivity.
  - destruct (evaluate y x0) as [y1 v1]. rewrite IH. destruct (evaluate_all y1 xs) as [y2 vs]. reflexivity.
Qed.

(** A run of evaluations that all return gives a function of the candidates. *)
Lemma evaluations_function acts b y : resolved acts (sy_session y) b -> constructed acts -> DomainModel.reset (sy_domain y) = sy_domain y ->
  forall xs, Forall (fun x => List.length x = List.length ts) xs -> Forall returned (snd (evaluate_all y xs)) ->
  snd (evaluate_all y xs) = map (fun x => snd (evaluate y x)) xs.
Proof.
  intros R Co Cl xs. induction xs as [|x xs IH] using rev_ind; intros Lx F; [reflexivity|].
  rewrite evaluate_all_app in *. cbn [snd] in *. rewrite map_app. apply Forall_app in Lx. destruct Lx as [Lx1 Lx2]. apply Forall_app in F. destruct F as [F1 F2].
  rewrite (IH Lx1 F1). f_equal. cbn [map]. f_equal. inversion Lx2; subst.
  destruct (evaluate_all y xs) as [z vs] eqn:E. cbn [fst snd] in *.
  exact (proj1 (evaluation_free _ _ _ _ _ _ _ R Co H1 Cl E F1)).
Qed.
End Evaluate.
