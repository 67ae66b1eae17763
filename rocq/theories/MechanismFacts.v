(** * Proofs about the mechanisms a simulation may be asked to use (C83) *)
From Coq Require Import ZArith List Bool String Reals Lia.
From Verif Require Import Base BaseFacts Num UnitModel Sympy Node Build EquationModel ModelModel ProblemModel SpecProblem ProblemFacts SolverModel SimModel RunModel WholeModel WholeFacts SpecAsked SpecMechanism.
From Verif Require SpecSim.
Import ListNotations.
Local Open Scope list_scope.
Local Open Scope string_scope.

Lemma la_names n : la_lookup n <> None -> n = None \/ exists m, In m ["sympy"; "scipy"; "symbolicsys"] /\ n = Some m.
Proof.
  destruct n as [m|]; [|now left]. intros H. right. exists m. split; [|reflexivity]. cbn in H.
  destruct (String.eqb_spec m "sympy") as [Q|_]; [subst m; now left|]. destruct (String.eqb_spec m "scipy") as [Q|_]; [subst m; right; now left|].
  destruct (String.eqb_spec m "symbolicsys") as [Q|_]; [subst m; right; right; now left|contradiction].
Qed.
Lemma nla_names n k : nla_lookup n = Ok k -> n = None \/ exists m, In m ["*"; "symbolicsys"; "sympy"] /\ n = Some m.
Proof.
  destruct n as [m|]; [|now left]. intros H. right. exists m. split; [|reflexivity]. cbn in H.
  destruct (String.eqb_spec m "*") as [Q|_]; [subst m; now left|]. destruct (String.eqb_spec m "symbolicsys") as [Q|_]; [subst m; right; now left|].
  destruct (String.eqb_spec m "sympy") as [Q|_]; [subst m; right; right; now left|discriminate].
Qed.
Lemma ode_names odeint cvode o f y0 ts out : integrate odeint cvode o f y0 ts = Ok out -> oo_solver o = None \/ exists m, In m ["ODEINT"; "CVODE"] /\ oo_solver o = Some m.
Proof.
  unfold integrate. destruct (oo_solver o) as [m|]; [|now left]. intros H. right. exists m. split; [|reflexivity].
  destruct (String.eqb_spec m "ODEINT") as [Q|N]; [subst m; now left|]. destruct (String.eqb_spec m "CVODE") as [Q|N']; [subst m; right; now left|]. exfalso.
  revert H N N'. repeat (match goal with |- context [match ?x with _ => _ end] => is_var x; destruct x; try discriminate end); intros; congruence.
Qed.
Lemma dae_names ida pn ps p b o d d' out : dae_solve ida pn ps p b o d = (d', Ok out) -> oo_solver o = None \/ exists m, In m ["IDA"] /\ oo_solver o = Some m.
Proof.
  unfold dae_solve. destruct (oo_solver o) as [m|]; [|now left]. intros H. right. exists m. split; [|reflexivity]. destruct (String.eqb_spec m "IDA") as [Q|N]; [subst m; now left|]. exfalso.
  destruct (dae_points o) as [ts|]; [|discriminate H]. cbn [rbind] in H. destruct (dae_initial _ _ _ _) as [k|]; [|discriminate H]. cbn [rbind] in H.
  destruct (map_res real_of (fst k)); [|discriminate H]. cbn [rbind] in H. destruct (map_res real_of (snd k)); [|discriminate H]. cbn [rbind] in H.
  revert H N. repeat (match goal with |- context [match ?x with _ => _ end] => is_var x; destruct x; try discriminate end); intros; congruence.
Qed.

Lemma picked s c k v l : sm_conf s = Some c -> opt c k = Ok v -> name_option v = None \/ (exists m, In m l /\ name_option v = Some m) -> ~ In "" l -> picks s k l.
Proof.
  intros C O [N|(m & I & N)] E; assert (G := opt_of s c k v C O).
  - left. destruct v; try discriminate N. exact G.
  - right. exists m. split; [exact I|]. destruct v; try discriminate N; injection N as <-; try contradiction; exact G.
Qed.

Lemma read_solver arrays c k w o : run_options arrays c k w = Ok o ->
  (exists v, opt c k = Ok v /\ oo_solver o = name_option v) /\
  (exists v, opt c "end_time" = Ok v /\ end_option v = Ok (oo_end o)) /\
  (w = true -> exists v, opt c "times_for_solution" = Ok v /\ times_option arrays (oo_solver o) v = Ok (oo_times o)).
Proof.
  intros H. unfold run_options in H. bind H. bind H. bind H. bind H. bind H. bind H. bind H. bind H. bind H. bind H. bind H. bind H. bind H.
  injection H as <-. cbn [oo_solver oo_end oo_times]. split; [exists a; auto|]. split; [eauto|]. intros ->. bind E7. eauto.
Qed.

Lemma mechanism lib arrays pn ps h st doms sm sanity st' doms' out p b :
  sm_problem sm = Some p -> pr_block p = Some b -> whole_run lib arrays pn ps h st doms sm sanity = (st', doms', Ok out) ->
  (problem_type b = Some PTLinear -> picks sm "linear_solver" ["sympy"; "scipy"; "symbolicsys"]) /\
  (problem_type b = Some PTNonlinear -> picks sm "nonlinear_solver" ["*"; "symbolicsys"; "sympy"]) /\
  (problem_type b = Some PTDiff -> picks sm "differential_solver" ["ODEINT"; "CVODE"]) /\
  (problem_type b = Some PTDae -> picks sm "differential_algebraic_solver" ["IDA"]).
Proof.
  intros Hp Hb H. destruct (whole_parts _ _ _ _ _ _ _ _ _ _ _ _ _ _ Hp Hb H) as (c & sv & C & S & X). clear H.
  assert (K1 : ~ In "" ["sympy"; "scipy"; "symbolicsys"]) by (intros [Q|[Q|[Q|[]]]]; discriminate Q).
  assert (K2 : ~ In "" ["*"; "symbolicsys"; "sympy"]) by (intros [Q|[Q|[Q|[]]]]; discriminate Q).
  assert (K3 : ~ In "" ["ODEINT"; "CVODE"]) by (intros [Q|[Q|[]]]; discriminate Q).
  assert (K4 : ~ In "" ["IDA"]) by (intros [Q|[]]; discriminate Q).
  repeat split; intros T; unfold create_solver in S; rewrite T in S; injection S as <-; unfold run_solver in X.
  - injection X as _ X. bind X. bind X. unfold la_run in E0. bind E0. apply (picked sm c _ _ _ C E1); [|exact K1]. apply la_names. intros N. rewrite N in E0. unfold la_solve in E0. rewrite N in E0. discriminate E0.
  - injection X as _ X. bind X. bind X. unfold nla_run in E0. bind E0. bind E0. apply (picked sm c _ _ _ C E1); [|exact K2]. exact (nla_names _ _ E2).
  - match type of X with match ?e with _ => _ end = _ => destruct e as [[[ds o] [i d]]|] eqn:Q; [|discriminate X] end.
    bind Q. bind Q. bind Q. bind Q. bind Q. bind Q. bind Q. bind Q. injection Q as <- <- Qd.
    destruct (read_solver _ _ _ _ _ E4) as ((v & V1 & V2) & _). apply (picked sm c _ _ _ C V1); [|exact K3]. rewrite <- V2.
    destruct (ode_solve _ _ _ _ _ _ _ _ _) as [d' [[ts rows]|]] eqn:O; [|discriminate X]. unfold ode_solve in O.
    match type of O with match ?e with _ => _ end = _ => destruct e as [[y0 [ts' rows']]|] eqn:P; [|discriminate O] end.
    bind P. bind P. bind P. bind P. exact (ode_names _ _ _ _ _ _ _ E10).
  - match type of X with match ?e with _ => _ end = _ => destruct e as [[o [i d]]|] eqn:Q; [|discriminate X] end.
    bind Q. bind Q. bind Q. bind Q. bind Q. injection Q as <- Qd.
    destruct (read_solver _ _ _ _ _ E1) as ((v & V1 & V2) & _). apply (picked sm c _ _ _ C V1); [|exact K4]. rewrite <- V2.
    destruct (dae_solve _ _ _ _ _ _ _) as [d' [[ts rows]|]] eqn:O; [|discriminate X]. exact (dae_names _ _ _ _ _ _ _ _ _ O).
Qed.

Lemma end_read s c v e : sm_conf s = Some c -> opt c "end_time" = Ok v -> end_option v = Ok (Some e) -> exists n, option_of s "end_time" = Some (VNum n) /\ real_of n = Ok e.
Proof.
  intros C O N. apply (opt_of s) in O; [|exact C]. destruct v; cbn in N; try discriminate N. destruct (real_of n) as [r|] eqn:Q; [|discriminate N]. cbn in N. injection N as ->. eauto.
Qed.

Lemma ends lib arrays pn ps h st doms sm sanity st' doms' out p b :
  sm_problem sm = Some p -> pr_block p = Some b -> whole_run lib arrays pn ps h st doms sm sanity = (st', doms', Ok out) ->
  (problem_type b = Some PTDiff -> default sm "times_for_solution" \/ chosen sm "differential_solver" "CVODE" ->
     exists n e, option_of sm "end_time" = Some (VNum n) /\ real_of n = Ok e) /\
  (problem_type b = Some PTDae -> exists n e, option_of sm "end_time" = Some (VNum n) /\ real_of n = Ok e).
Proof.
  intros Hp Hb H. destruct (whole_parts _ _ _ _ _ _ _ _ _ _ _ _ _ _ Hp Hb H) as (c & sv & C & S & X). clear H.
  split; intros T; unfold create_solver in S; rewrite T in S; injection S as <-; unfold run_solver in X.
  - intros D. match type of X with match ?e with _ => _ end = _ => destruct e as [[[ds o] [i d]]|] eqn:Q; [|discriminate X] end.
    bind Q. bind Q. bind Q. bind Q. bind Q. bind Q. bind Q. bind Q. injection Q as <- <- Qd.
    destruct (read_solver _ _ _ _ _ E4) as ((v & V1 & V2) & (w & W1 & W2) & U). destruct (U eq_refl) as (u & U1 & U2). clear U.
    destruct (ode_solve _ _ _ _ _ _ _ _ _) as [d' [[ts rows]|]] eqn:O; [|discriminate X]. unfold ode_solve in O.
    match type of O with match ?e with _ => _ end = _ => destruct e as [[y0 [ts' rows']]|] eqn:P; [|discriminate O] end.
    bind P. bind P. bind P. bind P. 
    assert (N : oo_end a4 <> None).
    { intros N. destruct D as [D|D].
      - rewrite (opt_same sm c _ _ _ C D U1) in U2. cbn in U2. injection U2 as U2. unfold time_points in E8. rewrite <- U2, N in E8. destruct (oo_steps a4); discriminate E8.
      - rewrite (opt_same sm c _ _ _ C D V1) in V2. cbn in V2. unfold integrate in E10. rewrite V2, N in E10. discriminate E10. }
    destruct (oo_end a4) as [e|]; [|contradiction]. destruct (end_read _ _ _ _ C W1 W2) as (n & N1 & N2). exists n, e. auto.
  - match type of X with match ?e with _ => _ end = _ => destruct e as [[o [i d]]|] eqn:Q; [|discriminate X] end.
    bind Q. bind Q. bind Q. bind Q. bind Q. injection Q as <- Qd.
    destruct (read_solver _ _ _ _ _ E1) as ((v & V1 & V2) & (w & W1 & W2) & _).
    destruct (dae_solve _ _ _ _ _ _ _) as [d' [[ts rows]|]] eqn:O; [|discriminate X]. unfold dae_solve, dae_points in O.
    destruct (oo_steps a1); [|discriminate O]. destruct (oo_end a1) as [e|]; [|discriminate O]. destruct (end_read _ _ _ _ C W1 W2) as (n & N1 & N2). exists n, e. auto.
Qed.

Lemma times_read lib arrays pn ps h st doms sm sanity st' doms' out p b :
  sm_problem sm = Some p -> pr_block p = Some b -> problem_type b = Some PTDiff -> whole_run lib arrays pn ps h st doms sm sanity = (st', doms', Ok out) ->
  default sm "times_for_solution" \/
  (exists o l, option_of sm "times_for_solution" = Some (VObj o) /\ arrays o = Some l /\
     (default sm "differential_solver" \/ chosen sm "differential_solver" "ODEINT" -> exists rows, out = WRun l rows)) \/
  (exists l rs, option_of sm "times_for_solution" = Some (VList l) /\ map_res number_option l = Ok rs /\ chosen sm "differential_solver" "CVODE").
Proof.
  intros Hp Hb T H. destruct (whole_parts _ _ _ _ _ _ _ _ _ _ _ _ _ _ Hp Hb H) as (c & sv & C & S & X). clear H.
  unfold create_solver in S; rewrite T in S; injection S as <-; unfold run_solver in X.
  match type of X with match ?e with _ => _ end = _ => destruct e as [[[ds o] [i d]]|] eqn:Q; [|discriminate X] end.
  bind Q. bind Q. bind Q. bind Q. bind Q. bind Q. bind Q. bind Q. injection Q as <- <- Qd.
  destruct (read_solver _ _ _ _ _ E4) as ((v & V1 & V2) & _ & U). destruct (U eq_refl) as (u & U1 & U2). clear U.
  assert (G := opt_of sm c _ _ C U1). assert (Gv := opt_of sm c _ _ C V1).
  destruct u; cbn [times_option] in U2; try discriminate U2.
  - left. exact G.
  - right. right. destruct (oo_solver a4) as [m|] eqn:M; [|discriminate U2].
    destruct (String.eqb_spec m "CVODE") as [Qm|Nm].
    + subst m. cbn in U2. destruct (map_res number_option l) as [rs|] eqn:R; [|discriminate U2]. exists l, rs. split; [exact G|]. split; [exact R|].
      destruct v; try discriminate V2. injection V2 as V2. unfold chosen. now rewrite V2.
    + exfalso. revert U2 Nm. clear. repeat (match goal with |- context [match ?x with _ => _ end] => is_var x; destruct x; try discriminate end); intros; congruence.
  - right. left. destruct (arrays o) as [l|] eqn:A; [|discriminate U2]. injection U2 as U2. exists o, l. split; [exact G|]. split; [exact A|]. intros D.
    destruct (ode_solve _ _ _ _ _ _ _ _ _) as [d' [[ts rows]|]] eqn:O; [|discriminate X]. injection X as _ <-. exists rows. unfold ode_solve in O.
    match type of O with match ?e with _ => _ end = _ => destruct e as [[y0 [ts' rows']]|] eqn:P; [|discriminate O] end.
    bind P. bind P. bind P. bind P. injection P as <- P. destruct (DomainModel.record_run _ _ _ _) as [d1 [r|]]; [|discriminate O]. injection O as _ <- <-.
    unfold time_points in E8. rewrite <- U2 in E8. destruct (oo_steps a4); [|discriminate E8]. injection E8 as <-.
    assert (F : oo_solver a4 = None \/ oo_solver a4 = Some "ODEINT").
    { destruct D as [D|D]; [left|right]; rewrite (opt_same sm c _ _ _ C D V1) in V2; exact V2. }
    unfold integrate in E10. destruct F as [F|F]; rewrite F in E10; bind E10; injection E10 as <-; injection P as -> ->; reflexivity.
Qed.

Lemma opt_option s c k : sm_conf s = Some c -> opt c k = match option_of s k with Some v => Ok v | None => Raise EKey end.
Proof. intros C. unfold SpecSim.option_of, opt. rewrite C. destruct (dget k c); reflexivity. Qed.

Lemma listed lib arrays pn ps h st doms s s' sanity l o rs : sm_problem s = sm_problem s' ->
  (forall k, k <> "times_for_solution" -> option_of s k = option_of s' k) -> chosen s "differential_solver" "CVODE" ->
  option_of s "times_for_solution" = Some (VList l) -> option_of s' "times_for_solution" = Some (VObj o) ->
  arrays o = Some rs -> Forall2 (fun v r => exists n, v = VNum n /\ real_of n = Ok r) l rs ->
  whole_run lib arrays pn ps h st doms s sanity = whole_run lib arrays pn ps h st doms s' sanity.
Proof.
  intros Hp Ho Hc Hl Ha A F.
  assert (M : map_res number_option l = Ok rs).
  { clear -F. induction F as [|v r l rs (n & -> & N) F IH]; [reflexivity|]. cbn. rewrite N. cbn. rewrite IH. reflexivity. }
  destruct (sm_conf s) as [c|] eqn:C; [|unfold SpecSim.option_of in Hl; rewrite C in Hl; discriminate Hl].
  destruct (sm_conf s') as [c'|] eqn:C'; [|unfold SpecSim.option_of in Ha; rewrite C' in Ha; discriminate Ha].
  assert (O : forall k, k <> "times_for_solution" -> opt c k = opt c' k).
  { intros k N. rewrite (opt_option s c k C), (opt_option s' c' k C'), (Ho k N). reflexivity. }
  assert (T : opt c "times_for_solution" = Ok (VList l)) by (rewrite (opt_option s c _ C), Hl; reflexivity).
  assert (T' : opt c' "times_for_solution" = Ok (VObj o)) by (rewrite (opt_option s' c' _ C'), Ha; reflexivity).
  assert (D : opt c "differential_solver" = Ok (VStr "CVODE")) by (rewrite (opt_option s c _ C), Hc; reflexivity).
  assert (D' : opt c' "differential_solver" = Ok (VStr "CVODE")) by (rewrite <- O by discriminate; exact D).
  assert (K : forall p b sv, run_solver lib arrays pn ps h p b c sv sanity doms = run_solver lib arrays pn ps h p b c' sv sanity doms).
  { intros p b sv. unfold run_solver, la_run, nla_run, run_options. rewrite T, T', D, D'.
    repeat match goal with |- context [opt c ?k] => rewrite (O k) by discriminate end. cbn [rbind name_option times_option]. rewrite M, A. cbn [rbind]. reflexivity. }
  assert (P : match prepare st s false (Ok true), prepare st s' false (Ok true) with
              | (st1, Ok (d, sv)), (st2, Ok (d', sv')) => st1 = st2 /\ d = c /\ d' = c' /\ sv = sv'
              | (st1, Raise x), (st2, Raise x') => st1 = st2 /\ x = x'
              | _, _ => False end).
  { unfold prepare. rewrite C, C', Hp. rewrite !(O "problem_type"), !(O "number_parameters_to_optimize") by discriminate.
    destruct (let* t := opt c' "problem_type" in _) as [[p b]|]; [|auto].
    assert (Q : make_solver st p b c = make_solver st p b c').
    { unfold make_solver. rewrite T, T'. repeat match goal with |- context [opt c ?k] => rewrite (O k) by discriminate end.
      destruct (let* _ := opt c' "linear_solver" in _) as [[]|]; try reflexivity. }
    rewrite Q. destruct (make_solver st p b c') as [st1 [sv|]]; auto. }
  unfold whole_run. destruct (prepare st s false (Ok true)) as [st1 [[d sv]|x]], (prepare st s' false (Ok true)) as [st2 [[d' sv']|x']]; try contradiction.
  - destruct P as (-> & -> & -> & ->). rewrite Hp. destruct (sm_problem s') as [p|]; [|reflexivity]. destruct (pr_block p) as [b|]; [|reflexivity]. rewrite K. reflexivity.
  - destruct P as (-> & ->). reflexivity.
Qed.
