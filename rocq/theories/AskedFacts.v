(** * Proofs about what numeric routines are asked, and refusals *)
From Coq Require Import ZArith List Bool String Reals Lra Lia.
From Verif Require Import Base BaseFacts Num UnitModel Sympy Node Build EquationModel ModelModel ProblemModel SpecProblem ProblemFacts SolverModel SimModel RunModel WholeModel WholeFacts OptimModel SpecOptim OptimFacts ReportModel ReportFacts UnitOpModel SpecAsked.
From Verif Require SpecSim PackageModel UnitResolveModel UnitThms SpecUnits.
Import ListNotations.
Local Open Scope list_scope.

Lemma side_index e i : eq_elementary e = true -> (2 <= i)%nat -> equation_call e i = Raise EUnexpectedValue.
Proof. intros E H. unfold equation_call. rewrite E. destruct (eq_elem e) as [[a b]|]; [|reflexivity]. do 2 (destruct i as [|i]; [lia|]). reflexivity. Qed.

Lemma connection_variables w outs ins a l : In l (ins ++ outs) -> (forall q, hget (w_heap w) l = Some q -> q_kind q <> KVariable) ->
  model_connection w outs ins a = (w, Raise EUnexpectedValue).
Proof.
  intros H K. unfold model_connection.
  assert (F : is_variable (w_heap w) l = false).
  { unfold is_variable. destruct (hget (w_heap w) l) as [q|] eqn:G; [|reflexivity]. specialize (K q eq_refl). destruct (q_kind q); congruence || reflexivity. }
  assert (X : forall ls, In l ls -> forallb (is_variable (w_heap w)) ls = false).
  { intros ls Hl. destruct (forallb (is_variable (w_heap w)) ls) eqn:E; [|reflexivity]. rewrite forallb_forall in E. rewrite (E l Hl) in F. discriminate. }
  apply in_app_iff in H. destruct H as [H|H]; rewrite (X _ H); [reflexivity|]. now rewrite andb_false_r.
Qed.

Lemma bounds_type p : op_ready p = false -> (forall l, op_bounds p <> VList l) -> get_bounds p = Raise EType.
Proof. intros E H. unfold get_bounds. rewrite E. destruct (op_bounds p); try reflexivity. now destruct (H l). Qed.

Lemma dynamic_results tables s p b t v : sm_problem s = Some p -> pr_block p = Some b ->
  problem_type b = Some PTDiff \/ problem_type b = Some PTDae -> SpecSim.option_of s "domain" = Some v -> t <> ROther ->
  get_results tables s t = match v with
                           | VObj o => match tables o with Some f => Ok (RTables f) | None => Raise EAttribute end
                           | _ => Raise EAttribute
                           end.
Proof.
  intros Hp Hb Ht Hv Hn. unfold get_results. rewrite Hp, Hb. unfold SpecSim.option_of in Hv. destruct (sm_conf s) as [c|]; [|discriminate].
  assert (O : opt c "domain" = Ok v) by (unfold opt; now rewrite Hv).
  destruct Ht as [-> | ->]; rewrite O; cbn [rbind]; destruct t; congruence || reflexivity.
Qed.

Lemma key_of_connection s m1 m2 outs ins e s' : do_act s (AConn m1 m2 outs ins e) = (s', Ok tt) ->
  exists i s1 d1 s2 d2 os is en, m1 = CMModel i /\ get_model (fst s) i = Some (s1, d1) /\ get_model (fst s) m2 = Some (s2, d2) /\
    qty_names (pw_heap (fst s)) (cv_list outs) = Ok os /\ qty_names (pw_heap (fst s)) (cv_list ins) = Ok is /\
    dget (connection_text os (m_name s1) is (m_name s2)) (pr_conns (snd s')) = Some en.
Proof.
  destruct s as [w p]. unfold do_act. intros H.
  destruct (match e with None => Ok None | Some q => _ end) as [ex|y]; [|discriminate].
  unfold connect_vars in H. simpl fst. destruct (get_model w m2) as [[s2 d2]|]; [|discriminate].
  destruct m1 as [i|n]; [|discriminate]. destruct (get_model w i) as [[s1 d1]|] eqn:G1; [|discriminate].
  destruct (forallb _ _ && forallb _ _); [|destruct ins, outs; discriminate].
  destruct (match ex with Some a => Ok a | None => _ end) as [a|y]; [|discriminate].
  destruct (qty_names (pw_heap w) (cv_list outs)) as [os|] eqn:Eo; [|discriminate].
  destruct (qty_names (pw_heap w) (cv_list ins)) as [is|] eqn:Ei; [|discriminate]. cbn [rbind] in H.
  destruct (on_model w m2 _) as [w1 [en|y]]; [|discriminate]. injection H as <-.
  exists i, s1, d1, s2, d2, os, is, en. rewrite G1. repeat (split; [reflexivity|]). simpl. apply dget_dset_eq.
Qed.

(** ** Settings of optimisations *)
Lemma missing_option accepts simconf a m k d sc : sim_configuration (sa_simconf a) simconf = Ok sc -> sa_conf a = CFile (Ok d) ->
  sa_optimizer a = OName m -> known m -> requires m k -> dget k d = None -> new_study accepts simconf a = Raise EKey.
Proof.
  intros Hs Hc Ho Hm Hr Hk. unfold new_study. rewrite Hs, Hc, Ho. cbn [rbind opt_configuration].
  assert (E : oget d k = Raise EKey) by (unfold oget; now rewrite Hk).
  assert (D : forall j, oget d j = Raise EKey \/ exists v, oget d j = Ok v).
  { intros j. unfold oget. destruct (dget j d); [right; eauto|now left]. }
  assert (F : set_optimizer accepts d (OName m) = Raise EKey); [|now rewrite F].
  unfold set_optimizer.
  assert (K : In (m, k) (map (pair "ga"%string) ["number_of_generations"; "crossover_rate"; "mutation_rate"; "elitism"; "number_of_individuals"; "crossover_type"; "mutation_type"; "selection_type"; "selection_param"]%string ++
    map (pair "sade"%string) ["number_of_generations"; "ftol_de"; "xtol_de"; "number_of_individuals"]%string ++
    map (pair "de"%string) ["number_of_generations"; "crossover_rate"; "scale_factor"; "variant_de"; "ftol_de"; "xtol_de"; "number_of_individuals"]%string ++
    map (pair "pso"%string) ["number_of_generations"; "omega_pso"; "eta1_pso"; "eta2_pso"; "max_v_pso"; "variant_pso"; "neighborhood_type_pso"; "neighborhood_param_pso"; "number_of_individuals"]%string)).
  { destruct Hr as [(al & w & Of)|[-> |[-> ->]]].
    - destruct Of as [m k al w Ro| |]; [|cbn; tauto..].
      destruct Ro as [k w Hi|k w Hi|k w Hi|k w Hi]; cbn in Hi; repeat (destruct Hi as [Hi|Hi]; [injection Hi as <- <-; cbn; tauto|]); destruct Hi.
    - unfold known in Hm. cbn in Hm. destruct Hm as [<-|[<-|[<-|[<-|[]]]]]; cbn; tauto.
    - cbn. tauto. }
  clear Hr Hm.
  assert (G : forall j, j = k -> oget d j = Raise EKey) by (now intros j ->).
  cbn [map app In] in K.
  repeat (destruct K as [K|K]; [injection K as <- <-; cbn [String.eqb Ascii.eqb Bool.eqb];
    repeat (match goal with |- rbind (oget d ?j) _ = _ => first [rewrite E; reflexivity | destruct (D j) as [-> |[? ->]]; [reflexivity|cbn [rbind]]] end)|]).
  destruct K.
Qed.

(** ** Tables without names *)
Lemma field_at n k : (k < n)%nat -> nth_error (field_names n) k = Some ("Field " ++ str_nat (S k))%string.
Proof.
  intros H. unfold field_names. rewrite nth_error_map.
  assert (X : nth_error (seq 0 n) k = Some k) by (rewrite (nth_error_nth' _ 0%nat) by (now rewrite seq_length); now rewrite seq_nth).
  now rewrite X.
Qed.
Lemma unnamed_fields {A} (rows : list (list A)) n : (0 < n)%nat -> rows <> [] -> (forall r, In r rows -> List.length r = n) ->
  exists ns, add_rows [] rows = Ok (ns, rows) /\ List.length ns = n /\
    forall k, (k < n)%nat -> nth_error ns k = Some ("Field " ++ str_nat (S k))%string.
Proof.
  intros N R L. destruct rows as [|r rs]; [now destruct R|]. exists (field_names n).
  assert (Len : List.length (field_names n) = n) by (unfold field_names; rewrite map_length; apply seq_length).
  split; [|split; [exact Len|apply field_at]]. cbn [add_rows is_empty]. rewrite (L r (or_introl eq_refl)), Len, Nat.eqb_refl.
  rewrite add_rows_same; [reflexivity|intros E; rewrite E in Len; simpl in Len; lia|]. intros x Hx. rewrite Len. apply L. now right.
Qed.

Lemma tank_refused w : run_script w tank_equations = (w, Raise EAttribute).
Proof. reflexivity. Qed.

(** ** Members of a sum and of a product *)
Lemma total_app l1 l2 v : total_of (l1 ++ l2) v = lift2 Rplus (total_of l1 v) (total_of l2 v).
Proof.
  induction l1 as [|x l1 IH]; cbn [app total_of].
  - unfold lift2, obind. destruct (total_of l2 v); [|reflexivity]. f_equal. lra.
  - rewrite IH. unfold lift2, obind. destruct (den x v), (total_of l1 v), (total_of l2 v); try reflexivity. f_equal. lra.
Qed.
Lemma total_neg l v : total_of (map (SMul (SNum (PInt (-1)))) l) v = obind (total_of l v) (fun x => Some (- x)%R).
Proof.
  induction l as [|x l IH]; cbn [map total_of].
  - cbn. f_equal. lra.
  - rewrite IH. cbn [den num_value]. unfold lift2, obind. destruct (den x v), (total_of l v); try reflexivity. f_equal. simpl. lra.
Qed.
Lemma total_terms e v : total_of (terms e) v = den e v.
Proof.
  assert (One : forall x, total_of [x] v = den x v).
  { intros x. cbn [total_of]. unfold lift2, obind. destruct (den x v); [|reflexivity]. f_equal. lra. }
  induction e; cbn [terms]; try apply One.
  - rewrite total_app, IHe1, IHe2. reflexivity.
  - rewrite total_app, total_neg, IHe1, IHe2. cbn [den]. unfold lift2, obind. destruct (den e1 v), (den e2 v); try reflexivity.
Qed.

Lemma rpow_inverse x : rpow x (-1) = if Req_EM_T x 0 then None else Some (/ x)%R.
Proof.
  unfold rpow. assert (I : Int_part (-1) = (-1)%Z).
  { unfold Int_part. assert (U : up (-1) = 0%Z) by (symmetry; apply tech_up; simpl; lra). rewrite U. reflexivity. }
  destruct (Rlt_dec 0 x) as [P|P].
  - destruct (Req_EM_T x 0) as [E|E]; [lra|]. f_equal. replace (-1)%R with (- (1))%R by lra. rewrite Rpower_Ropp, Rpower_1 by exact P. reflexivity.
  - cbv zeta. rewrite I. destruct (Req_EM_T (-1) (IZR (-1))) as [_|N]; [|now destruct N].
    destruct (Req_EM_T x 0) as [E|E]; [reflexivity|]. f_equal. cbn [powerRZ]. change (Pos.to_nat 1) with 1%nat. now rewrite pow_1.
Qed.
Lemma product_app l1 l2 v : product_of (l1 ++ l2) v = lift2 Rmult (product_of l1 v) (product_of l2 v).
Proof.
  induction l1 as [|x l1 IH]; cbn [app product_of].
  - unfold lift2, obind. destruct (product_of l2 v); [|reflexivity]. f_equal. lra.
  - rewrite IH. unfold lift2, obind. destruct (den x v), (product_of l1 v), (product_of l2 v); try reflexivity. f_equal. lra.
Qed.
Lemma product_inverse l v : product_of (map (fun x => SPow x (SNum (PInt (-1)))) l) v = obind (product_of l v) (fun y => rdiv 1 y).
Proof.
  induction l as [|x l IH]; cbn [map product_of].
  - cbn [obind]. unfold rdiv. destruct (Req_EM_T 1 0) as [E|_]; [lra|]. f_equal. lra.
  - rewrite IH. cbn [den num_value]. unfold lift2, obind, rdiv. destruct (den x v) as [a|]; [|reflexivity]. rewrite rpow_inverse.
    destruct (product_of l v) as [c|].
    + destruct (Req_EM_T a 0) as [E|E].
      * destruct (Req_EM_T (a * c) 0) as [_|N]; [reflexivity|]. destruct N. rewrite E. lra.
      * destruct (Req_EM_T c 0) as [Ec|Ec].
        -- destruct (Req_EM_T (a * c) 0) as [_|N]; [reflexivity|]. destruct N. rewrite Ec. lra.
        -- destruct (Req_EM_T (a * c) 0) as [N|_]; [apply Rmult_integral in N; tauto|]. f_equal. field. tauto.
    + destruct (Req_EM_T a 0); reflexivity.
Qed.
Lemma product_factors e v : product_of (factors e) v = den e v.
Proof.
  assert (One : forall x, product_of [x] v = den x v).
  { intros x. cbn [product_of]. unfold lift2, obind. destruct (den x v); [|reflexivity]. f_equal. lra. }
  induction e; cbn [factors]; try apply One.
  - rewrite product_app, IHe1, IHe2. reflexivity.
  - rewrite product_app, product_inverse, IHe1, IHe2. cbn [den]. unfold lift2, obind, rdiv. destruct (den e1 v), (den e2 v) as [y|]; try reflexivity.
    destruct (Req_EM_T y 0); [reflexivity|]. f_equal. unfold Rdiv. lra.
Qed.
Lemma members_of e v : match e with
  | SAdd _ _ | SSub _ _ => total_of (sx_args e) v = den e v
  | SMul _ _ | SDiv _ _ => product_of (sx_args e) v = den e v
  | _ => True end.
Proof. destruct e; try exact I; first [apply total_terms|apply product_factors]. Qed.

(** ** What the root finder is asked *)
Lemma map_res_fst_in {A B} (f : A -> res B) (d : list (string * A)) l :
  map_res (fun kv => let* r := f (snd kv) in Ok (fst kv, r)) d = Ok l ->
  forall x r, In (x, r) l -> exists a, In (x, a) d /\ f a = Ok r.
Proof.
  revert l. induction d as [|[k a] d IH]; intros l H x r Hi; cbn [map_res fst snd] in H.
  - injection H as <-. destruct Hi.
  - destruct (f a) as [r0|] eqn:Fa; [|discriminate]. cbn [rbind] in H. destruct (map_res _ d) as [l0|] eqn:E; [|discriminate]. cbn [rbind] in H.
    injection H as <-. destruct Hi as [Hi|Hi].
    + injection Hi as <- <-. exists a. split; [now left|exact Fa].
    + destruct (IH _ eq_refl _ _ Hi) as (a' & A1 & A2). exists a'. split; [now right|exact A2].
Qed.
Lemma number_value v r : number_option v = Ok r -> exists n, v = VNum n /\ num_value n = Some r.
Proof.
  unfold number_option. destruct v; try discriminate. unfold real_of. intros H. exists n. split; [reflexivity|]. destruct (num_value n); congruence.
Qed.
Lemma lookup_at {A} (d : dict A) ks : forall l, lookup_all d ks = Ok l -> List.length l = List.length ks /\
  forall i k r, nth_error ks i = Some k -> nth_error l i = Some r -> dget k d = Some r.
Proof.
  induction ks as [|k ks IH]; intros l H; cbn [lookup_all] in H.
  - injection H as <-. split; [reflexivity|]. intros [|i]; discriminate.
  - destruct (dget k d) as [v|] eqn:G; [|discriminate]. destruct (lookup_all d ks) as [l0|] eqn:E; [|discriminate]. cbn [rbind] in H. injection H as <-.
    destruct (IH _ eq_refl) as [L F]. split; [simpl; congruence|]. intros [|i] k' r; cbn [nth_error].
    + intros X Y. congruence.
    + apply F.
Qed.
Lemma guess_read s c v g d vars : sm_conf s = Some c -> opt c "initial_guess" = Ok v -> guess_option v = Ok d -> first_guess 1%R d vars = Ok g -> guessed s vars g.
Proof.
  intros C O G F. unfold guess_option in G. destruct v; try discriminate. unfold first_guess in F.
  exists d0. split; [apply (opt_of s c); assumption|].
  destruct d0 as [|kv d0].
  - cbn in G. injection G as <-. cbn in F. injection F as <-. rewrite repeat_length. split; [reflexivity|]. split; [|congruence]. intros _ r Hr. exact (repeat_spec _ _ _ Hr).
  - assert (N : is_empty d = false).
    { cbn [map_res] in G. destruct (rbind (number_option (snd kv)) _) as [y|]; [|discriminate]. cbn [rbind] in G. destruct (map_res _ d0); [|discriminate]. cbn in G. injection G as <-. reflexivity. }
    rewrite N in F. destruct (lookup_at _ _ _ F) as [L At]. split; [exact L|]. split; [discriminate|]. intros _ i x r Hx Hr.
    specialize (At i x r Hx Hr). apply dget_some_in in At. destruct (map_res_fst_in number_option _ _ G _ _ At) as (a & A1 & A2).
    destruct (number_value _ _ A2) as (n & -> & Nv). eauto.
Qed.

Lemma last_is {A} (l : list A) x : last_of l = Ok x -> exists r, l = r ++ [x].
Proof.
  unfold last_of. intros H. destruct (rev l) as [|y r] eqn:E; [discriminate|]. injection H as ->. exists (rev r).
  rewrite <- (rev_involutive l), E. reflexivity.
Qed.

Lemma asked lib arrays pn ps h st doms sm sanity st' doms' out p b :
  sm_problem sm = Some p -> pr_block p = Some b -> whole_run lib arrays pn ps h st doms sm sanity = (st', doms', Ok (WDict out)) ->
  let eng := lib_roots lib in let es := b_exprs b in let vars := b_varlist b in
  (problem_type b = Some PTLinear ->
     (chosen sm "linear_solver" "sympy" \/ default sm "linear_solver" -> exists others, sympy_solve eng es vars = others ++ [out]) /\
     (chosen sm "linear_solver" "scipy" -> exists x, dense_solve eng es vars = Ok x /\ out = by_name vars x) /\
     (chosen sm "linear_solver" "symbolicsys" -> exists g x, guessed sm vars g /\ root_find eng vars es g = (true, x) /\ out = by_name vars x)) /\
  (problem_type b = Some PTNonlinear ->
     (chosen sm "nonlinear_solver" "sympy" -> exists others, sympy_solve eng es vars = others ++ [out]) /\
     (chosen sm "nonlinear_solver" "*" \/ chosen sm "nonlinear_solver" "symbolicsys" \/ default sm "nonlinear_solver" ->
        exists g g' x, guessed sm vars g /\ improved sm eng vars es g g' /\ root_find eng vars es g' = (true, x) /\ out = by_name vars x)).
Proof.
  intros Hp Hb H eng es vars. destruct (whole_parts _ _ _ _ _ _ _ _ _ _ _ _ _ _ Hp Hb H) as (c & sv & C & S & X). clear H.
  assert (Ch : forall k name v, chosen sm k name -> opt c k = Ok v -> v = VStr name) by (intros k name v Hc; exact (opt_same sm c k _ v C Hc)).
  split; intros T; assert (S' := S); unfold create_solver in S'; rewrite T in S'; injection S' as <-; unfold run_solver in X; injection X as _ X;
    destruct (if sanity then _ else _) as [u|]; try discriminate X; cbn [rbind] in X.
  - bind X. injection X as ->. unfold la_run in E. bind E. split; [|split]; intros Hc; [|rewrite (Ch _ _ _ Hc E0) in E; cbn [name_option] in E..].
    + assert (L : la_lookup (name_option a) = Some MSympy) by (destruct Hc as [Hc|Hc]; [rewrite (Ch _ _ _ Hc E0)|rewrite (opt_same sm c _ _ _ C Hc E0)]; reflexivity).
      rewrite L in E. cbv beta iota in E. unfold la_solve in E. rewrite L in E. cbv beta iota in E. apply last_is. exact E.
    + change (la_lookup (Some "scipy"%string)) with (Some MScipy) in E. cbv beta iota in E. unfold la_solve in E. change (la_lookup (Some "scipy"%string)) with (Some MScipy) in E. cbv beta iota in E.
      bind E. injection E as <-. exists a0. auto.
    + change (la_lookup (Some "symbolicsys"%string)) with (Some MSymbolicSys) in E. cbv beta iota in E. bind E. bind E.
      unfold la_solve in E. change (la_lookup (Some "symbolicsys"%string)) with (Some MSymbolicSys) in E. cbv beta iota in E.
      unfold symbolicsys in E. bind E. destruct (root_find (lib_roots lib) _ _ _) as [[] x] eqn:Er; [|discriminate]. injection E as <-.
      exists a2, x. split; [exact (guess_read _ _ _ _ _ _ C E1 E2 E3)|]. split; [exact Er|reflexivity].
  - bind X. injection X as ->. unfold nla_run in E. bind E. split.
    + intros Hc. rewrite (Ch _ _ _ Hc E0) in E. cbn [name_option] in E. change (nla_lookup (Some "sympy"%string)) with (Ok MSympy) in E. cbn [rbind] in E. apply last_is. exact E.
    + intros Hc. assert (L : nla_lookup (name_option a) = Ok MSymbolicSys) by (destruct Hc as [Hc|[Hc|Hc]]; [rewrite (Ch _ _ _ Hc E0)|rewrite (Ch _ _ _ Hc E0)|rewrite (opt_same sm c _ _ _ C Hc E0)]; reflexivity).
      rewrite L in E. cbn [rbind] in E. bind E. bind E. bind E. unfold nla_solve in E. rewrite L in E. cbn [rbind] in E.
      unfold symbolicsys in E. bind E.
      match type of E with context [root_find _ _ _ ?t] => set (g' := t) in E end.
      destruct (root_find (lib_roots lib) _ _ g') as [[] x] eqn:Er; [|discriminate]. injection E as <-.
      exists a3, g', x. split; [exact (guess_read _ _ _ _ _ _ C E1 E2 E4)|]. split; [|split; [exact Er|reflexivity]].
      split.
      * intros Ho. assert (V : a2 = VNone) by (exact (opt_same sm c _ _ _ C Ho E3)). unfold g'. rewrite V. reflexivity.
      * intros m Ho. assert (V : a2 = VStr m) by (exact (opt_same sm c _ _ _ C Ho E3)). unfold g'. rewrite V. cbn [name_option].
        destruct (polish (lib_roots lib) m (b_varlist b) (b_exprs b) a3) eqn:Ep; unfold eng, vars, es; rewrite Ep; reflexivity.
Qed.

Lemma calculate_none s i T P p r : nth_error (PackageModel.s_pkgs s) i = Some p ->
  PackageModel.the_list s (PackageModel.pk_names p) = None :: r -> PackageModel.calculate s i T P = (s, Raise EKey).
Proof. intros H L. unfold PackageModel.calculate. rewrite H, L. cbn [PackageModel.calc_phases]. now destruct s. Qed.

Lemma unset_raises d k outs w w1 : run_cmds w (d_cons d ++ d_pars d ++ d_vars d) = (w1, Ok tt) ->
  UnitResolveModel.unit_resolve d k None outs w = (w1, outs, Raise EAttribute).
Proof. intros H. unfold UnitResolveModel.unit_resolve. now rewrite H. Qed.

Lemma unit_operators u v k : SpecUnits.a_unit u -> SpecUnits.a_unit v ->
  (exists r, unit_mul_op u (UAUnit v) = Ok (URUnit r) /\ SpecUnits.exponent r k = SpecUnits.combine (fun a b => nadd b a) (SpecUnits.exponent u k) (SpecUnits.exponent v k)) /\
  (exists r, unit_div_op u (UAUnit v) = Ok (URUnit r) /\ ((SpecUnits.exponent v k = None -> SpecUnits.exponent u k = None) -> SpecUnits.exponent r k = SpecUnits.quotient_exponent (SpecUnits.exponent u k) (SpecUnits.exponent v k))) /\
  unit_mul_op u UAOther = Raise EUnexpectedValue /\ unit_div_op u UAOther = Raise EUnexpectedValue.
Proof.
  intros U V. split; [|split; [|split; reflexivity]].
  - exists (unit_mul u v). split; [reflexivity|]. now apply UnitThms.mul_exponents.
  - exists (unit_div u v). split; [reflexivity|]. now apply UnitThms.div_exponents_sub.
Qed.

Lemma flash_undefined k w w1 : run_cmds w (fst (flash_steady_equations (Some k))) = (w1, Ok tt) ->
  run_script w (flash_steady_equations (Some k)) = (w1, Raise EName).
Proof. intros H. unfold run_script. now rewrite H. Qed.

Lemma valve_no_density lib k c w w1 : (k_number k < 2)%Z -> k_star k = Ok c -> l_rho lib c = None ->
  run_cmds w valve_balances = (w1, Ok tt) -> run_script w (valve_equations lib (Some k)) = (w1, Raise EUnexpectedValue).
Proof.
  intros N S D H. unfold run_script, valve_equations, valve_rho. assert (L : (2 <=? k_number k)%Z = false) by (apply Z.leb_gt; exact N).
  rewrite L, S, D. unfold set_property, then_script. cbn [fst snd]. rewrite app_nil_r. rewrite H. reflexivity.
Qed.
