(** Facts about differential and differential-algebraic solvers. *)
From Verif Require Import Base BaseFacts Num UnitModel Sympy Node Build EquationModel ModelModel ProblemModel SpecExpr SpecModel SpecProblem
  SolverModel DomainModel SpecSolver BuildFacts EquationFacts ModelFacts ProblemFacts SessionFacts UsualFacts DofFacts SolverFacts.
From Coq Require Import Reals Lra.
Notation num := Verif.Num.num.

Lemma den_agree e en en' : (forall x, In x (plain_syms e) -> e_sym en x = e_sym en' x) ->
  (forall x t, In (x, t) (ders e) -> e_der en x t = e_der en' x t) -> den e en = den e en'.
Proof.
  induction e; cbn [plain_syms ders den]; intros H K; try reflexivity;
    try (now rewrite H by (now left));
    try (rewrite IHe1, IHe2; [reflexivity|..]; intros; first [apply H | apply K]; apply in_or_app; auto).
  - now rewrite IHe.
  - now rewrite K by (now left).
Qed.
Lemma der_free_ders e : der_free e = true -> ders e = [].
Proof.
  induction e; cbn [der_free ders]; intros H; try reflexivity; try discriminate; auto;
    apply andb_prop in H; destruct H as [A B]; now rewrite IHe1, IHe2.
Qed.
Lemma der_free_syms e : der_free e = true -> plain_syms e = fsyms e.
Proof.
  induction e; cbn [der_free plain_syms fsyms]; intros H; try reflexivity; try discriminate; auto;
    apply andb_prop in H; destruct H as [A B]; now rewrite IHe1, IHe2.
Qed.
Lemma has_der_free e : has_der e = negb (der_free e).
Proof. induction e; cbn [has_der der_free]; try reflexivity; auto; now rewrite IHe1, IHe2, Bool.negb_andb. Qed.
Lemma closed_intro names e : incl (fsyms e) names -> der_free e = true -> closed names e = true.
Proof.
  intros I D. unfold closed. rewrite has_der_free, D. cbn [negb]. rewrite Bool.andb_true_r. apply forallb_forall. intros x Hx.
  apply existsb_exists. exists x. split; [now apply I|apply String.eqb_refl].
Qed.
Lemma eval_bound (m : dict R) e en : der_free e = true -> (forall x, In x (fsyms e) -> dget x m = Some (e_sym en x)) ->
  den e (bind_env m) = den e en.
Proof.
  intros D H. apply den_agree.
  - intros x Hx. rewrite der_free_syms in Hx by exact D. cbn. now rewrite H.
  - rewrite der_free_ders by exact D. intros ? ? [].
Qed.

(** ** Explicit systems *)
Section Explicit.
Variable t : string.

Lemma explicit_diff_y es ode : Forall2 (explicit t) es ode -> forall acc,
  NoDup (dkeys acc ++ map fst ode) -> exists y, diff_y acc es = Ok y /\ dkeys y = dkeys acc ++ map fst ode.
Proof.
  induction 1 as [|e [x r] es ode X F IH]; intros acc N; cbn [map fst] in *.
  - exists acc. split; [reflexivity|now rewrite app_nil_r].
  - destruct X as (a & c & n & El & Ee & _ & Ks & _). cbn [fst snd] in *. cbn [diff_y]. unfold sides. rewrite Ee. cbn [rbind fst].
    destruct (nd_smap a) as [|[k l] [|]]; try discriminate. injection Ks as ->.
    change (dupdate acc [(x, l)]) with (dset x l acc).
    assert (Nx : ~ In x (dkeys acc)) by (apply NoDup_remove_2 in N; intros Hx; apply N; apply in_or_app; now left).
    assert (Ka : dkeys (dset x l acc) = dkeys acc ++ [x]) by now apply dkeys_dset_notin.
    destruct (IH (dset x l acc)) as (y & Ey & Ky).
    + rewrite Ka, <- app_assoc. exact N.
    + exists y. split; [exact Ey|]. now rewrite Ky, Ka, <- app_assoc.
Qed.
Lemma explicit_order ps es ode : Forall2 (explicit t) es ode -> diff_y_order ps es = Ok (map fst ode).
Proof.
  unfold diff_y_order. induction 1 as [|e [x r] es ode X F IH]; [reflexivity|]. cbn [map_res map fst].
  destruct X as (a & c & n & El & Ee & Sa & _). cbn [fst snd] in *. unfold sides at 1. rewrite Ee. cbn [rbind fst]. rewrite Sa.
  unfold first_arg at 1, first_member at 1. cbn [is_raw sx_args rbind]. now rewrite IH.
Qed.
Lemma explicit_rhs es ode : Forall2 (explicit t) es ode -> map_res (fun e => get_symbolic e (Some true) SRhs) es = Ok (map snd ode).
Proof.
  induction 1 as [|e [x r] es ode X F IH]; [reflexivity|]. cbn [map_res map snd].
  destruct X as (a & c & n & El & Ee & _ & _ & Sc & _). cbn [fst snd] in *. unfold get_symbolic at 1. rewrite Ee. cbn [rbind]. rewrite Sc, IH. reflexivity.
Qed.
Lemma explicit_analysed e xr : explicit t e xr -> forall s, analysed e s <-> s = snd xr.
Proof.
  intros (a & c & n & El & Ee & _ & _ & Sc & _) s. unfold analysed, get_symbolic. rewrite El, Ee, Sc. split; [now intros H; injection H|now intros ->].
Qed.

Lemma explicit_time pn es ode : prints_numbers pn -> one_word t = true -> str_contains "_" t = true ->
  Forall2 (explicit t) es ode -> closed_system t ode ->
  exists f, has_var pn (Some [t]) es = Ok f /\ (f = true <-> uses_time t ode).
Proof.
  intros P W U F (_ & _ & C).
  assert (A : forall e, In e es -> exists xr, In xr ode /\ explicit t e xr).
  { clear C. induction F as [|e xr es' ode' X F IH]; intros e' [].
    - subst. exists xr. split; [now left|exact X].
    - destruct (IH _ H) as (xr' & H1 & H2). exists xr'. split; [now right|exact H2]. }
  assert (B : forall xr, In xr ode -> exists e, In e es /\ explicit t e xr).
  { clear C A. induction F as [|e xr es' ode' X F IH]; intros xr' [].
    - subst. exists e. split; [now left|exact X].
    - destruct (IH _ H) as (e' & H1 & H2). exists e'. split; [now right|exact H2]. }
  destruct (has_var_exact pn t es P W U) as (f & Ef & Hf).
  - intros e s He Ha. destruct (A e He) as ([x r] & Hx & X). apply (explicit_analysed _ _ X) in Ha. subst s. apply (C x r Hx).
  - intros e He. destruct (A e He) as ([x r] & Hx & X). exists r. now apply (explicit_analysed _ _ X).
  - exists f. split; [exact Ef|]. rewrite Hf. unfold uses_time. split.
    + intros (e & s & He & Ha & Hin). destruct (A e He) as ([x r] & Hx & X). apply (explicit_analysed _ _ X) in Ha. subst s. exists x, r. auto.
    + intros (x & r & Hx & Hin). destruct (B (x, r) Hx) as (e & He & X). exists e, r. split; [exact He|]. split; [|exact Hin]. now apply (explicit_analysed _ _ X).
Qed.

(** Values bound for one call. *)
Definition bound (f : bool) (ode : list (string * sx)) (Y : list R) (tau : R) : dict R :=
  List.combine (map fst ode) Y ++ (if f then [(t, tau)] else []).

Lemma bound_get f ode Y tau en x : closed_system t ode -> state_of t ode Y tau en ->
  In x (map fst ode) \/ x = t /\ f = true -> dget x (bound f ode Y tau) = Some (e_sym en x).
Proof.
  intros (N & Nt & _) (L & S & St) H. unfold bound. rewrite dget_app.
  assert (K : dkeys (List.combine (map fst ode) Y) = map fst ode) by (apply combine_keys; now rewrite map_length).
  destruct H as [H|[-> ->]].
  - destruct (In_nth_error _ _ H) as [j Hj]. rewrite (combine_get _ Y j) by (auto; now rewrite map_length).
    rewrite nth_error_map in Hj. destruct (nth_error ode j) as [[x' r]|] eqn:O; [|discriminate]. injection Hj as <-.
    now rewrite (S j x' r O).
  - assert (G : dget t (List.combine (map fst ode) Y) = None) by (apply dget_none_iff; now rewrite K).
    rewrite G. simpl. now rewrite String.eqb_refl, St.
Qed.
Lemma bound_keys f ode Y tau : List.length Y = List.length ode -> dkeys (bound f ode Y tau) = map fst ode ++ (if f then [t] else []).
Proof.
  intros L. unfold bound, dkeys. rewrite map_app. f_equal; [|now destruct f].
  change (dkeys (List.combine (map fst ode) Y) = map fst ode). apply combine_keys. now rewrite map_length.
Qed.

Lemma ode_rhs pn p b init tn compile s ode Y tau en :
  prints_numbers pn -> one_word t = true -> str_contains "_" t = true -> pr_time p = Some [t] ->
  Forall2 (explicit t) (b_diff b) ode -> closed_system t ode ->
  (compile = true -> b_eqs b = b_diff b /\ ode_unknowns t ode (b_varlist b)) -> ode <> [] ->
  dsolver_init b init tn compile = Ok s -> state_of t ode Y tau en ->
  ode_interface pn p b s Y tau = (b, Ok (map (fun xr => den (snd xr) en) ode)).
Proof.
  intros P W U T F C HC Ne I St. assert (St' := St). destruct St' as (L & _ & _). assert (C' := C). destruct C' as (N & Nt & Cr).
  unfold dsolver_init in I. destruct (match tn with TName s0 => _ | TNames l => _ | TNone => false end); [|discriminate].
  destruct (explicit_diff_y _ _ F [] N) as (y & Ey & Ky). rewrite Ey in I. cbn [rbind] in I. cbn [dkeys map app] in Ky.
  assert (Es : ds_y s = y /\ ds_eqs s = b_diff b /\
               ds_fun s = if compile then Some (b_varlist b, map snd ode) else None).
  { destruct compile; [|injection I as <-; cbn; auto].
    assert (E : is_empty (b_diff b) = false) by (destruct F; [congruence|reflexivity]). rewrite E in I.
    unfold equation_list in I. rewrite (proj1 (HC eq_refl)) in I.
    rewrite (explicit_rhs _ _ F) in I. injection I as <-. cbn; auto. }
  destruct Es as (Sy & Se & Sf). clear I.
  unfold ode_interface. rewrite T. cbn [bind_times].
  destruct (explicit_time pn _ _ P W U F C) as (f & Ef & Hf). rewrite Ef. cbn [rbind].
  assert (D : dof (List.combine (dkeys (ds_y s)) Y) = List.combine (map fst ode) Y).
  { rewrite Sy, Ky. apply dof_nodup_id. rewrite combine_keys by (now rewrite map_length). exact N. }
  rewrite D.
  assert (M : (if f then dset t tau (List.combine (map fst ode) Y) else List.combine (map fst ode) Y) = bound f ode Y tau).
  { unfold bound. destruct f; [|now rewrite app_nil_r]. apply dset_notin. rewrite combine_keys by (now rewrite map_length). exact Nt. }
  rewrite M. rewrite Sf, Se.
  assert (Sym : forall x r z, In (x, r) ode -> In z (fsyms r) -> In z (map fst ode) \/ z = t /\ f = true).
  { intros x r z Hx Hz. destruct (Cr x r Hx) as (Inc & _). destruct (Inc z Hz) as [<-|Hin]; [|now left].
    right. split; [reflexivity|]. apply Hf. exists x, r. auto. }
  destruct compile.
  - destruct (HC eq_refl) as (Beq & Nv & Hv).
    assert (Fl : filter (fun k => negb (mem_str k (b_varlist b))) (dkeys (bound f ode Y tau)) = []).
    { assert (Z : forall k, In k (dkeys (bound f ode Y tau)) -> In k (b_varlist b)).
      { intros k. rewrite bound_keys by exact L. intros Hk. apply in_app_or in Hk. apply Hv. destruct Hk as [Hk|Hk]; [now left|].
        destruct f; [|destruct Hk]. destruct Hk as [<-|[]]. right. split; [reflexivity|now apply Hf]. }
      induction (dkeys (bound f ode Y tau)) as [|k ks IH]; [reflexivity|]. simpl.
      assert (M' : mem_str k (b_varlist b) = true) by (apply mem_str_spec, Z; now left).
      rewrite M'. simpl. apply IH. intros k' Hk. apply Z. now right. }
    rewrite Fl, app_nil_r.
    assert (Get : forall k, In k (b_varlist b) -> dget k (bound f ode Y tau) = Some (e_sym en k)).
    { intros k Hk. apply bound_get; auto. apply Hv in Hk. destruct Hk as [Hk|[-> Hk]]; [now left|right]. split; [reflexivity|now apply Hf]. }
    destruct (lookup_all_ok (bound f ode Y tau) (b_varlist b)) as (vals & Ev & Ov).
    { intros k Hk. rewrite (Get k Hk). discriminate. }
    rewrite Ev. cbn [rbind].
    assert (Wv : with_varlist b (b_varlist b) = b) by (now destruct b). rewrite Wv. f_equal.
    assert (Lv : List.length vals = List.length (b_varlist b)) by apply Ov.
    rewrite dof_nodup_id by (now rewrite combine_keys).
    assert (Vs : dvals (List.combine (b_varlist b) vals) = vals).
    { clear - Lv. revert vals Lv. generalize (b_varlist b) as ks. induction ks as [|k ks IH]; intros [|v vals] H; simpl in *; try discriminate; [reflexivity|]. f_equal. apply IH. lia. }
    rewrite Vs. unfold call_function. rewrite Lv, Nat.eqb_refl.
    assert (G : forall ode', (forall x r, In (x, r) ode' -> In (x, r) ode) ->
      map_res (fun e => if closed (b_varlist b) e then Ok (den e (bind_env (List.combine (b_varlist b) vals))) else Raise EName) (map snd ode') =
      Ok (map (fun xr => den (snd xr) en) ode')).
    { induction ode' as [|[x r] ode' IH]; intros Hin; [reflexivity|]. cbn [map map_res snd].
      assert (Hx := Hin x r (or_introl eq_refl)). destruct (Cr x r Hx) as (Inc & Df & _).
      rewrite closed_intro; [|intros z Hz|exact Df].
      - cbn [rbind]. rewrite IH by (intros x' r' H'; apply Hin; now right). cbn [rbind]. f_equal. f_equal.
        apply eval_bound; [exact Df|]. intros z Hz.
        assert (Zv : In z (b_varlist b)).
        { apply Hv. destruct (Sym x r z Hx Hz) as [H|[-> H]]; [now left|right]. split; [reflexivity|now apply Hf]. }
        destruct (In_nth_error _ _ Zv) as [i Hi]. rewrite (combine_get _ vals i) by auto.
        destruct Ov as [_ Ov]. rewrite (Ov i z Hi). now apply Get.
      - apply Hv. destruct (Sym x r z Hx Hz) as [H|[-> H]]; [now left|right]. split; [reflexivity|now apply Hf]. }
    apply G. auto.
  - f_equal. clear Ne HC Sf Ey. revert Cr Sym.
    assert (Q : forall x r, In (x, r) ode -> (forall z, In z (fsyms r) -> In z (map fst ode) \/ z = t /\ f = true) -> der_free r = true ->
      eval_at (bound f ode Y tau) r = den r en).
    { intros x r Hx Hz Df. unfold eval_at. rewrite closed_intro; [|intros z Hin|exact Df].
      - apply eval_bound; [exact Df|]. intros z Hin. apply bound_get; auto.
      - rewrite bound_keys by exact L. apply in_or_app. destruct (Hz z Hin) as [H|[-> ->]]; [now left|right; now left]. }
    intros Cr Sym.
    assert (Q' : forall x r, In (x, r) ode -> eval_at (bound f ode Y tau) r = den r en).
    { intros x r Hx. apply (Q x r Hx); [intros z Hz; now apply (Sym x r)|]. now apply (Cr x r Hx). }
    revert Q'. generalize (bound f ode Y tau) as m. clear - F. intros m Q'. induction F as [|e [x r] es ode X F IH]; [reflexivity|].
    cbn [map_res map snd]. unfold eval_target at 1. destruct X as (a & c & n & El & Ee & _ & _ & Sc & _). rewrite Ee. cbn [rbind snd] in *.
    rewrite Sc, IH by (intros x' r' H'; apply (Q' x'); now right). cbn [rbind]. rewrite (Q' x r) by now left. reflexivity.
Qed.

Lemma ode_initial ps b init tn compile s ode :
  Forall2 (explicit t) (b_diff b) ode -> dsolver_init b init tn compile = Ok s ->
  (forall y0, initial_state ps s init = Ok y0 -> in_order (map fst ode) init y0) /\
  ((exists x, In x (map fst ode) /\ dget x init = None) -> initial_state ps s init = Raise EKey) /\
  ((forall x, In x (map fst ode) -> dget x init <> None) -> exists y0, initial_state ps s init = Ok y0).
Proof.
  intros F I. assert (Se : ds_eqs s = b_diff b).
  { unfold dsolver_init in I. destruct (match tn with TName s0 => _ | TNames l => _ | TNone => false end); [|discriminate].
    destruct (diff_y [] (b_diff b)) as [y|]; [|discriminate]. cbn [rbind] in I. destruct compile; [|now injection I as <-].
    destruct (if is_empty (b_diff b) then _ else _) as [l|]; [|discriminate]. now injection I as <-. }
  unfold initial_state. rewrite Se, (explicit_order ps _ _ F). cbn [rbind]. split; [|split].
  - intros y0 H. now apply lookup_all_inv in H.
  - apply lookup_all_missing.
  - intros H. destruct (lookup_all_ok init (map fst ode) H) as (l & E & _). eauto.
Qed.

(** What is integrated is the equation. *)
Lemma ode_faithful e x r en : explicit t e (x, r) -> den r en = Some (e_der en x t) -> holds en e.
Proof.
  intros (a & c & n & _ & _ & _ & _ & _ & En & Sn) D. exists n. split; [exact En|]. rewrite Sn. cbn. cbn in D. rewrite D. cbn. f_equal. lra.
Qed.
End Explicit.

(** ** Written equations *)
Lemma written_explicit h lx lt qx qt r arg nm e : hget h lx = Some qx -> hget h lt = Some qt -> q_spec qx = false ->
  build_eq h (UElem (UDiff lx (Some lt)) r) = Ok arg -> set_residual (blank_eqn nm) arg = (e, Ok tt) ->
  exists b, build h r = Ok b /\ explicit (q_name qt) e (q_name qx, nd_sym b).
Proof.
  intros Hx Ht Sx B S. cbn [build_eq] in B. destruct (build h (UDiff lx (Some lt))) as [a|] eqn:Ea; [|discriminate].
  destruct (build h r) as [b|] eqn:Eb; [|discriminate]. cbn [rbind node_eq] in B. injection B as <-.
  exists b. split; [reflexivity|]. cbn [set_residual] in S.
  destruct (node_sub a (ONode b)) as [d|] eqn:Ed; [|discriminate]. unfold finish_residual in S. cbn in S. injection S as <-.
  cbn [build] in Ea. unfold build_diff in Ea. rewrite Hx, Ht in Ea. destruct (negb (qkind_eqb (q_kind qx) KVariable)); [discriminate|].
  unfold var_diff in Ea. destruct (negb (q_domain qx)); [discriminate|]. destruct (q_spec qt); [discriminate|].
  rewrite Sx in Ea. injection Ea as <-. cbn [node_sub nd_sym nd_unit] in Ed.
  destruct (unit_sub _ _) as [u|]; [|discriminate]. cbn [rbind] in Ed. injection Ed as <-.
  do 3 eexists. split; [reflexivity|]. split; [reflexivity|]. split; [reflexivity|]. cbn [nd_smap].
  split; [unfold qty_call; now rewrite Sx|]. split; [reflexivity|]. split; reflexivity.
Qed.

(** Reading equations off. *)
Definition view (e : eqn) : bool * option (sx * list string * sx) * option sx :=
  (eq_elementary e, option_map (fun ac => (nd_sym (fst ac), dkeys (nd_smap (fst ac)), nd_sym (snd ac))) (eq_elem e),
   option_map nd_sym (eq_expr e)).
Definition explicit_view (t : string) (xr : string * sx) : bool * option (sx * list string * sx) * option sx :=
  (true, Some (SDer (fst xr) t, [fst xr], snd xr), Some (SSub (SDer (fst xr) t) (snd xr))).
Lemma view_explicit t e xr : view e = explicit_view t xr -> explicit t e xr.
Proof.
  unfold view, explicit_view, explicit. intros H. injection H as A B C.
  destruct (eq_elem e) as [[a c]|]; [|discriminate]. destruct (eq_expr e) as [n|]; [|discriminate].
  cbn in B, C. injection B as B1 B2 B3. injection C as C. exists a, c, n. auto 8.
Qed.
Lemma views_explicit t es ode : map view es = map (explicit_view t) ode -> Forall2 (explicit t) es ode.
Proof.
  revert ode. induction es as [|e es IH]; intros [|xr ode] H; try discriminate; [constructor|].
  cbn [map] in H. injection H as A B C D. constructor; [|now apply IH]. apply view_explicit. unfold view. now rewrite A, B, C.
Qed.
