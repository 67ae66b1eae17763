(** Property theorems C59-C63 (printed units, reports, tables, residuals, plots). *)
From Verif Require Import Base Num NumFacts UnitModel UnitFacts Sympy Node Build EquationModel ModelModel ProblemModel SolverModel DomainModel
  SimModel ReportModel
  SpecUnits UnitThms SpecExpr SpecDims SpecModel SpecInc SpecCall SpecProblem SpecSolver SpecSymbols SpecReport
  ProblemFacts SessionFacts UsualFacts DofFacts SolverFacts DomainFacts SymbolFacts OdeFacts ReportFacts Demo Properties07Problems Properties08Solvers
  Properties14Symbols.
From Coq Require Import Reals Lra.
Notation num := Verif.Num.num.

(** ** C59 *)
(** Every unit can be printed. *)
Theorem C59_text : forall pn u, a_unit u -> exists t, unit_str pn u = Ok t.
Proof. intros pn u A. destruct (unit_text pn u A) as (l & _ & E). exact (ex_intro _ _ E). Qed.
Print Assumptions C59_text.

(** Full statement: the text is the same exactly for units of the same dimension.
    Missing: names that are not SI base units and exponents that are not of type
    int; both refuted below. *)
Theorem C59_tells_partial : forall pn u v t, honest_print pn -> a_unit u -> a_unit v -> unit_str pn u = Ok t -> unit_str pn v = Ok t ->
  forall k x y r s, In k si_names -> exponent u k = Some x -> exponent v k = Some y -> nvalue x r -> nvalue y s -> r = s.
Proof. exact text_tells. Qed.
Print Assumptions C59_tells_partial.

Theorem C59_whole_partial : forall pn u v, honest_print pn -> a_unit u -> a_unit v -> whole u -> whole v -> si_only u ->
  (unit_str pn u = unit_str pn v <-> same_dimension u v).
Proof. exact whole_tells. Qed.
Print Assumptions C59_whole_partial.

(** A way to print numbers (not Python's) that keeps different values apart. *)
Fixpoint pos_text (p : positive) (rest : string) : string :=
  match p with
  | xH => String "." rest
  | xO q => String "0" (pos_text q rest)
  | xI q => String "1" (pos_text q rest)
  end.
Definition z_text (z : Z) : string :=
  match z with Z0 => "0" | Zpos p => String "+" (pos_text p "") | Zneg p => String "-" (pos_text p "") end.
Definition num_text (x : num) : string :=
  match x with
  | PInt z => String "i" (z_text z)
  | PFloat (SpecFloat.S754_finite sg m e) => String "f" (String (if sg then "-" else "+") (pos_text m (z_text e)))
  | PFloat (SpecFloat.S754_zero sg) => if sg then "-0.0" else "0.0"
  | PFloat (SpecFloat.S754_infinity sg) => if sg then "-oo" else "oo"
  | PFloat SpecFloat.S754_nan => "nan"
  end.
Lemma pos_text_inj p : forall q a b, pos_text p a = pos_text q b -> p = q /\ a = b.
Proof.
  induction p as [p IH|p IH|]; intros [q|q|] a b H; cbn [pos_text] in H; try discriminate H; injection H as H.
  - destruct (IH _ _ _ H) as [-> ->]. auto.
  - destruct (IH _ _ _ H) as [-> ->]. auto.
  - auto.
Qed.
Lemma z_text_inj a b : z_text a = z_text b -> a = b.
Proof.
  destruct a as [|p|p], b as [|q|q]; cbn [z_text]; intros H; try discriminate H; [reflexivity|..]; injection H as H;
    apply pos_text_inj in H; destruct H as [-> _]; reflexivity.
Qed.
Lemma num_text_inj x y : num_text x = num_text y -> x = y.
Proof.
  destruct x as [a|[[]|[]| |[] m e]], y as [b|[[]|[]| |[] m' e']]; cbn [num_text]; intros H; try discriminate H; try reflexivity.
  - injection H as H. now rewrite (z_text_inj _ _ H).
  - injection H as H. apply pos_text_inj in H. destruct H as [-> H]. now rewrite (z_text_inj _ _ H).
  - injection H as H. apply pos_text_inj in H. destruct H as [-> H]. now rewrite (z_text_inj _ _ H).
Qed.
Lemma pos_text_blank p : forall rest, has_char " " rest = false -> has_char " " (pos_text p rest) = false.
Proof. induction p as [p IH|p IH|]; intros rest H; cbn [pos_text has_char]; simpl; auto. Qed.
Lemma z_text_blank z : has_char " " (z_text z) = false.
Proof. destruct z as [|p|p]; [reflexivity|..]; cbn; now apply pos_text_blank. Qed.
Lemma num_text_honest : honest_print num_text.
Proof.
  split.
  - intros x y r s Hr Hs E. apply num_text_inj in E. subst y. exact (nvalue_unique x r s Hr Hs).
  - intros [z|[[]|[]| |[] m e]]; try reflexivity; cbn; [apply z_text_blank|..]; apply pos_text_blank, z_text_blank.
Qed.

Example C59_case : honest_print num_text /\ a_unit u_m_s /\ whole u_m_s /\ si_only u_m_s /\
  unit_str num_text u_m_s = Ok "m^i+. s^i-." /\ unit_str num_text u_dimless = Ok "".
Proof.
  split; [exact num_text_honest|]. split; [apply au_init; cbn; repeat constructor; simpl; intuition discriminate|].
  split.
  { intros k x H. assert (A : forallb (fun kv => match snd kv with PInt _ => true | _ => false end) (u_dim u_m_s) = true) by (vm_compute; reflexivity).
    rewrite forallb_forall in A. apply BaseFacts.dget_some_in in H. specialize (A _ H). destruct x as [z|]; [eauto|discriminate A]. }
  split.
  { intros k H. unfold exponent in H. assert (E : map fst (u_dim u_m_s) = si_names) by (vm_compute; reflexivity).
    rewrite <- E. destruct (dget k (u_dim u_m_s)) as [x|] eqn:G; [|congruence]. exact (BaseFacts.dget_in_keys _ _ _ G). }
  split; vm_compute; reflexivity.
Qed.

(** (m^2)**0.5 and m are found equal but printed differently. *)
Definition half : num := PFloat (SpecFloat.S754_finite false 4503599627370496 (-53)).
Definition root_unit : unit := unit_pow_num (unit_pow_num u_m (PInt 2)) half.
Theorem C59_float_refuted : exists u v, a_unit u /\ a_unit v /\ (forall k, exponent u k = None <-> exponent v k = None) /\
  coherent u v = Ok true /\ unit_str num_text u <> unit_str num_text v.
Proof.
  exists u_m, root_unit. assert (A : a_unit u_m) by (apply au_init; repeat constructor; simpl; intuition).
  split; [exact A|]. split; [apply au_pow, au_pow, A|]. split.
  { assert (E : map fst (u_dim u_m) = map fst (u_dim root_unit)) by (vm_compute; reflexivity).
    intros k. unfold exponent. rewrite !BaseFacts.dget_none_iff. unfold dkeys. rewrite E. tauto. }
  split; [vm_compute; reflexivity|]. vm_compute. discriminate.
Qed.
Print Assumptions C59_float_refuted.

(** Units of a base dimension of one's own are all printed as nothing. *)
Theorem C59_names_refuted : exists u v t, a_unit u /\ a_unit v /\ unit_str num_text u = Ok t /\ unit_str num_text v = Ok t /\
  coherent u v = Ok false.
Proof.
  exists (unit_init "USD" [("USD", PInt 1)]), (unit_init "USD2" [("USD", PInt 2)]), "".
  split; [apply au_init; repeat constructor; simpl; intuition|]. split; [apply au_init; repeat constructor; simpl; intuition|].
  repeat split; vm_compute; reflexivity.
Qed.
Print Assumptions C59_names_refuted.

(** ** C60 *)
Theorem C60_models : forall acts i m d, let s := run_acts start_session acts in get_model (fst s) i = Some (m, d) ->
  exists rs, model_report (pw_heap (fst s)) m = Ok rs /\ Forall2 (describes (pw_heap (fst s))) (dvals (m_eqs m)) rs.
Proof. exact reports_models. Qed.
Print Assumptions C60_models.

Theorem C60_problem : forall acts s b, resolved acts s b -> exists ts,
  problem_report (fst s) (snd s) = Ok (problem_type b, ts) /\ map fst ts = dkeys (pr_models (snd s)) /\
  Forall2 (describes (pw_heap (fst s))) (b_eqs b) (List.concat (map snd ts)).
Proof. exact report_problem. Qed.
Print Assumptions C60_problem.

(** The quantities of a new equation are those it was written with.  Full
    statement: for all equations; missing: different quantities of one name in one
    equation. *)
Theorem C60_written_partial : forall w a n q check w', run_cmd w (CEq a n q check) = (w', Ok tt) ->
  exists q' e, resolve_eq (attr_qty (w_mod w)) q = Ok q' /\ dget (eq_name e) (m_eqs (w_mod w')) = Some e /\
    dget a (m_attrs (w_mod w')) = Some (AEqn e) /\
    forall h', keeps_objects (w_heap w) h' ->
      (forall l1 l2 o1 o2, eq_occurs l1 q' -> eq_occurs l2 q' -> hget h' l1 = Some o1 -> hget h' l2 = Some o2 -> q_name o1 = q_name o2 -> l1 = l2) ->
      exists r, report_row h' e = Ok r /\ describes h' e r /\
        (forall o, uses_object h' e o <-> exists l, eq_occurs l q' /\ hget h' l = Some o).
Proof. exact report_written. Qed.
Print Assumptions C60_written_partial.

(** Rows without the representation. *)
Definition short (r : rrow) : string * list string * list string * list string * string :=
  (r_name r, r_vars r, r_pars r, r_cons r, r_type r).
Example C60_case : resolved joined_models (final joined_models) (the_block joined_models) /\
  match problem_report (fst (final joined_models)) (snd (final joined_models)) with
  | Ok (t, l) => (t, map (fun x => (fst x, map short (snd x))) l)
  | Raise _ => (None, [])
  end = (Some PTNonlinear,
   [("S", [("e_S", ["q_S"], [], ["c_S(*)"], "linear")]);
    ("R", [("e_R", ["z_R"; "p_R"], ["k_R(*)"], [], "nonlinear"); ("q_S--->p_R", ["p_R"; "q_S"], [], [], "linear")])]).
Proof. split; [apply run_resolved; vm_compute; reflexivity|vm_compute; reflexivity]. Qed.

(** "(specified ones marked as '(*)')": variables that were given a value are not
    marked. *)
Theorem C60_marks_refuted : exists acts s b e r q, resolved acts s b /\ In e (b_eqs b) /\ report_row (pw_heap (fst s)) e = Ok r /\
  uses_object (pw_heap (fst s)) e q /\ q_kind q = KVariable /\ q_spec q = true /\ In (q_name q) (r_vars r) /\ ~ In (starred q) (r_vars r).
Proof.
  exists fixed_variable, (final fixed_variable), (the_block fixed_variable).
  set (h := pw_heap (fst (final fixed_variable))).
  assert (S : map (fun e => match report_row h e with Ok r => Some (r_vars r, option_map (dget "y_M") (eq_objs e)) | Raise _ => None end)
                (b_eqs (the_block fixed_variable)) = [Some (["x_M"; "y_M"], Some (Some 3%nat))]) by (vm_compute; reflexivity).
  assert (Q : hget h 3%nat = Some (mkQty KVariable "y_M" u_m (PInt 3) true "M" false "" false)) by (vm_compute; reflexivity).
  destruct (b_eqs (the_block fixed_variable)) as [|e [|]] eqn:Eb; try discriminate S. cbn [map] in S. injection S as S.
  destruct (report_row h e) as [r|] eqn:Er; [|discriminate S]. injection S as S1 S2.
  exists e, r. eexists. split; [apply run_resolved; vm_compute; reflexivity|]. split; [now left|]. split; [exact Er|]. split.
  - destruct (eq_objs e) as [d|] eqn:Ed; [|discriminate S2]. injection S2 as S2. exists d, "y_M", 3%nat. split; [exact Ed|].
    split; [exact (BaseFacts.dget_some_in _ _ _ S2)|exact Q].
  - split; [reflexivity|]. split; [reflexivity|]. rewrite S1. split; [right; now left|]. cbn. intuition discriminate.
Qed.
Print Assumptions C60_marks_refuted.

(** ** C61 *)
(** Full statement: after every simulation showResults prints the results.
    Missing: dynamic simulations without output_headers; refuted below. *)
Theorem C61_steady_partial : forall pn st acts s b sm c d out, resolved acts s b -> proper_units (pw_heap (fst s)) ->
  sm_problem sm = Some (snd s) -> sm_output sm = Some (OutDict out) -> sm_conf sm = Some c -> opt c "is_dynamic" = Ok d -> is_true d = false ->
  incl (dkeys out) (b_varlist b) ->
  exists rows, show_results pn (pw_heap (fst s)) st sm = Ok (TSteady rows) /\ Forall2 (states_value pn (pw_heap (fst s)) b) out rows.
Proof. exact steady_table. Qed.
Print Assumptions C61_steady_partial.

Theorem C61_run_partial : forall pn h st sm c d times y names, sm_output sm = Some (OutRun times y) -> sm_conf sm = Some c ->
  opt c "is_dynamic" = Ok d -> is_true d = true -> opt c "output_headers" = Ok (VList (map VStr names)) ->
  NoDup names -> names <> [] -> List.length times = List.length y -> (forall r, In r y -> S (List.length r) = List.length names) ->
  show_results pn h st sm = Ok (TRun names (map (fun p => fst p :: snd p) (List.combine times y))).
Proof. exact run_table. Qed.
Print Assumptions C61_run_partial.

Definition shown_sim (c : dict cval) (o : sout) : sim := mkSim (Some (snd (final algebraic))) (Some c) (Some o) VNone None.
Definition demo_run : sout := OutRun [PInt 0; PInt 1] [[PInt 4; PInt 5]; [PInt 6; PInt 7]].
Example C61_case : resolved algebraic (final algebraic) (the_block algebraic) /\ proper_units (pw_heap (fst (final algebraic))) /\
  incl ["y_M"; "x_M"] (b_varlist (the_block algebraic)) /\
  show_results num_text (pw_heap (fst (final algebraic))) store0 (shown_sim conf_defaults (OutDict [("y_M", PInt (-3)); ("x_M", PInt (-1))])) =
    Ok (TSteady [("y_M", "m^i+.", PInt (-3)); ("x_M", "m^i+.", PInt (-1))]) /\
  show_results num_text [] store0 (shown_sim (dset "is_dynamic" (VBool true) (dset "output_headers" (VList [VStr "t"; VStr "x"; VStr "y"]) conf_defaults)) demo_run) =
    Ok (TRun ["t"; "x"; "y"] [[PInt 0; PInt 4; PInt 5]; [PInt 1; PInt 6; PInt 7]]).
Proof.
  split; [apply run_resolved; vm_compute; reflexivity|]. split.
  { intros l q H. apply nth_error_In in H. apply (in_map q_units) in H.
    assert (E : map q_units (pw_heap (fst (final algebraic))) = [u_m; u_m; u_m; u_m]) by (vm_compute; reflexivity). rewrite E in H.
    assert (A : a_unit u_m) by (apply au_init; repeat constructor; simpl; intuition).
    repeat (destruct H as [H|H]; [rewrite <- H; exact A|]). destruct H. }
  split; [assert (E : b_varlist (the_block algebraic) = ["y_M"; "x_M"]) by (vm_compute; reflexivity); rewrite E; apply incl_refl|].
  split; vm_compute; reflexivity.
Qed.

(** setConfigurations(is_dynamic=True) and nothing about headers: TypeError,
    whatever the run. *)
Theorem C61_headers_refuted : exists a sm sm', set_configurations sm a = Ok sm' /\ dget "output_headers" (ca_kwargs a) = None /\
  sm_output sm' = Some demo_run /\ forall pn h st, show_results pn h st sm' = Raise EType.
Proof.
  exists (mkConf [("is_dynamic", VBool true)] VNone None), (shown_sim conf_defaults demo_run).
  eexists. split; [reflexivity|]. split; [reflexivity|]. split; [reflexivity|].
  intros pn h st. eapply run_table_none; reflexivity.
Qed.
Print Assumptions C61_headers_refuted.

(** ** C62 *)
(** Full statement: what is printed as final residual of an equation is its
    residual at the results.  Missing: equations written [lhs == rhs]; refuted
    below. *)
Theorem C62_residuals_partial : forall fx acts s b out, resolved acts s b -> forallb (ordinary fx) acts = true -> called_then_added acts ->
  (forall e, In e (b_eqs b) -> eq_elementary e = false) -> (forall x, In x (b_exprs b) -> has_der x = false /\ is_raw x = false) ->
  NoDup (dkeys out) -> incl (b_varlist b) (dkeys out) ->
  exists rows, final_residuals b out = Ok rows /\ Forall2 (states_residual (bind_env out)) (b_eqs b) rows.
Proof. exact residuals_shown. Qed.
Print Assumptions C62_residuals_partial.

Theorem C62_zero_partial : forall fx acts s b out, resolved acts s b -> forallb (ordinary fx) acts = true -> called_then_added acts ->
  (forall e, In e (b_eqs b) -> eq_elementary e = false) -> (forall x, In x (b_exprs b) -> has_der x = false /\ is_raw x = false) ->
  NoDup (dkeys out) -> incl (b_varlist b) (dkeys out) -> (forall e, In e (b_eqs b) -> SpecSolver.holds (bind_env out) e) ->
  final_residuals b out = Ok (map (fun e => (eq_name e, Some 0%R)) (b_eqs b)).
Proof. exact residuals_zero. Qed.
Print Assumptions C62_zero_partial.

Lemma check_exprs (xs : list sx) : forallb (fun x => negb (has_der x) && negb (is_raw x)) xs = true ->
  forall x, In x xs -> has_der x = false /\ is_raw x = false.
Proof.
  intros H x Hx. rewrite forallb_forall in H. specialize (H x Hx). apply andb_prop in H. destruct H as [A B].
  apply Bool.negb_true_iff in A, B. auto.
Qed.
(** x - (y + 2) at x = 5, y = 1. *)
Example C62_case : resolved residual_form (final residual_form) (the_block residual_form) /\
  forallb (ordinary false) residual_form = true /\ called_then_added residual_form /\
  (forall e, In e (b_eqs (the_block residual_form)) -> eq_elementary e = false) /\
  (forall x, In x (b_exprs (the_block residual_form)) -> has_der x = false /\ is_raw x = false) /\
  incl (b_varlist (the_block residual_form)) ["y_M"; "x_M"] /\
  final_residuals (the_block residual_form) [("y_M", 1%R); ("x_M", 5%R)] = Ok [("e_M", Some 2%R)].
Proof.
  split; [exact (proj1 C45_case)|]. split; [vm_compute; reflexivity|].
  split; [apply (called_added_one _ (firstn 1 residual_form) [] []); vm_compute; reflexivity|].
  split; [exact (proj1 (proj2 C45_case))|]. split; [apply check_exprs; vm_compute; reflexivity|].
  split; [assert (E : b_varlist (the_block residual_form) = ["y_M"; "x_M"]) by (vm_compute; reflexivity); rewrite E; apply incl_refl|].
  unfold final_residuals. assert (E : b_exprs (the_block residual_form) = [SSub (SSym "x_M") (SAdd (SSym "y_M") (SNum (PInt 2)))]) by (vm_compute; reflexivity).
  assert (N : map eq_name (b_eqs (the_block residual_form)) = ["e_M"]) by (vm_compute; reflexivity).
  rewrite E. destruct (b_eqs (the_block residual_form)) as [|e [|]]; try discriminate N. injection N as N.
  cbn [residual_rows is_raw andb rbind]. rewrite N. do 4 f_equal. cbn. f_equal. lra.
Qed.

(** x = -1, y = -3 solves x == y + 2 and y == 3*x; the final residuals printed are
    -1 and -3. *)
Theorem C62_sides_refuted : exists acts s b out, resolved acts s b /\ forallb (ordinary false) acts = true /\ called_then_added acts /\
  (forall x, In x (b_varlist b) <-> In x (dkeys out)) /\ (forall e, In e (b_eqs b) -> SpecSolver.holds (bind_env out) e) /\
  final_residuals b out = Ok [("e_M", Some (-1)%R); ("f_M", Some (-3)%R)].
Proof.
  exists algebraic, (final algebraic), (the_block algebraic), [("y_M", (-3)%R); ("x_M", (-1)%R)].
  split; [apply run_resolved; vm_compute; reflexivity|]. split; [vm_compute; reflexivity|].
  split; [apply (called_added_one _ (firstn 1 algebraic) [] []); vm_compute; reflexivity|].
  split; [assert (E : b_varlist (the_block algebraic) = ["y_M"; "x_M"]) by (vm_compute; reflexivity); rewrite E; intros x; reflexivity|].
  assert (E : b_exprs (the_block algebraic) = [SAdd (SSym "y_M") (SNum (PInt 2)); SMul (SSym "x_M") (SNum (PInt 3))]) by (vm_compute; reflexivity).
  assert (V : map view (b_eqs (the_block algebraic)) =
      [(true, Some (SSym "x_M", ["x_M"], SAdd (SSym "y_M") (SNum (PInt 2))), Some (SSub (SSym "x_M") (SAdd (SSym "y_M") (SNum (PInt 2)))));
       (true, Some (SSym "y_M", ["y_M"], SMul (SSym "x_M") (SNum (PInt 3))), Some (SSub (SSym "y_M") (SMul (SSym "x_M") (SNum (PInt 3)))))])
      by (vm_compute; reflexivity).
  assert (N : map eq_name (b_eqs (the_block algebraic)) = ["e_M"; "f_M"]) by (vm_compute; reflexivity).
  unfold final_residuals. rewrite E.
  destruct (b_eqs (the_block algebraic)) as [|e1 [|e2 [|]]]; try discriminate N. injection N as N1 N2.
  cbn [map view] in V. injection V as _ _ V1 _ _ V2. split.
  - intros e [<-|[<-|[]]].
    + destruct (eq_expr e1) as [n|] eqn:En; [|discriminate V1]. exists n. split; [exact En|]. cbn in V1. injection V1 as ->. cbn. f_equal. lra.
    + destruct (eq_expr e2) as [n|] eqn:En; [|discriminate V2]. exists n. split; [exact En|]. cbn in V2. injection V2 as ->. cbn. f_equal. lra.
  - cbn [residual_rows is_raw andb rbind]. rewrite N1, N2.
    assert (X1 : eval_at (results_dict [("y_M", (-3)%R); ("x_M", (-1)%R)]) (SAdd (SSym "y_M") (SNum (PInt 2))) = Some (-1)%R) by (cbn; f_equal; lra).
    assert (X2 : eval_at (results_dict [("y_M", (-3)%R); ("x_M", (-1)%R)]) (SMul (SSym "x_M") (SNum (PInt 3))) = Some (-3)%R) by (cbn; f_equal; lra).
    rewrite X1, X2. reflexivity.
Qed.
Print Assumptions C62_sides_refuted.

(** ** C63 *)
Theorem C63_columns : forall V (d : domain V) t ts x cx ys labels markers, d_ind d = t :: ts -> d_values d <> None ->
  column d t (LName x) = Some cx -> cx <> [] ->
  (forall n, In n ys -> exists c, column d t (LName n) = Some c /\ List.length c = List.length cx) ->
  (List.length ys <= List.length labels)%nat -> (markers = None \/ exists ms, markers = Some ms /\ (List.length labels <= List.length ms)%nat) ->
  exists cs, plot_time_series (PName x) (PNames ys) (Some labels) markers (Some d) = Ok cs /\ List.length cs = List.length ys /\
    forall j n, nth_error ys j = Some n -> exists l c (cu : curve V), nth_error labels j = Some l /\ column d t (LName n) = Some c /\
      nth_error cs j = Some cu /\ is_curve cx c l cu.
Proof. exact (fun V => @plot_named V). Qed.
Print Assumptions C63_columns.

(** Full statement: for all plots of a recorded run.  Missing: plots without
    labels; refuted below. *)
Theorem C63_recorded_partial : forall V (d d' : domain V) t times y names ys labels,
  cleared d -> d_ind d = [t] -> mx_ok y -> record_run d times y names = (d', Ok tt) ->
  NoDup (map (header names) (d_ind d ++ d_dep d)) -> times <> [] -> dget t names = None -> (List.length ys <= List.length labels)%nat ->
  (forall n, In n ys -> exists x, In x (d_dep d) /\ header names x = n) ->
  exists cs, plot_time_series (PName t) (PNames ys) (Some labels) None (Some d') = Ok cs /\ List.length cs = List.length ys /\
    forall i n j x, nth_error ys i = Some n -> nth_error (d_dep d) j = Some x -> header names x = n ->
      exists l col (cu : curve V), nth_error labels i = Some l /\ trajectory j (mx_rows y) col /\ nth_error cs i = Some cu /\ is_curve times col l cu.
Proof. exact (fun V => @plot_recorded V). Qed.
Print Assumptions C63_recorded_partial.

Definition recorded_demo : domain Z := fst (record_run demo_domain [0; 1; 2] demo_rows [("y_M", "speed")]).
Example C63_case : cleared demo_domain /\ d_ind demo_domain = ["t_M"] /\ mx_ok demo_rows /\
  record_run demo_domain [0; 1; 2] demo_rows [("y_M", "speed")] = (recorded_demo, Ok tt) /\
  NoDup (map (header [("y_M", "speed")]) (d_ind demo_domain ++ d_dep demo_domain)) /\
  (forall n, In n ["speed"; "x_M"] -> exists x, In x (d_dep demo_domain) /\ header [("y_M", "speed")] x = n) /\
  plot_time_series (PName "t_M") (PNames ["speed"; "x_M"]) (Some ["v"; "place"]) None (Some recorded_demo) =
    Ok [mkCurve [0; 1; 2] [5; 7; 9] "v" None; mkCurve [0; 1; 2] [4; 6; 8] "place" None].
Proof.
  split; [exact demo_domain_cleared|]. split; [reflexivity|]. split; [intros r [<-|[<-|[<-|[]]]]; reflexivity|].
  split; [reflexivity|]. split; [repeat constructor; cbn; intuition discriminate|].
  split; [|reflexivity]. intros n [<-|[<-|[]]]; [exists "y_M"|exists "x_M"]; split; try reflexivity; cbn; auto.
Qed.

(** labels=None, the default: TypeError. *)
Theorem C63_labels_refuted : exists (d : domain Z) x ys, plot_time_series (PName x) (PNames ys) (Some ["v"]) None (Some d) =
    Ok [mkCurve [0; 1; 2] [5; 7; 9] "v" None] /\
  plot_time_series (PName x) (PNames ys) None None (Some d) = Raise EType.
Proof. exists recorded_demo, "t_M", ["speed"]. split; reflexivity. Qed.
Print Assumptions C63_labels_refuted.
