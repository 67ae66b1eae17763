(** Property theorems C57, C27 and C94, continued: sessions that connect by
    expressions, write further equations and set values after the declarations. *)
From Verif Require Import Base Num UnitModel Sympy Node Build EquationModel ModelModel ProblemModel SolverModel
  SpecUnits SpecExpr SpecDims SpecModel SpecInc SpecCall SpecProblem SpecSymbols ProblemFacts SessionFacts UsualFacts DofFacts
  ConnFacts SymbolFacts CountFacts SimModel SpecSolver ReportModel SpecReport Demo Properties07Problems Properties08Solvers Properties14Symbols Properties15Reports Properties16Written Properties48Counts SpecSettled SettledFacts.
From Coq Require Import Reals Lra.
Notation num := Verif.Num.num.

(** ** C57 *)
(** Every equation, also of connections and later statements, is written with
    variables and with quantities that have a value then.  Missing: incorporated
    models. *)
Theorem C57_settled_partial : forall fx acts s b e x, resolved acts s b -> all_settled fx start_session acts -> called_then_added acts ->
  In e (b_eqs b) -> has_symbol e x -> In x (b_varlist b).
Proof. exact settled_symbols. Qed.
Print Assumptions C57_settled_partial.

Theorem C57_settled_unknowns_partial : forall acts s b x, resolved acts s b -> all_settled false start_session acts -> called_then_added acts ->
  In x (b_varlist b) -> exists e n, In e (b_eqs b) /\ eq_expr e = Some n /\ In x (fsyms (nd_sym n)).
Proof. exact settled_unknowns. Qed.
Print Assumptions C57_settled_unknowns_partial.

Theorem C57_settled_function_partial : forall fx acts s b args, resolved acts s b -> all_settled fx start_session acts -> called_then_added acts ->
  (forall e, In e (b_exprs b) -> has_der e = false) -> List.length args = List.length (b_varlist b) ->
  exists vs, call_function (b_varlist b) (b_exprs b) args = Ok vs /\ List.length vs = List.length (b_eqs b).
Proof. exact settled_function. Qed.
Print Assumptions C57_settled_function_partial.

(** The sessions of the earlier theorems are among these. *)
Theorem C57_ordinary_settled : forall fx acts, forallb (ordinary fx) acts = true -> all_settled fx start_session acts.
Proof. exact (fun fx acts => ordinary_settled fx acts start_session). Qed.
Print Assumptions C57_ordinary_settled.

(** ** C27 *)
Theorem C27_settled_partial : forall pn acts s b t, prints_numbers pn -> resolved acts s b -> distinct_models acts ->
  all_settled false start_session acts -> called_then_added acts ->
  pr_time (snd s) = Some [t] -> one_word t = true -> str_contains "_" t = true ->
  (forall e r, In e (b_eqs b) -> eq_type e = Some CDifferential -> analysed e r -> der_free r = true /\ readable t r /\ r <> SSym t) ->
  exists names known, NoDup names /\ (forall x, In x names <-> exists e, In e (b_eqs b) /\ has_symbol e x) /\
    (known = 1%nat /\ time_occurs t (b_eqs b) \/ known = 0%nat /\ ~ time_occurs t (b_eqs b)) /\
    dof_test pn (pw_heap (fst s)) (snd s) =
      if Nat.eqb (List.length names + unspecified_pars (pw_heap (fst s)) (b_pars b)) (list_sum (map (equation_count s) (added acts)) + known)
      then Ok true else Raise EException.
Proof. exact settled_counts. Qed.
Print Assumptions C27_settled_partial.

(** ** C94 *)
Theorem C94_settled_partial : forall acts s b, resolved acts s b -> all_settled false start_session acts -> called_then_added acts ->
  NoDup (b_varlist b) /\ forall x, In x (b_varlist b) <-> exists e, In e (b_eqs b) /\ has_symbol e x.
Proof. exact settled_listed. Qed.
Print Assumptions C94_settled_partial.

(** ** C62 *)
(** Full statement: what is printed as final residual of an equation is its
    residual at the results, now for these sessions too.  Missing: equations
    written [lhs == rhs] (C62_sides_refuted), incorporated models. *)
Theorem C62_settled_partial : forall fx acts s b out, resolved acts s b -> all_settled fx start_session acts -> called_then_added acts ->
  (forall e, In e (b_eqs b) -> eq_elementary e = false) -> (forall x, In x (b_exprs b) -> has_der x = false /\ is_raw x = false) ->
  NoDup (dkeys out) -> incl (b_varlist b) (dkeys out) ->
  exists rows, final_residuals b out = Ok rows /\ Forall2 (states_residual (bind_env out)) (b_eqs b) rows.
Proof. exact settled_residuals. Qed.
Print Assumptions C62_settled_partial.

(** x - (y + 2) and, written after the call, x - 3*y. *)
Definition residuals_later : list act :=
  firstn 2 residual_form ++
  [AStmt 0%nat (CEq "g" "g" (UResid (UBin BSub (UQty "x") (UNumR BMul (UQty "y") (PInt 3)))) true)] ++ [AAdd 0%nat].
Example C62_settled_case : resolved residuals_later (final residuals_later) (the_block residuals_later) /\
  all_settled false start_session residuals_later /\ called_then_added residuals_later /\
  (forall e, In e (b_eqs (the_block residuals_later)) -> eq_elementary e = false) /\
  (forall x, In x (b_exprs (the_block residuals_later)) -> has_der x = false /\ is_raw x = false) /\
  b_varlist (the_block residuals_later) = ["y_M"; "x_M"] /\ List.length (b_eqs (the_block residuals_later)) = 2%nat.
Proof.
  split; [apply run_resolved; vm_compute; reflexivity|]. split.
  { apply settled_app; [apply ordinary_settled; vm_compute; reflexivity|]. set (s1 := run_acts start_session _).
    apply settled_app; [split; [|exact I]|apply ordinary_settled; reflexivity].
    cbn [settled]. intros m q' Hm Hq. apply (known_list_ok _ _ [0; 1]%nat); [|vm_compute; reflexivity].
    assert (E1 : option_map (fun m => resolve_eq (attr_qty m) (UResid (UBin BSub (UQty "x") (UNumR BMul (UQty "y") (PInt 3))))) (model_of s1 0%nat) =
                 Some (Ok (UResid (UBin BSub (UQty 1%nat) (UNumR BMul (UQty 0%nat) (PInt 3)))))) by (vm_compute; reflexivity).
    rewrite Hm in E1. cbn [option_map] in E1. rewrite Hq in E1. injection E1 as ->. intros l. cbn [eq_occurs occurs In]. tauto. }
  split; [apply (called_added_one _ (firstn 1 residuals_later) (firstn 1 (skipn 2 residuals_later)) []); vm_compute; reflexivity|].
  split; [|split; [apply check_exprs; vm_compute; reflexivity|split; vm_compute; reflexivity]].
  assert (F : forallb (fun e => negb (eq_elementary e)) (b_eqs (the_block residuals_later)) = true) by (vm_compute; reflexivity).
  intros e He. rewrite forallb_forall in F. apply Bool.negb_true_iff. exact (F e He).
Qed.

(** The two models of C57_case, joined by the expressions q*k and p*k; then k is
    set again and a further equation written. *)
Definition joined_later : list act :=
  [ANew "S" set_source; ANew "R" set_sink; ACall 0%nat; ACall 1%nat] ++
  [AConnN (CMModel 0%nat) 1%nat (UBin BMul (UQty 1%nat) (UQty 2%nat)) (UBin BMul (UQty 3%nat) (UQty 2%nat))] ++
  [AStmt 1%nat (CSet "k" (SANum (PInt 7)) None)] ++
  [AStmt 1%nat (CEq "g" "g" (UElem (UQty "z") (UQty "k")) true)] ++
  [AAdd 0%nat; AAdd 1%nat; ATime ["t_R"]].
Example C57_settled_case : resolved joined_later (final joined_later) (the_block joined_later) /\
  all_settled false start_session joined_later /\ called_then_added joined_later /\ distinct_models joined_later /\
  b_varlist (the_block joined_later) = ["q_S"; "p_R"; "z_R"] /\ List.length (b_eqs (the_block joined_later)) = 4%nat /\
  pr_time (snd (final joined_later)) = Some ["t_R"] /\
  (forall e, In e (b_eqs (the_block joined_later)) -> eq_type e <> Some CDifferential) /\
  (forall e, In e (b_exprs (the_block joined_later)) -> has_der e = false) /\
  dof_test print_one (pw_heap (fst (final joined_later))) (snd (final joined_later)) = Raise EException.
Proof.
  split; [apply run_resolved; vm_compute; reflexivity|]. split.
  { apply settled_app; [apply ordinary_settled; vm_compute; reflexivity|]. set (s1 := run_acts start_session _).
    apply settled_app; [split; [|exact I]|].
    { cbn [settled]. apply (known_list_ok _ _ [1; 2; 3]%nat); [|vm_compute; reflexivity]. intros l. cbn [occurs In]. tauto. }
    set (s2 := run_acts s1 _). apply settled_app; [split; [|exact I]|].
    { cbn [settled]. right. intros m l o Hm Ha Ho.
      assert (E1 : option_map (fun m => attr_qty m "k") (model_of s2 1%nat) = Some (Ok 2%nat)) by (vm_compute; reflexivity).
      rewrite Hm in E1. cbn [option_map] in E1. rewrite Ha in E1. injection E1 as ->.
      assert (E2 : option_map q_kind (hget (pw_heap (fst s2)) 2%nat) = Some KParameter) by (vm_compute; reflexivity).
      rewrite Ho in E2. cbn [option_map] in E2. injection E2 as ->. discriminate. }
    set (s3 := run_acts s2 _). apply settled_app; [split; [|exact I]|].
    { cbn [settled]. intros m q' Hm Hq. apply (known_list_ok _ _ [2; 4]%nat); [|vm_compute; reflexivity].
      assert (E1 : option_map (fun m => resolve_eq (attr_qty m) (UElem (UQty "z") (UQty "k"))) (model_of s3 1%nat) =
                   Some (Ok (UElem (UQty 4%nat) (UQty 2%nat)))) by (vm_compute; reflexivity).
      rewrite Hm in E1. cbn [option_map] in E1. rewrite Hq in E1. injection E1 as ->. intros l. cbn [eq_occurs occurs In]. tauto. }
    apply ordinary_settled. reflexivity. }
  split. { apply (called_added_two _ (firstn 2 joined_later) (firstn 4 (skipn 3 joined_later)) [AAdd 1%nat; ATime ["t_R"]]
             (firstn 3 joined_later) (firstn 4 (skipn 4 joined_later)) [ATime ["t_R"]]); vm_compute; reflexivity. }
  split; [apply (two_distinct joined_later "S" "R"); [vm_compute; reflexivity|discriminate]|].
  split; [vm_compute; reflexivity|]. split; [vm_compute; reflexivity|]. split; [vm_compute; reflexivity|].
  split; [|split; [|vm_compute; reflexivity]].
  - assert (F : forallb (fun e => match eq_type e with Some CDifferential => false | _ => true end) (b_eqs (the_block joined_later)) = true)
      by (vm_compute; reflexivity).
    intros e He T. rewrite forallb_forall in F. specialize (F e He). rewrite T in F. discriminate F.
  - assert (F : forallb (fun e => negb (has_der e)) (b_exprs (the_block joined_later)) = true) by (vm_compute; reflexivity).
    intros e He. rewrite forallb_forall in F. apply Bool.negb_true_iff. exact (F e He).
Qed.
