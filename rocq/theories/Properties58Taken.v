(** Property theorems C57, C27, C94 and C62, continued: sessions whose models take
    in other models. *)
From Verif Require Import Base Num UnitModel Sympy Node Build EquationModel ModelModel ProblemModel SolverModel
  SpecUnits SpecExpr SpecDims SpecModel SpecInc SpecCall SpecProblem SpecSymbols ProblemFacts SessionFacts UsualFacts DofFacts
  ConnFacts SymbolFacts CountFacts SimModel SpecSolver ReportModel SpecReport Demo Properties07Problems Properties08Solvers Properties14Symbols Properties15Reports Properties16Written Properties48Counts SpecSettled SettledFacts
  SpecTaken TakenFacts.
From Coq Require Import Reals Lra.
Notation num := Verif.Num.num.

(** ** C57 *)
(** Full statement: every symbol of an equation of a problem is an unknown of it.
    Now models may also declare variables later and take in other models with all
    they have, as long as their equations are written with their own quantities.
    Missing: models taken in by halves, under the old names, or with equations of
    connections. *)
Theorem C57_taken_partial : forall fx acts s b e x, resolved acts s b -> all_gathered fx start_session acts -> added_with_variables acts s b ->
  In e (b_eqs b) -> has_symbol e x -> In x (b_varlist b).
Proof. exact gathered_symbols. Qed.
Print Assumptions C57_taken_partial.

Theorem C57_taken_unknowns_partial : forall acts s b x, resolved acts s b -> all_gathered false start_session acts ->
  In x (b_varlist b) -> exists e n, In e (b_eqs b) /\ eq_expr e = Some n /\ In x (fsyms (nd_sym n)).
Proof. exact gathered_unknowns. Qed.
Print Assumptions C57_taken_unknowns_partial.

Theorem C57_taken_function_partial : forall fx acts s b args, resolved acts s b -> all_gathered fx start_session acts -> added_with_variables acts s b ->
  (forall e, In e (b_exprs b) -> has_der e = false) -> List.length args = List.length (b_varlist b) ->
  exists vs, call_function (b_varlist b) (b_exprs b) args = Ok vs /\ List.length vs = List.length (b_eqs b).
Proof. exact gathered_function. Qed.
Print Assumptions C57_taken_function_partial.

(** The sessions of the earlier theorems are among these. *)
Theorem C57_settled_taken : forall fx acts, all_settled fx start_session acts -> all_gathered fx start_session acts.
Proof. exact (fun fx acts => settled_gathered fx acts start_session). Qed.
Print Assumptions C57_settled_taken.

(** ** C27 *)
Theorem C27_taken_partial : forall pn acts s b t, prints_numbers pn -> resolved acts s b -> distinct_models acts ->
  all_gathered false start_session acts -> added_with_variables acts s b ->
  pr_time (snd s) = Some [t] -> one_word t = true -> str_contains "_" t = true ->
  (forall e r, In e (b_eqs b) -> eq_type e = Some CDifferential -> analysed e r -> der_free r = true /\ readable t r /\ r <> SSym t) ->
  exists names known, NoDup names /\ (forall x, In x names <-> exists e, In e (b_eqs b) /\ has_symbol e x) /\
    (known = 1%nat /\ time_occurs t (b_eqs b) \/ known = 0%nat /\ ~ time_occurs t (b_eqs b)) /\
    dof_test pn (pw_heap (fst s)) (snd s) =
      if Nat.eqb (List.length names + unspecified_pars (pw_heap (fst s)) (b_pars b)) (list_sum (map (equation_count s) (added acts)) + known)
      then Ok true else Raise EException.
Proof. exact gathered_counts. Qed.
Print Assumptions C27_taken_partial.

(** ** C94 *)
Theorem C94_taken_partial : forall acts s b, resolved acts s b -> all_gathered false start_session acts -> added_with_variables acts s b ->
  NoDup (b_varlist b) /\ forall x, In x (b_varlist b) <-> exists e, In e (b_eqs b) /\ has_symbol e x.
Proof. exact gathered_listed. Qed.
Print Assumptions C94_taken_partial.

(** ** C62 *)
(** Full statement: what is printed as final residual of an equation is its
    residual at the results.  Missing: equations written [lhs == rhs]
    (C62_sides_refuted), the models missing above. *)
Theorem C62_taken_partial : forall fx acts s b out, resolved acts s b -> all_gathered fx start_session acts -> added_with_variables acts s b ->
  (forall e, In e (b_eqs b) -> eq_elementary e = false) -> (forall x, In x (b_exprs b) -> has_der x = false /\ is_raw x = false) ->
  NoDup (dkeys out) -> incl (b_varlist b) (dkeys out) ->
  exists rows, final_residuals b out = Ok rows /\ Forall2 (states_residual (bind_env out)) (b_eqs b) rows.
Proof. exact gathered_residuals. Qed.
Print Assumptions C62_taken_partial.

(** A has x - k with k = 4; B takes in A, declares y and, after its call, z, and
    has y - 3*x and z - y. *)
Definition donor_script : decls :=
  mkDecls [] [CPar "k" "k" u_one (PInt 0); CSet "k" (SANum (PInt 4)) None] [CVar "x" "x" u_one false "" (PInt 0)]
          [CEq "e" "e" (UResid (UBin BSub (UQty "x") (UQty "k"))) true].
Definition taking_first : list act :=
  [ANew "A" donor_script; ACall 0%nat; ANew "B" (mkDecls [] [] [CVar "y" "y" u_one false "" (PInt 0)] [])].
Definition taking_rest : list act := [ACall 1%nat; AStmt 1%nat (CVar "z" "z" u_one false "" (PInt 0))].
Definition later_f : ueq string := UResid (UBin BSub (UQty "y") (UNumR BMul (UQty "x") (PInt 3))).
Definition later_g : ueq string := UResid (UBin BSub (UQty "z") (UQty "y")).
Definition taking_in : list act :=
  ((taking_first ++ [AInc 1%nat 0%nat inc_default]) ++ taking_rest) ++ [AStmt 1%nat (CEq "f" "f" later_f true)] ++ [AStmt 1%nat (CEq "g" "g" later_g true)] ++ [AAdd 1%nat; ATime ["t_B"]].

(** A further equation, in a state that is known. *)
Lemma equation_gathered fx s i a n q check ls q' : option_map (fun m => resolve_eq (attr_qty m) q) (model_of s i) = Some (Ok q') ->
  (forall l, eq_occurs l q' -> In l ls) -> known_list (pw_heap (fst s)) ls = true -> all_gathered fx s [AStmt i (CEq a n q check)].
Proof.
  intros E I K. split; [|exact Logic.I]. cbn [gathered settled]. intros m q0 Hm Hq. rewrite Hm in E. cbn [option_map] in E. rewrite Hq in E. injection E as ->.
  exact (known_list_ok _ _ ls I K).
Qed.
Lemma incorporation_gathered fx s i j : match model_of s i, model_of s j with Some m, Some d => takesb (pw_heap (fst s)) d m | _, _ => false end = true ->
  all_gathered fx s [AInc i j inc_default].
Proof.
  intros E. split; [|exact I]. cbn [gathered]. intros m d Hm Hd. rewrite Hm, Hd in E. now apply takesb_ok.
Qed.

Lemma taking_gathered : all_gathered false start_session taking_in.
Proof.
  unfold taking_in. apply gathered_app; [apply gathered_app; [apply gathered_app|]|apply gathered_app; [|apply gathered_app]].
  - apply settled_gathered, ordinary_settled. vm_compute. reflexivity.
  - apply incorporation_gathered. vm_compute. reflexivity.
  - repeat split.
  - apply equation_gathered with (ls := [4; 2]%nat) (q' := UResid (UBin BSub (UQty 4%nat) (UNumR BMul (UQty 2%nat) (PInt 3)))); try (vm_compute; reflexivity).
    intros l. cbn [eq_occurs occurs In]. tauto.
  - apply equation_gathered with (ls := [4; 5]%nat) (q' := UResid (UBin BSub (UQty 5%nat) (UQty 4%nat))); try (vm_compute; reflexivity).
    intros l. cbn [eq_occurs occurs In]. tauto.
  - repeat split.
Qed.
Lemma taking_added : added_with_variables taking_in (final taking_in) (the_block taking_in).
Proof.
  set (before := ((taking_first ++ [AInc 1%nat 0%nat inc_default]) ++ taking_rest) ++ [AStmt 1%nat (CEq "f" "f" later_f true)] ++ [AStmt 1%nat (CEq "g" "g" later_g true)]).
  assert (E : option_map (fun m => dkeys (m_vars m)) (model_of (run_acts start_session before) 1%nat) = Some ["x_B"; "y_B"; "z_B"]) by (vm_compute; reflexivity).
  destruct (model_of (run_acts start_session before) 1%nat) as [m|] eqn:Em; [|discriminate E]. cbn [option_map] in E. injection E as E.
  apply (added_by taking_in before 1%nat [ATime ["t_B"]] m _ _ _ eq_refl Em (eq_sym E)). vm_compute. reflexivity.
Qed.
Example C57_taken_case : resolved taking_in (final taking_in) (the_block taking_in) /\ all_gathered false start_session taking_in /\
  added_with_variables taking_in (final taking_in) (the_block taking_in) /\
  (forall e, In e (b_eqs (the_block taking_in)) -> eq_elementary e = false) /\
  (forall x, In x (b_exprs (the_block taking_in)) -> has_der x = false /\ is_raw x = false) /\
  b_varlist (the_block taking_in) = ["x_B"; "y_B"; "z_B"] /\ List.length (b_eqs (the_block taking_in)) = 3%nat /\
  distinct_models taking_in /\ pr_time (snd (final taking_in)) = Some ["t_B"] /\
  (forall e, In e (b_eqs (the_block taking_in)) -> eq_type e <> Some CDifferential) /\
  dof_test print_one (pw_heap (fst (final taking_in))) (snd (final taking_in)) = Ok true.
Proof.
  split; [apply run_resolved; vm_compute; reflexivity|]. split; [exact taking_gathered|]. split; [exact taking_added|].
  assert (A : forallb (fun e => negb (eq_elementary e)) (b_eqs (the_block taking_in)) = true) by (vm_compute; reflexivity).
  assert (B : forallb (fun x => negb (has_der x) && negb (is_raw x)) (b_exprs (the_block taking_in)) = true) by (vm_compute; reflexivity).
  rewrite forallb_forall in A, B. split; [intros e He; specialize (A e He); clear He; destruct (eq_elementary e); [discriminate A|reflexivity]|].
  split; [intros x Hx; specialize (B x Hx); clear Hx; destruct (has_der x), (is_raw x); try discriminate B; split; reflexivity|].
  split; [vm_compute; reflexivity|]. split; [vm_compute; reflexivity|].
  split; [apply (two_distinct taking_in "A" "B"); [vm_compute; reflexivity|discriminate]|]. split; [vm_compute; reflexivity|].
  split; [|vm_compute; reflexivity].
  assert (F : forallb (fun e => match eq_type e with Some CDifferential => false | _ => true end) (b_eqs (the_block taking_in)) = true)
    by (vm_compute; reflexivity).
  intros e He T. rewrite forallb_forall in F. specialize (F e He). clear He. rewrite T in F. discriminate F.
Qed.
