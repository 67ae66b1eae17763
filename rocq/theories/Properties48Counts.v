(** Property theorem C27, continued: what the degrees of freedom count. *)
From Verif Require Import Base Num UnitModel Sympy Node Build EquationModel ModelModel ProblemModel SolverModel
  SpecUnits SpecExpr SpecDims SpecModel SpecInc SpecCall SpecProblem SpecSymbols ProblemFacts SessionFacts UsualFacts DofFacts
  ConnFacts SymbolFacts CountFacts Demo Properties07Problems Properties14Symbols Properties16Written.
Notation num := Verif.Num.num.

(** The unknowns are the symbols of the equations, the equations those of
    the models added. *)
Theorem C27_counts_partial : forall pn acts s b t, prints_numbers pn -> resolved acts s b -> distinct_models acts ->
  forallb (ordinary false) acts = true -> called_then_added acts ->
  pr_time (snd s) = Some [t] -> one_word t = true -> str_contains "_" t = true ->
  (forall e r, In e (b_eqs b) -> eq_type e = Some CDifferential -> analysed e r -> der_free r = true /\ readable t r /\ r <> SSym t) ->
  exists names known, NoDup names /\ (forall x, In x names <-> exists e, In e (b_eqs b) /\ has_symbol e x) /\
    (known = 1%nat /\ time_occurs t (b_eqs b) \/ known = 0%nat /\ ~ time_occurs t (b_eqs b)) /\
    dof_test pn (pw_heap (fst s)) (snd s) =
      if Nat.eqb (List.length names + unspecified_pars (pw_heap (fst s)) (b_pars b)) (list_sum (map (equation_count s) (added acts)) + known)
      then Ok true else Raise EException.
Proof. exact dof_counts. Qed.
Print Assumptions C27_counts_partial.

Definition joined_in_time : list act := joined_models ++ [ATime ["t_R"]].
Example C27_counts_case : resolved joined_in_time (final joined_in_time) (the_block joined_in_time) /\
  distinct_models joined_in_time /\ forallb (ordinary false) joined_in_time = true /\ called_then_added joined_in_time /\
  pr_time (snd (final joined_in_time)) = Some ["t_R"] /\ one_word "t_R" = true /\ str_contains "_" "t_R" = true /\
  (forall e, In e (b_eqs (the_block joined_in_time)) -> eq_type e <> Some CDifferential) /\
  map (equation_count (final joined_in_time)) (added joined_in_time) = [1; 2]%nat /\
  dof_test print_one (pw_heap (fst (final joined_in_time))) (snd (final joined_in_time)) = Ok true.
Proof.
  split; [apply run_resolved; vm_compute; reflexivity|].
  split; [apply (two_distinct joined_in_time "S" "R"); [vm_compute; reflexivity|discriminate]|]. split; [vm_compute; reflexivity|]. split.
  { apply (called_added_two _ (firstn 2 joined_models) (firstn 2 (skipn 3 joined_models)) [AAdd 1%nat; ATime ["t_R"]]
             (firstn 3 joined_models) [AConn (CMModel 0%nat) 1%nat (CVOne 1%nat) (CVOne 3%nat) None; AAdd 0%nat] [ATime ["t_R"]]); vm_compute; reflexivity. }
  split; [vm_compute; reflexivity|]. split; [reflexivity|]. split; [reflexivity|]. split; [|split; vm_compute; reflexivity].
  assert (F : forallb (fun e => match eq_type e with Some CDifferential => false | _ => true end) (b_eqs (the_block joined_in_time)) = true)
    by (vm_compute; reflexivity).
  intros e He T. rewrite forallb_forall in F. specialize (F e He). rewrite T in F. discriminate F.
Qed.

