(** The degrees of freedom count what is in the equations. *)
From Verif Require Import Base BaseFacts Num UnitModel Sympy Node Build EquationModel ModelModel ProblemModel SpecExpr SpecModel SpecProblem ProblemFacts
  SessionFacts UsualFacts DofFacts SpecSymbols SymbolFacts.
Notation num := Verif.Num.num.

Lemma equations_count s : forall is, List.length (equations_of s is) = list_sum (map (equation_count s) is).
Proof.
  induction is as [|i is IH]; [reflexivity|]. cbn [map list_sum fold_right]. unfold equations_of in *. cbn [flat_map]. rewrite app_length, IH.
  unfold equation_count. destruct (model_of s i) as [m|]; [|reflexivity]. unfold dvals. now rewrite map_length.
Qed.

Lemma dof_counts pn acts s b t : prints_numbers pn -> resolved acts s b -> distinct_models acts -> forallb (ordinary false) acts = true -> called_then_added acts ->
  pr_time (snd s) = Some [t] -> one_word t = true -> str_contains "_" t = true ->
  (forall e r, In e (b_eqs b) -> eq_type e = Some CDifferential -> analysed e r -> der_free r = true /\ readable t r /\ r <> SSym t) ->
  exists names known, NoDup names /\ (forall x, In x names <-> exists e, In e (b_eqs b) /\ has_symbol e x) /\
    (known = 1%nat /\ time_occurs t (b_eqs b) \/ known = 0%nat /\ ~ time_occurs t (b_eqs b)) /\
    dof_test pn (pw_heap (fst s)) (snd s) =
      if Nat.eqb (List.length names + unspecified_pars (pw_heap (fst s)) (b_pars b)) (list_sum (map (equation_count s) (added acts)) + known)
      then Ok true else Raise EException.
Proof.
  intros P R D O C T W U H. destruct (dof_exact pn acts s b t P R T W U H) as (known & K & E). exists (b_varlist b), known.
  split; [exact (proj1 (unknowns_usual _ _ _ R (ordinary_plain _ _ O) C))|]. split; [|split; [exact K|]].
  - intros x. split.
    + intros Hx. destruct (unknowns_symbols _ _ _ _ R O C Hx) as (e & n & He & En & Hn). exists e. split; [exact He|]. left. exists n. auto.
    + intros (e & He & Hs). exact (symbols_unknowns _ _ _ _ _ _ R O C He Hs).
  - rewrite E. now rewrite (block_added _ _ _ R D), equations_count.
Qed.
