(** Property theorem C61, continued: tables of any program. *)
From Verif Require Import Base Num NumFacts UnitModel UnitFacts Sympy Node Build EquationModel ModelModel ProblemModel SolverModel DomainModel SimModel
  ReportModel SpecUnits SpecExpr SpecModel SpecProblem SpecSolver SpecSymbols SpecReport ReportFacts Demo Properties07Problems Properties14Symbols
  Properties15Reports SpecProper ProperFacts.
Notation num := Verif.Num.num.

(** Every quantity of a session, also a copied one, has a unit written in the
    program. *)
Theorem C61_units : forall acts s b l q, resolved acts s b -> hget (pw_heap (fst s)) l = Some q -> In (q_units q) (written_units acts).
Proof. exact units_written. Qed.
Print Assumptions C61_units.

(** So the table of a steady simulation states every result with the unit of its
    variable for all programs, whatever they do.  Missing for C61: tables of dynamic
    simulations without headers (C61_headers_refuted). *)
Theorem C61_programs_partial : forall pn st acts s b sm c d out, resolved acts s b -> Forall a_unit (written_units acts) ->
  sm_problem sm = Some (snd s) -> sm_output sm = Some (OutDict out) -> sm_conf sm = Some c -> opt c "is_dynamic" = Ok d -> is_true d = false ->
  incl (dkeys out) (b_varlist b) ->
  exists rows, show_results pn (pw_heap (fst s)) st sm = Ok (TSteady rows) /\ Forall2 (states_value pn (pw_heap (fst s)) b) out rows.
Proof. exact (fun pn st acts s b sm c d out R F => steady_table pn st acts s b sm c d out R (resolved_units a_unit acts s b R F)). Qed.
Print Assumptions C61_programs_partial.

(** The first model incorporated into the second. *)
Definition copied_units : list act :=
  [ANew "A" (mkDecls [] [] [CVar "x" "x" u_m false "" (PInt 0)] [CEq "e" "e" (UResid (UNumR BSub (UQty "x") (PInt 2))) true]); ACall 0%nat;
   ANew "B" (mkDecls [] [] [CVar "y" "y" u_s false "" (PInt 0)] [CEq "f" "f" (UResid (UNumR BSub (UQty "y") (PInt 3))) true]);
   AInc 1%nat 0%nat inc_default; ACall 1%nat; AAdd 1%nat].
Example C61_programs_case : resolved copied_units (final copied_units) (the_block copied_units) /\
  Forall a_unit (written_units copied_units) /\ written_units copied_units = [u_m; u_s] /\
  b_varlist (the_block copied_units) = ["x_B"; "y_B"] /\
  map q_units (pw_heap (fst (final copied_units))) = [u_m; u_m; u_s; u_s].
Proof.
  split; [apply run_resolved; vm_compute; reflexivity|].
  assert (M : a_unit u_m) by (apply au_init; repeat constructor; simpl; intuition).
  assert (S : a_unit u_s) by (apply au_init; repeat constructor; simpl; intuition).
  split; [constructor; [exact M|constructor; [exact S|constructor]]|].
  split; [reflexivity|]. split; vm_compute; reflexivity.
Qed.
