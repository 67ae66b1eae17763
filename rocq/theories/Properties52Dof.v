(** C94: what the check of the degrees of freedom says. *)
From Verif Require Import Base BaseFacts Num UnitModel Sympy Node Build EquationModel ModelModel ProblemModel SpecExpr SpecModel SpecProblem SpecSymbols SpecErrors SpecDof DofModel
  DofTextFacts Demo Properties07Problems Properties14Symbols Properties48Counts.
Notation num := Verif.Num.num.

(** ** C94 *)
(** The check passes when nothing is said, and a refusal is an Exception. *)
Theorem C94_same : forall pn h p, dof_test pn h p =
  match dof_analysis pn h p with Ok None => Ok true | Ok (Some _) => Raise EException | Raise x => Raise x end.
Proof. exact analysis_same. Qed.
Print Assumptions C94_same.

(** Problems without differential equations: nothing is said exactly when unknowns
    and unset parameters are as many as equations; otherwise the text says the
    direction, by how many, which unknowns and parameters, and how many equations. *)
Theorem C94_steady : forall pn pe acts s b, resolved acts s b -> (forall e, In e (b_eqs b) -> eq_type e <> Some CDifferential) ->
  exists ns, unset (pw_heap (fst s)) (b_pars b) ns /\
    match dof_analysis pn (pw_heap (fst s)) (snd s) with
    | Ok None => (List.length (b_varlist b) + List.length ns = List.length (b_eqs b))%nat
    | Ok (Some c) => well_told (dof_text pe c) (b_varlist b) ns (List.length (b_eqs b))
    | Raise _ => False
    end.
Proof. exact told_steady. Qed.
Print Assumptions C94_steady.

(** With differential equations, as far as C27_dof_partial goes. *)
Theorem C94_dynamic_partial : forall pn pe acts s b t, prints_numbers pn -> resolved acts s b -> pr_time (snd s) = Some [t] ->
  one_word t = true -> str_contains "_" t = true ->
  (forall e r, In e (b_eqs b) -> eq_type e = Some CDifferential -> analysed e r -> der_free r = true /\ readable t r /\ r <> SSym t) ->
  exists ns known, unset (pw_heap (fst s)) (b_pars b) ns /\
    (known = 1%nat /\ time_occurs t (b_eqs b) \/ known = 0%nat /\ ~ time_occurs t (b_eqs b)) /\
    match dof_analysis pn (pw_heap (fst s)) (snd s) with
    | Ok None => (List.length (b_varlist b) + List.length ns = List.length (b_eqs b) + known)%nat
    | Ok (Some c) => well_told (dof_text pe c) (b_varlist b) ns (List.length (b_eqs b) + known)
    | Raise _ => False
    end.
Proof. exact told_dynamic. Qed.
Print Assumptions C94_dynamic_partial.

(** The unknowns listed are the symbols of the equations, each once (ordinary programs). *)
Theorem C94_listed_partial : forall acts s b, resolved acts s b -> forallb (ordinary false) acts = true -> called_then_added acts ->
  NoDup (b_varlist b) /\ forall x, In x (b_varlist b) <-> exists e, In e (b_eqs b) /\ has_symbol e x.
Proof. exact told_symbols. Qed.
Print Assumptions C94_listed_partial.

(** One equation in two unknowns and a parameter that was given no value. *)
Definition print_sx (s : sx) : string := "e".
Definition too_few : list act :=
  [ANew "M" (mkDecls [] [CPar "p" "p" u_m (PInt 3)] [CVar "x" "x" u_m false "" (PInt 0); CVar "y" "y" u_m false "" (PInt 0)]
     [CEq "e" "e" (UElem (UQty "x") (UBin BAdd (UQty "y") (UQty "p"))) true]); ACall 0%nat; AAdd 0%nat].
(** Two equations in one unknown. *)
Definition too_many : list act :=
  [ANew "M" (mkDecls [] [] [CVar "x" "x" u_m false "" (PInt 0)]
     [CEq "e" "e" (UElemN (UQty "x") (PInt 1)) true; CEq "g" "g" (UElemN (UNumR BMul (UQty "x") (PInt 2)) (PInt 3)) true]); ACall 0%nat; AAdd 0%nat].

Definition said_of (acts : list act) : option string :=
  match dof_analysis print_one (pw_heap (fst (final acts))) (snd (final acts)) with Ok (Some c) => Some (dof_text print_sx c) | _ => None end.
Example C94_steady_case :
  resolved too_few (final too_few) (the_block too_few) /\ forallb (fun e => negb (has_type CDifferential e)) (b_eqs (the_block too_few)) = true /\
  said_of too_few = Some (line_end ++ "The system is UNDER-specified (Nb. Degrees of Freedom = 2)" ++ line_end ++ "    Number of variables:2 (['x_M', 'y_M']) " ++
    line_end ++ " Number of unspecified params:1 (['p_M']) " ++ line_end ++ " Number of equations:1 " ++ line_end ++ " Equations:[e]")%string /\
  resolved too_many (final too_many) (the_block too_many) /\ forallb (fun e => negb (has_type CDifferential e)) (b_eqs (the_block too_many)) = true /\
  said_of too_many = Some (line_end ++ "The system is OVER-specified (Nb. Degrees of Freedom = -1)" ++ line_end ++ "    Number of variables:1 (['x_M']) " ++
    line_end ++ " Number of unspecified params:0 ([]) " ++ line_end ++ " Number of equations:2 " ++ line_end ++ " Equations:[e, e]")%string.
Proof.
  split; [apply run_resolved; vm_compute; reflexivity|]. split; [vm_compute; reflexivity|]. split; [vm_compute; reflexivity|].
  split; [apply run_resolved; vm_compute; reflexivity|]. split; vm_compute; reflexivity.
Qed.
(** C27_case meets the hypotheses of C94_dynamic_partial, C27_counts_case those of C94_listed_partial; both are square. *)
Example C94_dynamic_case : resolved two_models (final two_models) (the_block two_models) /\ said_of two_models = None /\
  said_of joined_in_time = None /\ b_varlist (the_block joined_in_time) = ["q_S"; "p_R"; "z_R"].
Proof. split; [apply run_resolved; vm_compute; reflexivity|]. split; [|split]; vm_compute; reflexivity. Qed.

(** ** Where the text misleads *)
Definition refusal_of (acts : list act) : dof_refusal :=
  match dof_analysis print_one (pw_heap (fst (final acts))) (snd (final acts)) with Ok (Some c) => c | _ => mkDof false 0 [] [] 0%nat [] end.
Lemma refused_so acts : match dof_analysis print_one (pw_heap (fst (final acts))) (snd (final acts)) with Ok (Some _) => true | _ => false end = true ->
  dof_analysis print_one (pw_heap (fst (final acts))) (snd (final acts)) = Ok (Some (refusal_of acts)).
Proof. unfold refusal_of. destruct (dof_analysis _ _ _) as [[c|]|]; intros H; (reflexivity || discriminate H). Qed.
Lemma refused_under c k vars : (df_over c, df_free c, df_vars c) = (false, k, vars) ->
  opens_with (dof_text print_sx c) "UNDER" k /\ lists (dof_text print_sx c) "variables" vars.
Proof.
  intros E. assert (E1 := f_equal (fun p => fst (fst p)) E). assert (E2 := f_equal (fun p => snd (fst p)) E). assert (E3 := f_equal snd E). cbn in E1, E2, E3.
  subst. split; [|apply refusal_vars]. assert (O := refusal_opens print_sx c). rewrite E1 in O. exact O.
Qed.

(** x == 2*y with y set to 3 has one equation in x alone and is called
    under-specified by 1 (the unknown y_M of the list is in no equation). *)
Theorem C94_fixed_variable_refuted : exists acts s b c, resolved acts s b /\ List.length (b_eqs b) = 1%nat /\ (forall e, In e (b_eqs b) -> ~ has_symbol e "y_M") /\
  dof_analysis print_one (pw_heap (fst s)) (snd s) = Ok (Some c) /\
  opens_with (dof_text print_sx c) "UNDER" 1 /\ lists (dof_text print_sx c) "variables" ["x_M"; "y_M"].
Proof.
  exists fixed_variable, (final fixed_variable), (the_block fixed_variable), (refusal_of fixed_variable).
  split; [apply run_resolved; vm_compute; reflexivity|]. split; [vm_compute; reflexivity|].
  split; [|split; [apply refused_so; vm_compute; reflexivity|apply refused_under; vm_compute; reflexivity]].
  assert (S : map (fun e => (option_map (fun n => fsyms (nd_sym n)) (eq_expr e), match eq_elem e with None => true | _ => false end))
                  (b_eqs (the_block fixed_variable)) = [(Some ["x_M"], true)]) by (vm_compute; reflexivity).
  destruct (b_eqs (the_block fixed_variable)) as [|e0 [|]]; try discriminate S. injection S as S1 S2.
  intros e [<-|[]] [(n & En & Hn)|(a & b & E & _)].
  - rewrite En in S1. injection S1 as S1. rewrite S1 in Hn. destruct Hn as [Hn|[]]. discriminate Hn.
  - rewrite E in S2. discriminate S2.
Qed.
Print Assumptions C94_fixed_variable_refuted.

(** dx/dt == t: one unknown besides time and one equation, called under-specified by 1. *)
Theorem C94_bare_time_refuted : exists acts s b c, resolved acts s b /\ pr_time (snd s) = Some ["t_M"] /\ List.length (b_eqs b) = 1%nat /\ time_occurs "t_M" (b_eqs b) /\
  dof_analysis print_one (pw_heap (fst s)) (snd s) = Ok (Some c) /\
  opens_with (dof_text print_sx c) "UNDER" 1 /\ lists (dof_text print_sx c) "variables" ["x_M"; "t_M"].
Proof.
  exists bare_time, (final bare_time), (the_block bare_time), (refusal_of bare_time).
  split; [apply run_resolved; vm_compute; reflexivity|]. split; [vm_compute; reflexivity|]. split; [vm_compute; reflexivity|].
  split; [|split; [apply refused_so; vm_compute; reflexivity|apply refused_under; vm_compute; reflexivity]].
  exists (hd (blank_eqn "") (b_eqs (the_block bare_time))), (SSym "t_M"). split; [vm_compute; now left|].
  split; [vm_compute; reflexivity|]. split; [vm_compute; reflexivity|now left].
Qed.
Print Assumptions C94_bare_time_refuted.
