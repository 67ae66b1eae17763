(** C09, C64, C65 once more, with values given by a relation that shares nothing
    with the evaluation of expressions. *)
From Verif Require Import Base BaseFacts Num UnitModel Sympy Node Build EquationModel ModelModel ProblemModel SpecExpr SpecModel SpecProblem SolverModel SpecSolver SpecWritten SpecStored SpecAmounts
  AmountFacts Demo Properties07Problems Properties16Written.
From Coq Require Import Reals Lra.
Notation num := Verif.Num.num.
Open Scope R_scope.

(** ** C09 *)
(** An expression that is built has the value it comes to, or none. *)
Theorem C09_amount : forall h v en e n y, env_for h v en -> build h e = Ok n -> (den (nd_sym n) en = Some y <-> amounts_to h v e y).
Proof. exact built_amount. Qed.
Print Assumptions C09_amount.
Theorem C09_one_amount : forall h v e y z, amounts_to h v e y -> amounts_to h v e z -> y = z.
Proof. exact one_amount. Qed.
Print Assumptions C09_one_amount.

Definition bare_heap : heap := [mk_var "x" u_dimless true].
(** 3 / sqrt(x ** -1) - max(x, 7) at x = 4. *)
Definition many_parts : uexpr loc :=
  UBin BSub (UNumL BDiv (PInt 3) (UFun FSqrt (UNumR BPow (UQty 0%nat) (PInt (-1))))) (UMinMax true (AExpr (UQty 0%nat) (ANum (PInt 7) ANil))).
Example C09_amount_case : let v := mkVal (fun _ => 4) (fun _ _ => 0) in let en := mkEnv (fun _ => 4) (fun _ _ => 0) in
  env_for bare_heap v en /\ match build bare_heap many_parts with Ok _ => True | _ => False end /\ amounts_to bare_heap v many_parts (-1).
Proof.
  split; [split; reflexivity|]. split; [vm_compute; exact I|].
  assert (X : forall v, v_q v 0%nat = 4 -> qty_is bare_heap v 0%nat 4) by (intros v V; eexists; split; [reflexivity|symmetry; exact V]).
  apply (ct_bin _ _ _ _ _ 6 7); [| |cbn; lra].
  - apply (ct_left _ _ _ _ _ 3 (1 / 2)); [reflexivity| |cbn; lra]. apply (ct_fun _ _ _ _ (1 / 4)); [|cbn; lra].
    apply (ct_right _ _ _ _ _ 4 (-1)); [constructor; now apply X|reflexivity|]. right. left. exists 1%nat. cbn. lra.
  - apply (ct_best _ _ _ _ [4; 7]); [apply cs_expr; [constructor; now apply X|apply cs_num; [reflexivity|apply cs_nil]]|].
    split; [right; now left|]. intros x [<-|[<-|[]]]; lra.
Qed.

(** ** C64 *)
(** A stored equation that says what was written has the residual, and the sides,
    that the written ones come to. *)
Theorem C64_amount : forall D n q e, says (read_eq D n q) e -> exists nd, eq_expr e = Some nd /\
  forall en y, den (nd_sym nd) en = Some y <-> leaves D en q y.
Proof. exact said_leaves. Qed.
Print Assumptions C64_amount.
Theorem C64_side_amounts : forall D n l r e, says (read_eq D n (UElem l r)) e -> exists a b, eq_elem e = Some (a, b) /\
  forall en y, (den (nd_sym a) en = Some y <-> reads_as D en l y) /\ (den (nd_sym b) en = Some y <-> reads_as D en r y).
Proof. exact said_sides. Qed.
Print Assumptions C64_side_amounts.

(** ** C65 *)
(** Missing: as in C65_residual_partial, equations with two sides. *)
Theorem C65_amount_partial : forall acts s b eng out i M d D n q, resolved acts s b -> distinct_models acts -> honest eng -> answer eng b out ->
  nth_error (created acts) i = Some (M, d) -> In i (added acts) -> legible M d -> In (read_eq D n (UResid q)) (written_by M d) ->
  reads_as D (bind_env out) q 0.
Proof. exact solution_amount. Qed.
Print Assumptions C65_amount_partial.
(** The sink of C65_case, where k was set to 4, p and z were not: z - k*p comes to 0
    at the answer p = 3, z = 12. *)
Definition sink_things : dict thing := read_all "R" [] (d_cons flow_sink ++ d_pars flow_sink ++ d_vars flow_sink).
Definition sink_residual : uexpr string := UBin BSub (UQty "z") (UBin BMul (UQty "k") (UQty "p")).
Example C65_amount_case : written_by "R" flow_sink = [read_eq sink_things "e" (UResid sink_residual)] /\ reads_as sink_things (bind_env flow_answer) sink_residual 0.
Proof.
  split; [reflexivity|]. apply (ct_bin _ _ _ _ _ 12 12); [| |cbn; lra].
  - constructor. eexists. split; reflexivity.
  - apply (ct_bin _ _ _ _ _ 4 3); [| |cbn; lra]; constructor; eexists; split; reflexivity.
Qed.
