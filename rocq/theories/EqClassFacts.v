(** The class stored with an equation. *)
From Verif Require Import Base Num UnitModel Sympy Node Build EquationModel SpecUnits SpecExpr SpecDims
  BuildFacts ClassFacts EquationFacts.
From Coq Require Import Reals.

Lemma class_of_flags n : one_class (nd_ty n) ->
  (type_of n = Some CLinear <-> t_lin (nd_ty n) = true) /\
  (type_of n = Some CNonlinear <-> t_nonlin (nd_ty n) = true) /\
  (type_of n = Some CDifferential <-> t_diff (nd_ty n) = true).
Proof.
  unfold type_of. intros [E|[E|E]]; rewrite E; simpl; repeat split; intros H; congruence.
Qed.

Lemma class_lin n : one_class (nd_ty n) -> type_of n = Some CLinear -> nd_ty n = ty_lin.
Proof. unfold type_of. intros [E|[E|E]]; rewrite E; simpl; congruence. Qed.

Lemma class_diff n : one_class (nd_ty n) -> (type_of n = Some CDifferential <-> nd_ty n = ty_diff).
Proof. unfold type_of. intros [E|[E|E]]; rewrite E; simpl; split; intros H; try discriminate H; reflexivity. Qed.

(** The stored expression of an equation written with nodes on every side is the
    expression of the difference of the sides. *)
Lemma stored_expr h q arg e e' :
  build_eq h q = Ok arg -> set_residual e arg = (e', Ok tt) ->
  exists n, eq_expr e' = Some n /\ one_class (nd_ty n) /\
    match q with
    | UResid x => build h x = Ok n
    | UElem l r => build h (UBin BSub l r) = Ok n
    | UElemN l k => exists a, build h l = Ok a /\ nd_ty n = ty_prec (nd_ty a) ty_lin
    end.
Proof.
  intros Hq Hr. destruct q as [x|l r|l k]; simpl in Hq; binv.
  - unfold set_residual, finish_residual in Hr. simpl in Hr. injection Hr as <-. simpl.
    eexists. split; [reflexivity|]. split; [now apply build_class in Hb|exact Hb].
  - unfold set_residual in Hr. destruct (node_sub x (ONode x0)) as [d|] eqn:Es; [|discriminate].
    unfold finish_residual in Hr. cbv beta iota zeta delta [with_form with_expr with_elem with_type with_objs eq_expr] in Hr.
    injection Hr as <-. simpl. exists d.
    assert (Hbd : build h (UBin BSub l r) = Ok d) by (simpl; rewrite Hb; simpl; rewrite Hb0; exact Es).
    split; [reflexivity|]. split; [now apply build_class in Hbd|exact Hbd].
  - unfold set_residual in Hr. destruct (node_sub x (ONode (number_node k (nd_unit x)))) as [d|] eqn:Es; [|discriminate].
    unfold finish_residual in Hr. cbv beta iota zeta delta [with_form with_expr with_elem with_type with_objs eq_expr] in Hr.
    injection Hr as <-. simpl in *. exists d.
    unfold unit_sub in Es. destruct (coherent (nd_unit x) (nd_unit x)) as [[]|] eqn:Ec; simpl in Es; try discriminate.
    injection Es as <-. simpl.
    split; [reflexivity|]. split; [apply ty_prec_class|]. exists x. repeat split; assumption.
Qed.

Theorem equation_class h q arg e e' :
  build_eq h q = Ok arg -> set_residual e arg = (e', Ok tt) ->
  exists n, eq_expr e' = Some n /\
    (eq_type e' = Some CLinear <-> t_lin (nd_ty n) = true) /\
    (eq_type e' = Some CNonlinear <-> t_nonlin (nd_ty n) = true) /\
    (eq_type e' = Some CDifferential <-> t_diff (nd_ty n) = true).
Proof.
  intros Hq Hr. destruct (stored_expr h q arg e e' Hq Hr) as [n [En [C _]]]. exists n.
  rewrite (set_residual_type e arg e' n Hr En). split; [exact En|now apply class_of_flags].
Qed.

Theorem linear_equation h l r arg e e' :
  build_eq h (UElem l r) = Ok arg -> set_residual e arg = (e', Ok tt) ->
  no_hidden_nonlinearity h (UBin BSub l r) = true -> eq_type e' = Some CLinear ->
  exists n, eq_expr e' = Some n /\ affine (fun en => den (nd_sym n) en).
Proof.
  intros Hq Hr Hs Ht. destruct (stored_expr h _ arg e e' Hq Hr) as [n [En [C B]]]. exists n.
  rewrite (set_residual_type e arg e' n Hr En) in Ht. split; [exact En|].
  apply (linear_affine h _ n B Hs). now apply class_lin.
Qed.

Theorem differential_equation h l r arg e e' :
  build_eq h (UElem l r) = Ok arg -> set_residual e arg = (e', Ok tt) ->
  derivatives_outside h (UBin BSub l r) = true ->
  (eq_type e' = Some CDifferential <-> has_derivative h l = true \/ has_derivative h r = true).
Proof.
  intros Hq Hr Hs. destruct (stored_expr h _ arg e e' Hq Hr) as [n [En [C B]]].
  rewrite (set_residual_type e arg e' n Hr En).
  pose proof (class_diff n C) as D. pose proof (differential_exact h _ n B Hs) as X.
  simpl in X. rewrite Bool.orb_true_iff in X. rewrite D. exact X.
Qed.
