(** Property theorems C07-C14 (expressions). *)
From Verif Require Import Base Num NumFacts UnitModel UnitFacts Sympy Node Build SpecUnits
  SpecExpr SpecDims BuildFacts ClassFacts DimFacts Demo.
From Coq Require Import Reals Lra.
From Flocq Require Import Core.
Notation num := Verif.Num.num.
Open Scope Z_scope.

(** ** C07 *)
(** Full statement: [forall e, homogeneous ... true e <-> exists n, build h e = Ok n].
    Missing: bare numbers take the dimension of what they are added to
    (homogeneous ... false), powers with an expression as exponent only on
    dimensionless bases, no Min/Max, functions only of expressions. *)
Theorem C07_builds_iff_homogeneous_partial : forall w K, incl base_keys K ->
  forall qdim whole h, units_are w K qdim h ->
  forall e, plain w K qdim whole h e ->
  (homogeneous qdim K whole false e <-> exists n, build h e = Ok n).
Proof. exact plain_builds_iff. Qed.
Print Assumptions C07_builds_iff_homogeneous_partial.

Theorem C07_dimension_partial : forall w K, incl base_keys K ->
  forall qdim whole h, units_are w K qdim h ->
  forall e n, plain w K qdim whole h e -> build h e = Ok n ->
  urep w K (nd_unit n) (dimension qdim whole e).
Proof. exact plain_dimension. Qed.
Print Assumptions C07_dimension_partial.

Theorem C07_rejection_partial : forall w K, incl base_keys K ->
  forall qdim whole h, units_are w K qdim h ->
  forall e, plain w K qdim whole h e -> ~ homogeneous qdim K whole false e ->
  build h e = Raise EDimCoherence \/ build h e = Raise EType.
Proof. exact plain_rejected. Qed.
Print Assumptions C07_rejection_partial.

(** A length plus the number 2 is accepted. *)
Theorem C07_added_number_refuted : exists h e n,
  units_are WSmall base_keys demo_dim h /\ build h e = Ok n /\
  ~ homogeneous demo_dim base_keys demo_whole true e.
Proof.
  exists demo_heap, (UNumR BAdd (UQty 0%nat) (PInt 2)). eexists.
  split; [exact demo_units|]. split; [reflexivity|].
  intros [_ H]. specialize (H eq_refl "m" (or_introl eq_refl)). discriminate.
Qed.
Print Assumptions C07_added_number_refuted.

(** A length to the power of an unknown is accepted and is again a length. *)
Theorem C07_expression_exponent_refuted : exists h e n,
  units_are WSmall base_keys demo_dim h /\ build h e = Ok n /\
  ~ homogeneous demo_dim base_keys demo_whole false e /\
  coherent (nd_unit n) u_m = Ok true.
Proof.
  exists demo_heap, (UBin BPow (UQty 0%nat) (UQty 4%nat)). eexists.
  split; [exact demo_units|]. split; [reflexivity|]. split; [|reflexivity].
  intros [_ [_ [H _]]]. specialize (H "m" (or_introl eq_refl)). discriminate.
Qed.
Print Assumptions C07_expression_exponent_refuted.

Lemma demo_range (d : dim) : Forall (fun k => -2 <= d k <= 2) base_keys -> in_range WSmall base_keys d.
Proof.
  intros H k Hk. rewrite Forall_forall in H. specialize (H k Hk). simpl. unfold small. lia.
Qed.

Ltac range_tac := apply demo_range; repeat constructor; vm_compute; discriminate.
Ltac plain_tac :=
  repeat match goal with
  | |- _ /\ _ => split
  | |- in_range _ _ _ => range_tac
  | |- exists q, Some _ = Some q => eexists; reflexivity
  | |- power_ok _ _ _ _ _ => left; split; [unfold small; simpl; lia|reflexivity]
  | |- plain _ _ _ _ _ _ => simpl
  end.

Lemma demo_plain : plain WSmall base_keys demo_dim demo_whole demo_heap demo_expr.
Proof.
  unfold demo_expr. plain_tac.
  - eexists. repeat split.
  - eexists _, _. repeat split.
Qed.

Example C07_case :
  plain WSmall base_keys demo_dim demo_whole demo_heap demo_expr /\
  exists n, build demo_heap demo_expr = Ok n /\ is_dimensionless (nd_unit n) = false /\
            coherent (nd_unit n) u_m = Ok true.
Proof.
  split; [exact demo_plain|]. eexists. split; [vm_compute; reflexivity|]. split; reflexivity.
Qed.

(** ** C08 *)
Theorem C08_covariance_partial : forall w K, incl base_keys K ->
  forall qdim whole h, units_are w K qdim h ->
  forall lam en en', rescaled lam K qdim h en en' ->
  forall e n d,
  (* missing: what [plain] leaves out, see C07 *)
  plain w K qdim whole h e -> no_added_number e -> build h e = Ok n -> urep w K (nd_unit n) d ->
  den (nd_repr n) en' = option_map (Rmult (factor lam K d)) (den (nd_repr n) en).
Proof. exact plain_covariant_unit. Qed.
Print Assumptions C08_covariance_partial.

(** With an expression as exponent the value does not scale by the factor of
    the unit: a square of a length with the unit of a length. *)
Theorem C08_expression_exponent_refuted : exists h e n lam en en',
  units_are WSmall base_keys demo_dim h /\ rescaled lam base_keys demo_dim h en en' /\
  build h e = Ok n /\ coherent (nd_unit n) u_m = Ok true /\
  den (nd_repr n) en' <> option_map (Rmult (factor lam base_keys (demo_dim 0%nat))) (den (nd_repr n) en).
Proof.
  exists demo_heap, (UBin BPow (UQty 0%nat) (UQty 4%nat)).
  eexists. exists (fun k => if String.eqb k "m" then 2%R else 1%R).
  exists (mkEnv (fun x => if String.eqb x "x" then 1%R else if String.eqb x "p" then 2%R else 0%R) (fun _ _ => 0%R)).
  exists (mkEnv (fun x => if String.eqb x "x" then 2%R else if String.eqb x "p" then 2%R else 0%R) (fun _ _ => 0%R)).
  assert (P1 : forall x, Rpower 1 x = 1%R) by (intros; unfold Rpower; now rewrite ln_1, Rmult_0_r, exp_0).
  split; [exact demo_units|]. split.
  - split.
    + intros l q H.
      do 6 (destruct l as [|l]; [injection H as <-; simpl; rewrite ?P1, ?Rpower_O, ?Rpower_1 by lra; lra|]).
      destruct l; discriminate H.
    + intros. simpl. lra.
  - split; [reflexivity|]. split; [reflexivity|]. simpl.
    rewrite (rpow_pos 2 2), (rpow_pos 1 2) by lra. simpl.
    rewrite ?P1, ?Rpower_O, ?Rpower_1 by lra.
    replace 2%R with (INR 2) at 2 by (simpl; lra). rewrite Rpower_pow by lra. simpl.
    intros H. injection H as H. lra.
Qed.
Print Assumptions C08_expression_exponent_refuted.

Example C08_case :
  plain WSmall base_keys demo_dim demo_whole demo_heap demo_expr /\ no_added_number demo_expr /\
  exists n, build demo_heap demo_expr = Ok n.
Proof. split; [exact demo_plain|]. split; [repeat split|]. eexists; vm_compute; reflexivity. Qed.

(** ** C09 *)
Theorem C09_meaning : forall h v en e n,
  env_for h v en -> build h e = Ok n -> den (nd_sym n) en = meaning h v e.
Proof. exact build_meaning. Qed.
Print Assumptions C09_meaning.

Example C09_case :
  (* 2 - x and 2 / x *)
  let v := mkVal (fun _ => 4%R) (fun _ _ => 0%R) in
  let en := mkEnv (fun _ => 4%R) (fun _ _ => 0%R) in
  env_for demo_heap v en /\
  (exists n, build demo_heap (UNumL BSub (PInt 2) (UQty 0%nat)) = Ok n /\ den (nd_sym n) en = Some (-2)%R) /\
  meaning demo_heap v (UNumL BDiv (PInt 2) (UQty 0%nat)) = Some (2 / 4)%R.
Proof.
  split; [split; reflexivity|]. split.
  - eexists. split; [reflexivity|]. simpl. unfold lift2, obind. f_equal. lra.
  - simpl. destruct (Req_EM_T 4 0); [lra|reflexivity].
Qed.

(** ** C10 *)
Theorem C10_display_agrees : forall h en e n,
  env_specified h en -> build h e = Ok n -> den (nd_repr n) en = den (nd_sym n) en.
Proof. exact build_display. Qed.
Print Assumptions C10_display_agrees.

(** The display form shows every quantity as a symbol. *)
Theorem C10_display_symbols_partial : forall h e n,
  (* missing: Min and Max *)
  build h e = Ok n -> no_minmax e = true ->
  forall l q, hget h l = Some q -> occurs l e -> In (q_name q) (fsyms (nd_repr n)).
Proof. exact build_display_symbols. Qed.
Print Assumptions C10_display_symbols_partial.

Theorem C10_display_symbols_refuted : exists h e n l q,
  build h e = Ok n /\ hget h l = Some q /\ occurs l e /\ ~ In (q_name q) (fsyms (nd_repr n)).
Proof.
  exists demo_heap, (UMinMax false (AExpr (UQty 2%nat) (ANum (PInt 1) ANil))).
  eexists _, 2%nat, _. split; [reflexivity|]. split; [reflexivity|]. split; [now left|]. simpl. tauto.
Qed.
Print Assumptions C10_display_symbols_refuted.

Example C10_case :
  let en := mkEnv (fun x => if String.eqb x "k" then 2%R else 7%R) (fun _ _ => 0%R) in
  env_specified demo_heap en /\
  exists n, build demo_heap (UBin BMul (UQty 2%nat) (UQty 0%nat)) = Ok n /\
            nd_repr n = SMul (SSym "k") (SSym "x") /\ nd_sym n = SMul (SNum (PInt 2)) (SSym "x").
Proof.
  split.
  - intros l q H Hs. do 6 (destruct l as [|l]; [injection H as <-; try discriminate Hs; split; reflexivity|]).
    destruct l; discriminate H.
  - eexists. repeat split.
Qed.

(** ** C11 *)
(** Full statement: with [mentions] (which counts the variable a derivative is
    taken with respect to) instead of [occurs]; false, see below. *)
Theorem C11_maps_partial : forall h e n, distinct_names h -> build h e = Ok n ->
  (forall l q, hget h l = Some q -> (dget (q_name q) (nd_smap n) = Some l <-> occurs l e)) /\
  (forall l q, hget h l = Some q ->
     (dget (q_name q) (nd_vmap n) = Some l <-> occurs l e /\ q_spec q = false)) /\
  (forall x, In x (fsyms (nd_sym n)) <-> In x (dkeys (nd_vmap n))).
Proof. exact maps_lookup. Qed.
Print Assumptions C11_maps_partial.

(** Nothing else is in the maps. *)
Theorem C11_maps_only : forall h e n x l, build h e = Ok n ->
  (dget x (nd_smap n) = Some l -> occurs l e /\ exists q, hget h l = Some q /\ q_name q = x) /\
  (dget x (nd_vmap n) = Some l -> occurs l e /\ exists q, hget h l = Some q /\ q_name q = x /\ q_spec q = false).
Proof. exact maps_only. Qed.
Print Assumptions C11_maps_only.

(** The independent variable of a derivative is missing from the map. *)
Theorem C11_independent_variable_refuted : exists h e n l q,
  distinct_names h /\ build h e = Ok n /\ hget h l = Some q /\ mentions l e /\
  dget (q_name q) (nd_smap n) = None.
Proof.
  exists demo_heap, (UDiff 0%nat (Some 1%nat)). eexists _, 1%nat, _.
  split.
  - intros l l' q q' H H' Hn.
    do 6 (destruct l as [|l]; [injection H as <-;
      do 6 (destruct l' as [|l']; [injection H' as <-; try reflexivity; discriminate Hn|]);
      destruct l'; discriminate H'|]). destruct l; discriminate H.
  - split; [reflexivity|]. split; [reflexivity|]. split; [now right|reflexivity].
Qed.
Print Assumptions C11_independent_variable_refuted.

Example C11_case : exists n, build demo_heap demo_expr = Ok n /\
  dkeys (nd_smap n) = ["x"; "y"; "k"; "t"] /\ dkeys (nd_vmap n) = ["x"; "y"; "t"].
Proof. eexists. split; [vm_compute; reflexivity|]. split; reflexivity. Qed.

(** ** C12 *)
Theorem C12_linear_is_affine_partial : forall h e n,
  (* missing: quotients of a known by an unknown, Min/Max of an unknown *)
  build h e = Ok n -> no_hidden_nonlinearity h e = true -> nd_ty n = ty_lin ->
  affine (fun en => den (nd_sym n) en).
Proof. exact linear_affine. Qed.
Print Assumptions C12_linear_is_affine_partial.

(** k / x with k specified is classified linear. *)
Theorem C12_quotient_refuted : exists h e n,
  build h e = Ok n /\ nd_ty n = ty_lin /\ ~ affine (fun en => den (nd_sym n) en).
Proof.
  exists demo_heap, (UBin BDiv (UQty 2%nat) (UQty 0%nat)). eexists.
  split; [reflexivity|]. split; [reflexivity|]. simpl.
  intros [N|[c0 [cs E]]].
  - specialize (N (mkEnv (fun _ => 1%R) (fun _ _ => 0%R))). simpl in N. unfold rdiv in N.
    destruct (Req_EM_T 1 0); [lra|discriminate].
  - specialize (E (mkEnv (fun _ => 0%R) (fun _ _ => 0%R))). simpl in E. unfold rdiv in E.
    destruct (Req_EM_T 0 0); [discriminate|lra].
Qed.
Print Assumptions C12_quotient_refuted.

Lemma lincomb_uniform cs t :
  lincomb cs (mkEnv (fun _ => t) (fun _ _ => 0%R)) =
  (t * lincomb cs (mkEnv (fun _ => 1%R) (fun _ _ => 0%R)))%R.
Proof. induction cs as [|[x c] r IH]; simpl; [lra|]. rewrite IH. lra. Qed.

(** Min(x, 1) is classified linear. *)
Theorem C12_minmax_refuted : exists h e n,
  build h e = Ok n /\ nd_ty n = ty_lin /\ ~ affine (fun en => den (nd_sym n) en).
Proof.
  exists demo_heap, (UMinMax false (AExpr (UQty 0%nat) (ANum (PInt 1) ANil))). eexists.
  split; [reflexivity|]. split; [reflexivity|]. simpl.
  intros [N|[c0 [cs E]]].
  - specialize (N (mkEnv (fun _ => 1%R) (fun _ _ => 0%R))). discriminate.
  - assert (E0 := E (mkEnv (fun _ => 0%R) (fun _ _ => 0%R))).
    assert (E1 := E (mkEnv (fun _ => 1%R) (fun _ _ => 0%R))).
    assert (E2 := E (mkEnv (fun _ => 2%R) (fun _ _ => 0%R))).
    rewrite (lincomb_uniform cs 0) in E0. rewrite (lincomb_uniform cs 2) in E2.
    unfold lift2, obind in *. simpl in *. injection E0 as E0. injection E1 as E1. injection E2 as E2.
    unfold Rmin in *. destruct (Rle_dec 0 1), (Rle_dec 1 1), (Rle_dec 2 1); lra.
Qed.
Print Assumptions C12_minmax_refuted.

Example C12_case : exists n,
  build demo_heap demo_linear = Ok n /\ no_hidden_nonlinearity demo_heap demo_linear = true /\ nd_ty n = ty_lin.
Proof. eexists. split; [vm_compute; reflexivity|]. split; reflexivity. Qed.

(** ** C13 *)
Theorem C13_differential_partial : forall h e n,
  (* missing: derivatives of specified variables, inside functions, Min/Max or
     exponents, or multiplied or divided by something unknown *)
  build h e = Ok n -> derivatives_outside h e = true ->
  (nd_ty n = ty_diff <-> has_derivative h e = true).
Proof. exact differential_exact. Qed.
Print Assumptions C13_differential_partial.

Theorem C13_differential_contains_derivative_partial : forall h e n,
  (* missing: derivatives of specified variables *)
  build h e = Ok n -> derivatives_unspecified h e = true -> nd_ty n = ty_diff ->
  has_derivative h e = true.
Proof. exact differential_sound. Qed.
Print Assumptions C13_differential_contains_derivative_partial.

(** x * x.Diff(t) is not differential. *)
Theorem C13_product_refuted : exists h e n,
  build h e = Ok n /\ has_derivative h e = true /\ nd_ty n = ty_nonlin.
Proof.
  exists demo_heap, (UBin BMul (UQty 0%nat) (UDiff 0%nat (Some 1%nat))). eexists.
  split; [vm_compute; reflexivity|]. split; reflexivity.
Qed.
Print Assumptions C13_product_refuted.

(** The derivative of a specified variable makes an equation differential. *)
Theorem C13_specified_refuted : exists h e n,
  build h e = Ok n /\ has_derivative h e = false /\ nd_ty n = ty_diff.
Proof.
  exists demo_heap, (UDiff 5%nat (Some 1%nat)). eexists.
  split; [vm_compute; reflexivity|]. split; reflexivity.
Qed.
Print Assumptions C13_specified_refuted.

Example C13_case : exists n,
  let e := UBin BSub (UBin BMul (UQty 2%nat) (UDiff 0%nat (Some 1%nat)))
                     (UBin BDiv (UQty 3%nat) (UQty 1%nat)) in
  build demo_heap e = Ok n /\ derivatives_outside demo_heap e = true /\ nd_ty n = ty_diff.
Proof. eexists. cbv zeta. split; [vm_compute; reflexivity|]. split; reflexivity. Qed.

(** ** C14 *)
Theorem C14_one_class : forall h e n, build h e = Ok n ->
  (t_lin (nd_ty n) = true /\ t_nonlin (nd_ty n) = false /\ t_diff (nd_ty n) = false) \/
  (t_lin (nd_ty n) = false /\ t_nonlin (nd_ty n) = true /\ t_diff (nd_ty n) = false) \/
  (t_lin (nd_ty n) = false /\ t_nonlin (nd_ty n) = false /\ t_diff (nd_ty n) = true).
Proof.
  intros h e n H. destruct (build_class h e n H) as [E|[E|E]]; rewrite E; simpl; auto.
Qed.
Print Assumptions C14_one_class.

Example C14_case : exists n, build demo_heap demo_expr = Ok n /\ nd_ty n = ty_nonlin.
Proof. eexists. split; vm_compute; reflexivity. Qed.
