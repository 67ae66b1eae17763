(** Property theorems C05, C06 (quantities), C15 (snapshots), C16 (Min, Max). *)
From Verif Require Import Base Num NumFacts UnitModel UnitFacts Sympy Node Build SpecUnits UnitThms
  SpecExpr SpecDims BuildFacts QtyFacts SpecQty Demo.
From Coq Require Import Reals Lra.
From Flocq Require Import Core.
Notation num := Verif.Num.num.
Open Scope Z_scope.

(** ** C05 *)
Theorem C05_setValue_coherent_partial : forall q a u q',
  (* missing for the full statement: float values, see C05_setValue_refuted *)
  is_float_arg a = false ->
  (forall v, In v (tags a u) -> comparable v (q_units q)) ->
  set_value q a u = Ok q' -> forall v, In v (tags a u) -> same_dimension v (q_units q).
Proof. exact set_value_coherent. Qed.
Print Assumptions C05_setValue_coherent_partial.

Theorem C05_setValue_frame : forall h l a u h' r,
  heap_set_value h l a u = (h', r) ->
  (forall e, r = Raise e -> h' = h) /\
  (forall i, i <> l -> hget h' i = hget h i) /\
  (r = Ok tt -> exists q q', hget h l = Some q /\ hget h' l = Some q' /\
     offered a = Some (q_value q') /\ q_spec q' = true /\
     q_units q' = q_units q /\ q_name q' = q_name q).
Proof. exact heap_set_value_frame. Qed.
Print Assumptions C05_setValue_frame.

Theorem C05_setValue_int_decided : forall q z v,
  comparable v (q_units q) ->
  (same_dimension v (q_units q) -> exists q', set_value q (SVNum (PInt z)) (Some v) = Ok q') /\
  (~ same_dimension v (q_units q) -> set_value q (SVNum (PInt z)) (Some v) = Raise EUnexpectedValue).
Proof. exact set_value_int_decided. Qed.
Print Assumptions C05_setValue_int_decided.

Theorem C05_setValue_quantity_decided : forall q p,
  comparable (q_units p) (q_units q) -> isinstance_of p q = true ->
  (same_dimension (q_units p) (q_units q) -> exists q', set_value q (SVQty p) None = Ok q') /\
  (~ same_dimension (q_units p) (q_units q) -> set_value q (SVQty p) None = Raise EDimCoherence).
Proof. exact set_value_qty_decided. Qed.
Print Assumptions C05_setValue_quantity_decided.

Theorem C05_setValue_refuted : exists q a v q',
  comparable v (q_units q) /\ ~ same_dimension v (q_units q) /\
  set_value q a (Some v) = Ok q' /\ q_spec q' = true.
Proof.
  exists (mk_var "x" u_m false), (SVNum (fdec 15 1)), u_s.
  eexists. split; [apply m_s_comparable|]. split; [apply m_s_different|].
  split; reflexivity.
Qed.
Print Assumptions C05_setValue_refuted.

(** An int tagged with seconds is refused by a length, one with metres is
    taken. *)
Example C05_case :
  comparable u_s (q_units (mk_var "x" u_m false)) /\
  set_value (mk_var "x" u_m false) (SVNum (PInt 3)) (Some u_s) = Raise EUnexpectedValue /\
  set_value (mk_var "x" u_m false) (SVNum (PInt 3)) (Some u_m) =
    Ok (mkQty KVariable "x" u_m (PInt 3) true "" false "" false).
Proof. split; [apply m_s_comparable|]. split; reflexivity. Qed.

(** ** C06 *)
Theorem C06_incoherent_rejected_partial : forall q p,
  (* missing for the full statement: results for coherent operands, see C06_arithmetic_refuted *)
  comparable (q_units q) (q_units p) -> ~ same_dimension (q_units q) (q_units p) ->
  qty_add q p = Raise EDimCoherence /\ qty_sub q p = Raise EDimCoherence.
Proof. exact qty_add_incoherent. Qed.
Print Assumptions C06_incoherent_rejected_partial.

(** No arithmetic on quantities ever returns. *)
Theorem C06_arithmetic_never_returns : forall q p,
  (forall r, qty_add q p <> Ok r) /\ (forall r, qty_sub q p <> Ok r) /\ (forall r, qty_mul q p <> Ok r) /\
  (forall r, qty_div q p <> Ok r) /\ (forall r, qty_pow q p <> Ok r).
Proof. exact qty_arith_never. Qed.
Print Assumptions C06_arithmetic_never_returns.

Theorem C06_arithmetic_refuted : exists q p,
  same_dimension (q_units q) (q_units p) /\ qty_add q p = Raise EType /\ qty_mul q p = Raise EType.
Proof.
  exists (mk_par "a" u_m (PInt 1) true), (mk_par "b" u_m (PInt 2) true).
  split; [apply same_dimension_refl|]. split; reflexivity.
Qed.
Print Assumptions C06_arithmetic_refuted.

Example C06_case :
  comparable u_s u_m /\ ~ same_dimension u_s u_m /\
  qty_add (mk_par "a" u_s (PInt 1) true) (mk_par "b" u_m (PInt 2) true) = Raise EDimCoherence.
Proof. split; [apply m_s_comparable|]. split; [apply m_s_different|reflexivity]. Qed.

(** ** C15 *)
(** Expressions already built are never changed by later building and setting. *)
Theorem C15_expressions_keep : forall s ops i n,
  nth_error (ss_nodes s) i = Some n -> nth_error (ss_nodes (srun s ops)) i = Some n.
Proof. exact srun_keeps. Qed.
Print Assumptions C15_expressions_keep.

(** ... so an expression keeps the meaning it had with the values at building time. *)
Theorem C15_old_meaning : forall h e n s ops i v en,
  ss_heap s = h -> build h e = Ok n -> nth_error (ss_nodes (sstep s (SBuild e))) i = Some n ->
  env_for h v en ->
  exists n', nth_error (ss_nodes (srun (sstep s (SBuild e)) ops)) i = Some n' /\
             den (nd_sym n') en = meaning h v e.
Proof. exact snapshot_meaning. Qed.
Print Assumptions C15_old_meaning.

(** Building it again gives the meaning with the current values. *)
Theorem C15_new_meaning : forall s ops e n v en,
  let h' := ss_heap (srun s ops) in
  build h' e = Ok n -> env_for h' v en -> den (nd_sym n) en = meaning h' v e.
Proof. exact rebuild_meaning. Qed.
Print Assumptions C15_new_meaning.

(** k = 2 when 2*... is built; afterwards k is set to 5: the old expression
    still carries 2, the new one carries 5. *)
Example C15_case :
  let s0 := mkSession demo_heap [] in
  let e := UBin BMul (UQty 2%nat) (UQty 0%nat) in
  let s1 := srun s0 [SBuild e; SSet 2%nat (SVNum (PInt 5)) None; SBuild e] in
  map nd_sym (ss_nodes s1) = [SMul (SNum (PInt 2)) (SSym "x"); SMul (SNum (PInt 5)) (SSym "x")].
Proof. reflexivity. Qed.

(** ** C16 *)
Theorem C16_numbers : forall mx l,
  all_numbers l -> exists n, node_minmax mx l = Ok n /\ nd_unit n = u_dimless /\
  (l <> [] -> forall en, den (nd_sym n) en =
     extremum mx (map (fun o => match o with ONum k => num_value k | _ => None end) l)).
Proof. exact minmax_numbers. Qed.
Print Assumptions C16_numbers.

(** Expressions only: refused whatever their units. *)
Theorem C16_expressions_always_refused : forall mx l,
  l <> [] -> all_expressions l -> node_minmax mx l = Raise EUnexpectedValue.
Proof. exact minmax_expressions. Qed.
Print Assumptions C16_expressions_always_refused.

(** Numbers and expressions together: accepted whatever their units, with the
    unit of one of the expressions, and classified linear. *)
Theorem C16_mixed_partial : forall mx l n0 k0,
  (* missing for the full statement: refusal of incoherent arguments, nonlinear class *)
  In (ONode n0) l -> In (ONum k0) l ->
  exists n n1, node_minmax mx l = Ok n /\ In (ONode n1) l /\ nd_unit n = nd_unit n1 /\ nd_ty n = ty_lin.
Proof. exact minmax_mixed. Qed.
Print Assumptions C16_mixed_partial.

Theorem C16_coherent_expressions_refuted : exists h e1 e2 n1 n2,
  build h e1 = Ok n1 /\ build h e2 = Ok n2 /\ coherent (nd_unit n1) (nd_unit n2) = Ok true /\
  build h (UMinMax false (AExpr e1 (AExpr e2 ANil))) = Raise EUnexpectedValue.
Proof.
  exists demo_heap, (UQty 0%nat), (UQty 3%nat). eexists _, _.
  split; [reflexivity|]. split; [reflexivity|]. split; reflexivity.
Qed.
Print Assumptions C16_coherent_expressions_refuted.

Theorem C16_incoherent_accepted_refuted : exists h e1 e2 k n1 n2 n,
  build h e1 = Ok n1 /\ build h e2 = Ok n2 /\ coherent (nd_unit n1) (nd_unit n2) = Ok false /\
  build h (UMinMax true (AExpr e1 (AExpr e2 (ANum k ANil)))) = Ok n /\ nd_ty n = ty_lin.
Proof.
  exists demo_heap, (UQty 0%nat), (UQty 1%nat), (PInt 1). eexists _, _, _.
  split; [reflexivity|]. split; [reflexivity|]. split; [reflexivity|]. split; reflexivity.
Qed.
Print Assumptions C16_incoherent_accepted_refuted.

Example C16_case_numbers : all_numbers [ONum (PInt 3); ONum (PInt 1); ONum (PInt 2)] /\
  exists n, node_minmax false [ONum (PInt 3); ONum (PInt 1); ONum (PInt 2)] = Ok n /\
            forall en, den (nd_sym n) en = Some 1%R.
Proof.
  split.
  - intros o H. simpl in H. repeat (destruct H as [<-|H]; [eauto|]). destruct H.
  - eexists. split; [reflexivity|]. intros en. simpl. unfold lift2, obind. f_equal.
    unfold Rmin. repeat destruct (Rle_dec _ _); lra.
Qed.

Example C16_case_mixed : exists n,
  node_minmax false [ONode (qty_call 0%nat (mk_var "x" u_m true)); ONum (PInt 1)] = Ok n /\
  nd_sym n = SMin (SSym "x") (SNum (PInt 1)).
Proof. eexists. split; reflexivity. Qed.
