(** Proofs about the linear / nonlinear / differential classification. *)
From Verif Require Import Base BaseFacts Num NumFacts UnitModel UnitFacts Sympy Node Build SpecExpr SpecDims BuildFacts.
From Coq Require Import Reals Lra.
From Flocq Require Import Core.
Notation num := Verif.Num.num.

(** *** Expressions without free symbols are constant *)
Lemma den_const e : fsyms e = [] -> forall en en', den e en = den e en'.
Proof.
  induction e; simpl; intros H en en'; try discriminate; try reflexivity;
    try (apply app_eq_nil in H; destruct H as [H1 H2];
         now rewrite (IHe1 H1 en en'), (IHe2 H2 en en')).
  now rewrite (IHe H en en').
Qed.

Lemma in_nil_iff {A} (l : list A) : (forall x, ~ In x l) -> l = [].
Proof. destruct l as [|a l]; [reflexivity|]. intros H. exfalso. apply (H a). now left. Qed.

(** *** Unknowns and the variable map *)
Lemma unspec_true h l : unspec h l <-> match hget h l with Some q => negb (q_spec q) | None => false end = true.
Proof.
  unfold unspec. destruct (hget h l) as [q|]; split.
  - intros [q' [E H]]. injection E as <-. now rewrite H.
  - intros H. exists q. split; [reflexivity|]. now destruct (q_spec q).
  - intros [q' [E _]]. discriminate.
  - discriminate.
Qed.

Lemma has_unknown_spec_mut h :
  (forall e, has_unknown h e = true <-> exists l, occurs l e /\ unspec h l) /\
  (forall r, has_unknown_args h r = true <-> exists l, occurs_args l r /\ unspec h l).
Proof.
  apply uexpr_uargs_ind; simpl.
  - intros l. rewrite <- unspec_true. split; [intros H; exists l; auto|]. intros [l' [<- H]]. exact H.
  - intros o e1 IH1 e2 IH2. rewrite orb_true_iff, IH1, IH2. firstorder.
  - tauto.
  - tauto.
  - tauto.
  - intros f k. split; [discriminate|]. intros [l [[] _]].
  - intros l t. rewrite <- unspec_true. split; [intros H; exists l; auto|]. intros [l' [<- H]]. exact H.
  - tauto.
  - split; [discriminate|]. intros [l [[] _]].
  - intros e IHe r IHr. rewrite orb_true_iff, IHe, IHr. firstorder.
  - tauto.
Qed.

Lemma has_unknown_vmap h e n : build h e = Ok n -> is_empty (nd_vmap n) = negb (has_unknown h e).
Proof.
  intros H. destruct (build_maps h e n H) as [_ [[_ [M1 M2]] _]].
  destruct (has_unknown h e) eqn:E; simpl.
  - apply (proj1 (has_unknown_spec_mut h)) in E. destruct E as [l Hl].
    destruct (M2 l Hl) as [q [_ Hq]]. destruct (nd_vmap n); [now destruct Hq|reflexivity].
  - destruct (nd_vmap n) as [|[x l] r] eqn:Ev; [reflexivity|]. exfalso.
    destruct (M1 x l) as [Hl _]; [simpl; now rewrite String.eqb_refl|].
    assert (has_unknown h e = true) by (apply (proj1 (has_unknown_spec_mut h)); eauto). congruence.
Qed.

Lemma known_const h e n :
  build h e = Ok n -> is_empty (nd_vmap n) = true -> forall en en', den (nd_sym n) en = den (nd_sym n) en'.
Proof.
  intros H Hv. apply den_const. destruct (build_maps h e n H) as [_ [_ M]].
  apply in_nil_iff. intros x Hx. apply M in Hx. destruct (nd_vmap n); [destruct Hx|discriminate].
Qed.

(** *** Affine closure *)
Definition zero_env : env := mkEnv (fun _ => 0%R) (fun _ _ => 0%R).

Lemma affine_const (f : env -> option R) : (forall en en', f en = f en') -> affine f.
Proof.
  intros H. destruct (f zero_env) as [c|] eqn:E.
  - right. exists c, []. intros en. rewrite (H en zero_env), E. simpl. f_equal. lra.
  - left. intros en. now rewrite (H en zero_env).
Qed.

Lemma lincomb_app cs ds en : lincomb (cs ++ ds) en = (lincomb cs en + lincomb ds en)%R.
Proof. induction cs as [|[x c] r IH]; simpl; [lra|]. rewrite IH. lra. Qed.

Definition scale_cs (k : R) (cs : list (string * R)) : list (string * R) :=
  map (fun xc => (fst xc, k * snd xc)%R) cs.

Lemma lincomb_scale k cs en : lincomb (scale_cs k cs) en = (k * lincomb cs en)%R.
Proof. induction cs as [|[x c] r IH]; simpl; [lra|]. fold (scale_cs k r). rewrite IH. lra. Qed.

Lemma affine_ext f g : (forall en, f en = g en) -> affine f -> affine g.
Proof.
  intros H [N|[c0 [cs E]]]; [left; intros en; now rewrite <- H|].
  right. exists c0, cs. intros en. now rewrite <- H.
Qed.

Lemma affine_add f g (s : R) :
  affine f -> affine g ->
  affine (fun en => obind (f en) (fun x => obind (g en) (fun y => Some (x + s * y)%R))).
Proof.
  intros [N|[c0 [cs E]]]; [intros _; left; intros en; now rewrite N|].
  intros [N|[d0 [ds F]]]; [left; intros en; rewrite E, N; reflexivity|].
  right. exists (c0 + s * d0)%R, (cs ++ scale_cs s ds). intros en. rewrite E, F. simpl.
  f_equal. rewrite lincomb_app, lincomb_scale. lra.
Qed.

(** Applying [x |-> x * k] or nothing. *)
Lemma affine_scale f (k : R) : affine f -> affine (fun en => obind (f en) (fun x => Some (k * x)%R)).
Proof.
  intros [N|[c0 [cs E]]]; [left; intros en; now rewrite N|].
  right. exists (k * c0)%R, (scale_cs k cs). intros en. rewrite E. simpl. f_equal.
  rewrite lincomb_scale. lra.
Qed.

Lemma affine_none : affine (fun _ => None).
Proof. now left. Qed.

Lemma affine_sum_arith f g :
  affine f -> affine g -> affine (fun en => arith BAdd (f en) (g en)).
Proof.
  intros Hf Hg. eapply affine_ext; [|apply (affine_add f g 1 Hf Hg)]. intros en. simpl.
  destruct (f en), (g en); simpl; try reflexivity. f_equal. lra.
Qed.
Lemma affine_sub_arith f g :
  affine f -> affine g -> affine (fun en => arith BSub (f en) (g en)).
Proof.
  intros Hf Hg. eapply affine_ext; [|apply (affine_add f g (-1) Hf Hg)]. intros en. simpl.
  destruct (f en), (g en); simpl; try reflexivity. f_equal. lra.
Qed.
Lemma affine_mul_arith f (g : env -> option R) :
  affine f -> (forall en en', g en = g en') ->
  affine (fun en => arith BMul (f en) (g en)) /\ affine (fun en => arith BMul (g en) (f en)).
Proof.
  intros Hf Hg. destruct (g zero_env) as [k|] eqn:E.
  - split; (eapply affine_ext; [|apply (affine_scale f k Hf)]); intros en; simpl;
      rewrite (Hg en zero_env), E; destruct (f en); simpl; try reflexivity. f_equal. lra.
  - split; (eapply affine_ext; [|apply affine_none]); intros en; simpl;
      rewrite (Hg en zero_env), E; destruct (f en); reflexivity.
Qed.
Lemma affine_div_arith f (g : env -> option R) :
  affine f -> (forall en en', g en = g en') -> affine (fun en => arith BDiv (f en) (g en)).
Proof.
  intros Hf Hg. destruct (g zero_env) as [k|] eqn:E.
  - destruct (Req_EM_T k 0) as [Hk|Hk].
    + eapply affine_ext; [|apply affine_none]. intros en. simpl. rewrite (Hg en zero_env), E.
      destruct (f en); simpl; [|reflexivity]. now destruct (Req_EM_T k 0).
    + eapply affine_ext; [|apply (affine_scale f (/ k) Hf)]. intros en. simpl.
      rewrite (Hg en zero_env), E. destruct (f en); simpl; [|reflexivity].
      destruct (Req_EM_T k 0); [contradiction|]. f_equal. unfold Rdiv. lra.
  - eapply affine_ext; [|apply affine_none]. intros en. simpl.
    rewrite (Hg en zero_env), E. now destruct (f en).
Qed.

Lemma ty_prec_lin a b : one_class a -> one_class b -> ty_prec a b = ty_lin -> a = ty_lin /\ b = ty_lin.
Proof.
  intros [-> | [-> | ->]] [-> | [-> | ->]]; unfold ty_prec; simpl; intros H; try discriminate; auto.
Qed.

Lemma ty_prec_nonlin_r a : ty_prec a ty_nonlin <> ty_lin.
Proof. unfold ty_prec. simpl. rewrite orb_true_r, orb_false_r. destruct (t_diff a); discriminate. Qed.

Lemma const_num (k : num) : forall en en' : env, num_value k = num_value k.
Proof. reflexivity. Qed.

Theorem linear_affine h e n :
  build h e = Ok n -> no_hidden_nonlinearity h e = true -> nd_ty n = ty_lin ->
  affine (fun en => den (nd_sym n) en).
Proof.
  revert n. induction e; simpl; intros n H Hs Ht.
  - apply build_qty_shape in H. destruct H as [q [E ->]]. unfold qty_call.
    destruct (q_spec q); simpl.
    + apply affine_const. reflexivity.
    + right. exists 0%R, [(q_name q, 1%R)]. intros en. simpl. f_equal. lra.
  - binv. apply andb_prop in Hs. destruct Hs as [Hs Ho]. apply andb_prop in Hs. destruct Hs as [Hs1 Hs2].
    assert (Hsh := node_op_ok_shape _ _ _ _ H). destruct Hsh as [Hden _].
    eapply affine_ext; [intros en; symmetry; apply Hden|].
    assert (C1 := build_class _ _ _ Hb). assert (C2 := build_class _ _ _ Hb0).
    destruct o; simpl in H; binv; simpl in Ht.
    + destruct (ty_prec_lin _ _ C1 C2 Ht). apply affine_sum_arith; [now apply IHe1|now apply IHe2].
    + destruct (ty_prec_lin _ _ C1 C2 Ht). apply affine_sub_arith; [now apply IHe1|now apply IHe2].
    + unfold ty_product in Ht. destruct (is_empty (nd_vmap x0)) eqn:E2.
      * exact (proj1 (affine_mul_arith _ _ (IHe1 _ Hb Hs1 Ht) (known_const h e2 x0 Hb0 E2))).
      * destruct (is_empty (nd_vmap x)) eqn:E1; [|discriminate].
        exact (proj2 (affine_mul_arith _ _ (IHe2 _ Hb0 Hs2 Ht) (known_const h e1 x Hb E1))).
    + unfold ty_product in Ht. destruct (is_empty (nd_vmap x0)) eqn:E2.
      * apply affine_div_arith; [now apply IHe1|]. now apply (known_const h e2).
      * destruct (is_empty (nd_vmap x)) eqn:E1; [|discriminate]. exfalso.
        rewrite (has_unknown_vmap h e2 _ Hb0) in E2. rewrite (has_unknown_vmap h e1 _ Hb) in E1.
        destruct (has_unknown h e1), (has_unknown h e2); simpl in *; discriminate.
    + destruct (is_dimensionless (nd_unit x0)); [|discriminate]. binv. simpl in Ht.
      now destruct (ty_prec_nonlin_r (nd_ty x)).
  - binv. assert (Hsh := node_op_num_shape _ _ _ _ H). destruct Hsh as [Hden _].
    eapply affine_ext; [intros en; symmetry; apply Hden|].
    assert (Hk : affine (fun _ : env => num_value k)) by (apply affine_const; reflexivity).
    destruct o; simpl in H; binv; simpl in Ht.
    + now apply affine_sum_arith; [apply IHe|].
    + now apply affine_sub_arith; [apply IHe|].
    + exact (proj1 (affine_mul_arith _ (fun _ => num_value k) (IHe _ Hb Hs Ht) (const_num k))).
    + apply (affine_div_arith _ (fun _ => num_value k)); [now apply IHe|reflexivity].
    + now destruct (ty_prec_nonlin_r (nd_ty x)).
  - binv. assert (Hsh := node_rop_shape _ _ _ _ H). destruct Hsh as [Hden _].
    eapply affine_ext; [intros en; symmetry; apply Hden|].
    assert (Hk : affine (fun _ : env => num_value k)) by (apply affine_const; reflexivity).
    destruct o; simpl in H; unfold node_rsub, node_rdiv, node_rpow in H; simpl in H; binv; simpl in Ht.
    + now apply (affine_sum_arith (fun _ => num_value k)); [|apply IHe].
    + now apply (affine_sub_arith (fun _ => num_value k)); [|apply IHe].
    + exact (proj2 (affine_mul_arith _ (fun _ => num_value k) (IHe _ Hb Hs Ht) (const_num k))).
    + now destruct (ty_prec_nonlin_r (nd_ty x)).
  - binv. apply node_fun_shape in H. subst n. discriminate Ht.
  - discriminate.
  - apply build_diff_shape in H. destruct H as [q [_ [_ [_ [p [_ [_ [_ [_ [_ [_ [E _]]]]]]]]]]]].
    rewrite E in Ht. discriminate.
  - apply affine_const.
    assert (Hb : build h (UMinMax mx l) = Ok n) by exact H.
    apply (known_const h (UMinMax mx l) n Hb).
    rewrite (has_unknown_vmap h (UMinMax mx l) n Hb). exact Hs.
Qed.

(** *** Derivatives *)
Lemma has_derivative_unknown_mut h :
  (forall e, has_derivative h e = true -> has_unknown h e = true) /\
  (forall r, has_derivative_args h r = true -> has_unknown_args h r = true).
Proof.
  apply uexpr_uargs_ind; simpl; auto; try discriminate.
  - intros o e1 IH1 e2 IH2. rewrite !orb_true_iff. tauto.
  - intros e IHe r IHr. rewrite !orb_true_iff. tauto.
Qed.

Lemma ty_prec_diff a b : one_class a -> one_class b -> (ty_prec a b = ty_diff <-> a = ty_diff \/ b = ty_diff).
Proof.
  intros [-> | [-> | ->]] [-> | [-> | ->]]; unfold ty_prec; simpl; split; intros H; try discriminate; auto;
    destruct H; discriminate.
Qed.

Theorem differential_exact h e n :
  build h e = Ok n -> derivatives_outside h e = true ->
  (nd_ty n = ty_diff <-> has_derivative h e = true).
Proof.
  revert n. induction e; simpl; intros n H Hs.
  - apply build_qty_shape in H. destruct H as [q [E ->]]. unfold qty_call.
    destruct (q_spec q); simpl; split; discriminate.
  - binv. apply andb_prop in Hs. destruct Hs as [Hs Ho]. apply andb_prop in Hs. destruct Hs as [Hs1 Hs2].
    assert (C1 := build_class _ _ _ Hb). assert (C2 := build_class _ _ _ Hb0).
    specialize (IHe1 _ Hb Hs1). specialize (IHe2 _ Hb0 Hs2).
    assert (V1 := has_unknown_vmap h e1 _ Hb). assert (V2 := has_unknown_vmap h e2 _ Hb0).
    assert (D1 := proj1 (has_derivative_unknown_mut h) e1). assert (D2 := proj1 (has_derivative_unknown_mut h) e2).
    rewrite orb_true_iff.
    destruct o; simpl in H; binv; simpl.
    + rewrite ty_prec_diff by assumption. tauto.
    + rewrite ty_prec_diff by assumption. tauto.
    + unfold ty_product. rewrite V1, V2.
      destruct (has_unknown h e2) eqn:U2; simpl.
      * destruct (has_unknown h e1) eqn:U1; simpl.
        -- split; [discriminate|]. intros HD. simpl in Ho. rewrite orb_false_r in Ho.
           apply negb_true_iff, orb_false_iff in Ho. destruct Ho; destruct HD; congruence.
        -- rewrite IHe2. split; [auto|]. intros [HD|HD]; [apply D1 in HD; discriminate|exact HD].
      * rewrite IHe1. split; [auto|]. intros [HD|HD]; [exact HD|apply D2 in HD; discriminate].
    + unfold ty_product. rewrite V1, V2.
      destruct (has_unknown h e2) eqn:U2; simpl.
      * destruct (has_unknown h e1) eqn:U1; simpl.
        -- split; [discriminate|]. intros HD. simpl in Ho. rewrite orb_false_r in Ho.
           apply negb_true_iff, orb_false_iff in Ho. destruct Ho; destruct HD; congruence.
        -- rewrite IHe2. split; [auto|]. intros [HD|HD]; [apply D1 in HD; discriminate|exact HD].
      * rewrite IHe1. split; [auto|]. intros [HD|HD]; [exact HD|apply D2 in HD; discriminate].
    + destruct (is_dimensionless (nd_unit x0)); [|discriminate]. binv. simpl.
      rewrite ty_prec_diff by (assumption || (unfold one_class; auto)).
      apply negb_true_iff in Ho. rewrite Ho, IHe1. intuition discriminate.
  - binv. assert (C1 := build_class _ _ _ Hb). specialize (IHe _ Hb Hs).
    destruct o; simpl in H; binv; simpl; try assumption.
    rewrite ty_prec_diff by (assumption || (unfold one_class; auto)). rewrite IHe. intuition discriminate.
  - binv. assert (C1 := build_class _ _ _ Hb). specialize (IHe _ Hb Hs).
    destruct o; simpl in H; unfold node_rsub, node_rdiv, node_rpow in H; simpl in H; binv; simpl; try assumption.
    rewrite ty_prec_diff by (assumption || (unfold one_class; auto)). rewrite IHe. intuition discriminate.
  - binv. apply node_fun_shape in H. subst n. simpl. apply andb_prop in Hs. destruct Hs as [_ Hs].
    apply negb_true_iff in Hs. rewrite Hs. split; discriminate.
  - discriminate.
  - apply build_diff_shape in H. destruct H as [q [E [_ [_ [p [_ [_ [_ [_ [_ [_ [-> _]]]]]]]]]]]].
    rewrite E in *. tauto.
  - binv. apply node_minmax_shape in H. destruct H as [_ [_ [_ [_ ->]]]].
    apply negb_true_iff in Hs. rewrite Hs. split; discriminate.
Qed.

Theorem differential_sound h e n :
  build h e = Ok n -> derivatives_unspecified h e = true -> nd_ty n = ty_diff ->
  has_derivative h e = true.
Proof.
  revert n. induction e; simpl; intros n H Hs Ht.
  - apply build_qty_shape in H. destruct H as [q [E ->]]. unfold qty_call in Ht.
    destruct (q_spec q); discriminate Ht.
  - binv. apply andb_prop in Hs. destruct Hs as [Hs1 Hs2].
    assert (C1 := build_class _ _ _ Hb). assert (C2 := build_class _ _ _ Hb0).
    rewrite orb_true_iff.
    assert (P : ty_product x x0 = ty_diff -> has_derivative h e1 = true \/ has_derivative h e2 = true).
    { unfold ty_product. destruct (is_empty (nd_vmap x0)); [left; eauto|].
      destruct (is_empty (nd_vmap x)); [right; eauto|discriminate]. }
    destruct o; simpl in H; binv; simpl in Ht; try (now apply P).
    + apply ty_prec_diff in Ht; try assumption. destruct Ht; [left|right]; eauto.
    + apply ty_prec_diff in Ht; try assumption. destruct Ht; [left|right]; eauto.
    + destruct (is_dimensionless (nd_unit x0)); [|discriminate]. binv. simpl in Ht.
      apply ty_prec_diff in Ht; try (assumption || (unfold one_class; auto)).
      destruct Ht; [left; eauto|discriminate].
  - binv. assert (C1 := build_class _ _ _ Hb).
    destruct o; simpl in H; binv; simpl in Ht; eauto.
    apply ty_prec_diff in Ht; try (assumption || (unfold one_class; auto)).
    destruct Ht; [eauto|discriminate].
  - binv. assert (C1 := build_class _ _ _ Hb).
    destruct o; simpl in H; unfold node_rsub, node_rdiv, node_rpow in H; simpl in H; binv; simpl in Ht; eauto.
    apply ty_prec_diff in Ht; try (assumption || (unfold one_class; auto)).
    destruct Ht; [eauto|discriminate].
  - binv. apply node_fun_shape in H. subst n. discriminate.
  - discriminate.
  - apply build_diff_shape in H. destruct H as [q [E _]]. now rewrite E in *.
  - binv. apply node_minmax_shape in H. destruct H as [_ [_ [_ [_ E]]]]. rewrite E in Ht. discriminate.
Qed.
