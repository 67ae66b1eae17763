(** Linear problems are matrix equations (C77). *)
From Verif Require Import Base BaseFacts Num NumFacts UnitModel UnitFacts Sympy Node Build EquationModel ModelModel ProblemModel
  SpecUnits SpecExpr SpecDims SpecQty SpecModel BuildFacts ClassFacts EquationFacts ModelFacts SpecInc IncFacts
  SpecProblem ProblemFacts SessionFacts SolverModel SpecSolver SolverFacts OdeFacts SpecWritten SpecMatrix EqInvFacts.
From Coq Require Import Reals Lra Permutation.
Notation num := Verif.Num.num.

(** ** The shape of expressions classified linear *)
Fixpoint lin_shape (e : sx) : bool :=
  match e with
  | SNum _ | SSym _ => true
  | SAdd a b | SSub a b => lin_shape a && lin_shape b
  | SMul a b => lin_shape a && is_empty (fsyms b) || is_empty (fsyms a) && lin_shape b
  | SDiv a b => lin_shape a && is_empty (fsyms b) || is_empty (fsyms a)
  | SMin _ _ | SMax _ _ => true
  | SPow _ _ | SFun _ _ | SDer _ _ => false
  end.

Lemma known_syms h e n : build h e = Ok n -> is_empty (nd_vmap n) = true -> is_empty (fsyms (nd_sym n)) = true.
Proof.
  intros H Hv. destruct (build_maps h e n H) as [_ [_ M]]. assert (fsyms (nd_sym n) = []) as ->; [|reflexivity].
  apply in_nil_iff. intros x Hx. apply M in Hx. destruct (nd_vmap n); [destruct Hx|discriminate].
Qed.

Lemma minmax_shape mx l : forallb is_num_opd l = true \/ forallb is_node_opd l = false -> (forall o, In o l -> is_node_opd o = true \/ is_num_opd o = true) ->
  lin_shape (sx_minmax mx (map opd_sym l)) = true.
Proof.
  intros H Ho. destruct l as [|a [|b l]]; [reflexivity| |destruct mx; reflexivity]. cbn [map sx_minmax].
  destruct a as [n|k|]; [|reflexivity|reflexivity]. destruct H as [H|H]; discriminate H.
Qed.

Lemma linear_shape h e : forall n, build h e = Ok n -> nd_ty n = ty_lin -> lin_shape (nd_sym n) = true.
Proof.
  induction e; cbn [build]; intros n H Ht.
  - apply build_qty_shape in H. destruct H as [q [E ->]]. unfold qty_call. now destruct (q_spec q).
  - binv. assert (C1 := build_class _ _ _ Hb). assert (C2 := build_class _ _ _ Hb0).
    destruct o; cbn [node_op node_add node_sub node_mul node_div node_pow] in H; binv; cbn [nd_ty nd_sym lin_shape] in *.
    + destruct (ty_prec_lin _ _ C1 C2 Ht). now rewrite (IHe1 _ Hb), (IHe2 _ Hb0).
    + destruct (ty_prec_lin _ _ C1 C2 Ht). now rewrite (IHe1 _ Hb), (IHe2 _ Hb0).
    + unfold ty_product in Ht. destruct (is_empty (nd_vmap x0)) eqn:E2.
      * rewrite (IHe1 _ Hb Ht), (known_syms _ _ _ Hb0 E2). reflexivity.
      * destruct (is_empty (nd_vmap x)) eqn:E1; [|discriminate].
        rewrite (IHe2 _ Hb0 Ht), (known_syms _ _ _ Hb E1). apply Bool.orb_true_r.
    + unfold ty_product in Ht. destruct (is_empty (nd_vmap x0)) eqn:E2.
      * rewrite (IHe1 _ Hb Ht), (known_syms _ _ _ Hb0 E2). reflexivity.
      * destruct (is_empty (nd_vmap x)) eqn:E1; [|discriminate]. rewrite (known_syms _ _ _ Hb E1). apply Bool.orb_true_r.
    + destruct (is_dimensionless (nd_unit x0)); [|discriminate]. binv. cbn [nd_ty] in Ht. now destruct (ty_prec_nonlin_r (nd_ty x)).
  - binv. destruct o; cbn [node_op node_add node_sub node_mul node_div node_pow] in H; binv; cbn [nd_ty nd_sym lin_shape fsyms is_empty] in *;
      try (now rewrite (IHe _ Hb Ht)).
    now destruct (ty_prec_nonlin_r (nd_ty x)).
  - binv. destruct o; cbn [node_rop node_rsub node_rdiv node_rpow node_add node_sub node_mul node_div node_pow rbind] in H; binv;
      cbn [nd_ty nd_sym lin_shape fsyms is_empty] in *; try (now rewrite (IHe _ Hb Ht)); try discriminate H.
    now destruct (ty_prec_nonlin_r (nd_ty x)).
  - binv. apply node_fun_shape in H. subst n. discriminate Ht.
  - discriminate.
  - apply build_diff_shape in H. destruct H as [q [_ [_ [_ [p [_ [_ [_ [_ [_ [_ [E _]]]]]]]]]]]]. rewrite E in Ht. discriminate.
  - binv. assert (F := proj2 (proj2 (build_maps_mut h) _ _ Hb)). rewrite Forall_forall in F.
    unfold node_minmax in H. destruct (forallb is_num_opd x) eqn:En; [injection H as <-; cbn [nd_sym]; apply minmax_shape; auto|].
    destruct (forallb is_node_opd x) eqn:Eo; [discriminate|]. destruct (first_unit x); [|discriminate]. injection H as <-. cbn [nd_sym]. apply minmax_shape; auto.
Qed.

(** ** Renaming keeps the shape *)
Lemma fsyms_rename1 a b e : fsyms (rename1 a b e) = map (ren1 a b) (fsyms e).
Proof. induction e; cbn; try reflexivity; try (rewrite IHe1, IHe2, map_app; reflexivity). exact IHe. Qed.
Lemma empty_map {A B} (f : A -> B) l : is_empty (map f l) = is_empty l.
Proof. now destruct l. Qed.
Lemma shape_rename1 a b e : lin_shape (rename1 a b e) = lin_shape e.
Proof.
  induction e; cbn [rename1 lin_shape]; try reflexivity; rewrite ?IHe1, ?IHe2, ?fsyms_rename1, ?empty_map; reflexivity.
Qed.
Lemma shape_subs m : forall e, lin_shape (subs m e) = lin_shape e.
Proof. unfold subs. induction m as [|[a b] m IH]; intros e; cbn; [reflexivity|]. rewrite IH. apply shape_rename1. Qed.
Lemma shape_obj m e s : subs_obj m e = Ok s -> lin_shape s = lin_shape e.
Proof. unfold subs_obj. destruct (is_raw e); [discriminate|]. intros H. injection H as <-. apply shape_subs. Qed.
Lemma shape_try m e : lin_shape (subs_try m e) = lin_shape e.
Proof. unfold subs_try. destruct (subs_obj m e) eqn:E; [exact (shape_obj _ _ _ E)|reflexivity]. Qed.

(** ** Linear equations of sessions *)
Definition linear_so (x : option node) (el : option (node * node)) (f : bool) (t : option eclass) : Prop :=
  t = Some CLinear -> (forall n, x = Some n -> lin_shape (nd_sym n) = true) /\ (forall a c, el = Some (a, c) -> lin_shape (nd_sym c) = true).

Lemma type_lin n : one_class (nd_ty n) -> type_of n = Some CLinear -> nd_ty n = ty_lin.
Proof. unfold type_of. intros [E | [E | E]]; rewrite E; cbn; intros H; [reflexivity|discriminate H..]. Qed.

Lemma linear_made h q arg name e : build_eq h q = Ok arg -> set_residual (blank_eqn name) arg = (e, Ok tt) ->
  linear_so (eq_expr e) (eq_elem e) (eq_elementary e) (eq_type e).
Proof.
  intros Hb Hr T. destruct (eq_data _ _ _ _ _ Hb Hr) as (n & En & _ & Ty & O & _). rewrite Ty in T. apply (type_lin n O) in T. rewrite En.
  destruct q as [x|l r|l k]; simpl in Hb; binv.
  - unfold set_residual, finish_residual in Hr. cbv beta iota zeta delta [with_form with_expr with_elem with_type with_objs eq_expr] in Hr.
    injection Hr as <-. cbn [eq_expr eq_elem] in *. injection En as <-. split.
    + intros n' E. injection E as <-. exact (linear_shape _ _ _ Hb0 T).
    + discriminate.
  - unfold set_residual in Hr. destruct (node_sub x (ONode x0)) as [d|] eqn:Es; [|discriminate].
    unfold finish_residual in Hr. cbv beta iota zeta delta [with_form with_expr with_elem with_type with_objs eq_expr] in Hr.
    injection Hr as <-. cbn [eq_expr eq_elem] in *. injection En as <-.
    assert (Hbd : build h (UBin BSub l r) = Ok d) by (cbn [build]; rewrite Hb0; cbn [rbind]; rewrite Hb1; exact Es).
    split.
    + intros n' E. injection E as <-. exact (linear_shape _ _ _ Hbd T).
    + intros a c E. injection E as _ <-. cbn [node_sub] in Es. binv. cbn [nd_ty] in T.
      apply ty_prec_lin in T; try (eapply build_class; eassumption). exact (linear_shape _ _ _ Hb1 (proj2 T)).
  - unfold set_residual in Hr. destruct (node_sub x (ONode (number_node k (nd_unit x)))) as [d|] eqn:Es; [|discriminate].
    unfold finish_residual in Hr. cbv beta iota zeta delta [with_form with_expr with_elem with_type with_objs eq_expr] in Hr.
    injection Hr as <-. cbn [eq_expr eq_elem] in *. injection En as <-. split.
    + intros n' E. injection E as <-. cbn [node_sub number_node nd_unit] in Es. binv. cbn [nd_ty] in T.
      apply ty_prec_lin in T; [|eapply build_class; eassumption|left; reflexivity].
      cbn [nd_sym number_node lin_shape]. rewrite (linear_shape _ _ _ Hb0 (proj1 T)). reflexivity.
    + intros a c E. injection E as _ <-. reflexivity.
Qed.

Lemma linear_renamed names w e e2 : linear_so (eq_expr e) (eq_elem e) (eq_elementary e) (eq_type e) ->
  convert_symbolic names w e = Ok e2 -> linear_so (eq_expr e2) (eq_elem e2) (eq_elementary e2) (eq_type e2).
Proof.
  intros L H. unfold convert_symbolic in H. destruct (eq_expr e) as [n|] eqn:En; [|discriminate]. binv. intros T.
  cbn [eq_type eq_expr eq_elem] in *. destruct (L T) as [L1 L2]. split.
  - intros n' E. injection E as <-. cbn [node_with nd_sym]. rewrite (shape_obj _ _ _ Hb0). now apply L1.
  - intros a c ->. clear Hb Hb0 Hb2 L. destruct (eq_elem e) as [[a0 c0]|]; [|discriminate Hb1].
    unfold convert_sides in Hb1. cbn [rbind] in Hb1.
    destruct (subs_obj names (nd_repr a0)); [|discriminate Hb1]. cbn [rbind] in Hb1.
    destruct (subs_obj names (nd_repr c0)); [|discriminate Hb1]. cbn [rbind] in Hb1.
    destruct (pick_all w (uniq (fsyms a1))); [|discriminate Hb1]. cbn [rbind] in Hb1.
    destruct (pick_all w (uniq (fsyms a2))); [|discriminate Hb1]. cbn [rbind] in Hb1.
    injection Hb1 as <- <-. cbn [node_with nd_sym]. rewrite shape_try. now apply (L2 a0).
Qed.

Lemma linear_equation acts i m d k e : get_model (fst (run_acts start_session acts)) i = Some (m, d) -> In (k, e) (m_eqs m) ->
  linear_so (eq_expr e) (eq_elem e) (eq_elementary e) (eq_type e).
Proof. intros H. exact (run_inv linear_so linear_made linear_renamed acts i m d H k e). Qed.

(** ** Shape and affinity *)
Lemma empty_const e : is_empty (fsyms e) = true -> forall en en', den e en = den e en'.
Proof. intros H. apply den_const. now destruct (fsyms e). Qed.
Lemma arith_lift2 f o a b : (forall x y, arith o (Some x) (Some y) = Some (f x y)) -> lift2 f a b = arith o a b.
Proof. intros H. unfold lift2, obind. destruct a as [x|], b as [y|]; [now rewrite H|destruct o; reflexivity..]. Qed.
Lemma arith_div a b : obind a (fun x => obind b (fun y => rdiv x y)) = arith BDiv a b.
Proof. destruct a as [x|], b as [y|]; reflexivity. Qed.

Lemma shape_affine e : lin_shape e = true -> in_the_open e = true -> affine (den e).
Proof.
  induction e; cbn [lin_shape in_the_open]; intros S O; try discriminate S.
  - apply affine_const. reflexivity.
  - right. exists 0%R, [(x, 1%R)]. intros en. cbn. f_equal. lra.
  - apply andb_prop in S, O. apply (affine_ext (fun en => arith BAdd (den e1 en) (den e2 en))).
    + intros en. symmetry. now apply arith_lift2.
    + apply affine_sum_arith; tauto.
  - apply andb_prop in S, O. apply (affine_ext (fun en => arith BSub (den e1 en) (den e2 en))).
    + intros en. symmetry. now apply arith_lift2.
    + apply affine_sub_arith; tauto.
  - apply andb_prop in O. apply (affine_ext (fun en => arith BMul (den e1 en) (den e2 en))).
    + intros en. symmetry. now apply arith_lift2.
    + apply Bool.orb_prop in S. destruct S as [S|S]; apply andb_prop in S; destruct S as [S1 S2].
      * exact (proj1 (affine_mul_arith _ _ (IHe1 S1 (proj1 O)) (empty_const _ S2))).
      * exact (proj2 (affine_mul_arith _ _ (IHe2 S2 (proj2 O)) (empty_const _ S1))).
  - apply andb_prop in O. destruct O as [O1 O2]. apply (affine_ext (fun en => arith BDiv (den e1 en) (den e2 en))).
    + intros en. symmetry. apply arith_div.
    + apply affine_div_arith; [|now apply empty_const]. apply Bool.orb_prop in S. destruct S as [S|S].
      * apply andb_prop in S. tauto.
      * apply affine_const. now apply empty_const.
  - apply andb_prop in O. destruct O as [O1 O2]. apply affine_const. intros en en'. cbn [den]. now rewrite (empty_const _ O1 en en'), (empty_const _ O2 en en').
  - apply andb_prop in O. destruct O as [O1 O2]. apply affine_const. intros en en'. cbn [den]. now rewrite (empty_const _ O1 en en'), (empty_const _ O2 en en').
Qed.

(** ** Rows *)
Fixpoint coef (cs : list (string * R)) (v : string) : R :=
  match cs with [] => 0%R | (y, k) :: r => ((if String.eqb v y then k else 0) + coef r v)%R end.
Definition only (vars : list string) (en : env) : env :=
  mkEnv (fun x => if mem_str x vars then e_sym en x else 0%R) (e_der en).

Lemma dot_zero (g : string -> R) vars : dot (map (fun _ => 0%R) vars) (map g vars) = 0%R.
Proof. induction vars; cbn; [reflexivity|]. rewrite IHvars. lra. Qed.
Lemma dot_plus (f1 f2 g : string -> R) vars : dot (map (fun v => (f1 v + f2 v)%R) vars) (map g vars) = (dot (map f1 vars) (map g vars) + dot (map f2 vars) (map g vars))%R.
Proof. induction vars; cbn; [lra|]. rewrite IHvars. lra. Qed.
Lemma dot_absent y k (g : string -> R) vars : ~ In y vars -> dot (map (fun v => if String.eqb v y then k else 0%R) vars) (map g vars) = 0%R.
Proof.
  induction vars as [|v vars IH]; cbn [map dot]; intros H; [reflexivity|]. rewrite IH by (intros Q; apply H; now right).
  destruct (String.eqb_spec v y) as [->|]; [destruct H; now left|lra].
Qed.
Lemma dot_one y k (g : string -> R) vars : NoDup vars -> dot (map (fun v => if String.eqb v y then k else 0%R) vars) (map g vars) = (k * (if mem_str y vars then g y else 0))%R.
Proof.
  induction vars as [|v vars IH]; cbn [map dot]; intros N; [cbn; lra|]. apply NoDup_cons_iff in N. destruct N as [N1 N2].
  destruct (String.eqb_spec v y) as [->|D].
  - rewrite dot_absent by exact N1. replace (mem_str y (y :: vars)) with true; [lra|]. symmetry. apply mem_str_spec. now left.
  - rewrite (IH N2). replace (mem_str y (v :: vars)) with (mem_str y vars); [lra|].
    unfold mem_str. cbn. destruct (String.eqb_spec y v); [congruence|reflexivity].
Qed.
Lemma lincomb_dot vars cs en : NoDup vars -> lincomb cs (only vars en) = dot (map (coef cs) vars) (map (e_sym en) vars).
Proof.
  intros N. induction cs as [|[y k] cs IH]; cbn [lincomb].
  - symmetry. exact (dot_zero (e_sym en) vars).
  - rewrite IH. cbn [coef]. rewrite (dot_plus (fun v => if String.eqb v y then k else 0%R) (coef cs)), dot_one by exact N. reflexivity.
Qed.

Lemma shape_plain e : lin_shape e = true -> in_the_open e = true -> ders e = [] /\ incl (plain_syms e) (fsyms e).
Proof.
  assert (E : forall x, is_empty (fsyms x) = true -> ders x = [] /\ incl (plain_syms x) (fsyms x)).
  { induction x; cbn [fsyms ders plain_syms]; intros H; try discriminate H; try (split; [reflexivity|now intros ?]);
      try (assert (is_empty (fsyms x1) = true /\ is_empty (fsyms x2) = true) as [H1 H2] by (destruct (fsyms x1), (fsyms x2); auto);
           destruct (IHx1 H1) as [-> I1], (IHx2 H2) as [-> I2]; split; [reflexivity|]; apply incl_app_app; assumption).
    now apply IHx. }
  induction e; cbn [lin_shape in_the_open fsyms ders plain_syms]; intros S O; try discriminate S; try (split; [reflexivity|now intros ?]).
  1,2: apply andb_prop in S, O; destruct S as [S1 S2], O as [O1 O2]; destruct (IHe1 S1 O1) as [-> I1], (IHe2 S2 O2) as [-> I2];
    split; [reflexivity|]; apply incl_app_app; assumption.
  - apply andb_prop in O. destruct O as [O1 O2]. apply Bool.orb_prop in S.
    assert (ders e1 = [] /\ incl (plain_syms e1) (fsyms e1)) as [-> I1] by (destruct S as [S|S]; apply andb_prop in S; destruct S; auto).
    assert (ders e2 = [] /\ incl (plain_syms e2) (fsyms e2)) as [-> I2] by (destruct S as [S|S]; apply andb_prop in S; destruct S; auto).
    split; [reflexivity|]. apply incl_app_app; assumption.
  - apply andb_prop in O. destruct O as [O1 O2]. apply Bool.orb_prop in S.
    assert (ders e1 = [] /\ incl (plain_syms e1) (fsyms e1)) as [-> I1] by (destruct S as [S|S]; [apply andb_prop in S; destruct S|]; auto).
    destruct (E e2 O2) as [-> I2]. split; [reflexivity|]. apply incl_app_app; assumption.
  - apply andb_prop in O. destruct O as [O1 O2]. destruct (E e1 O1) as [-> I1], (E e2 O2) as [-> I2]. split; [reflexivity|]. apply incl_app_app; assumption.
  - apply andb_prop in O. destruct O as [O1 O2]. destruct (E e1 O1) as [-> I1], (E e2 O2) as [-> I2]. split; [reflexivity|]. apply incl_app_app; assumption.
Qed.

Lemma shape_row vars e : lin_shape e = true -> in_the_open e = true -> NoDup vars -> incl (fsyms e) vars -> (exists en, den e en <> None) ->
  exists r c, List.length r = List.length vars /\ forall en, den e en = Some (dot r (map (e_sym en) vars) - c)%R.
Proof.
  intros S O N I [en0 D]. destruct (shape_affine e S O) as [K|[c0 [cs K]]]; [destruct D; apply K|].
  exists (map (coef cs) vars), (- c0)%R. split; [now rewrite map_length|]. intros en.
  destruct (shape_plain e S O) as [Z P].
  rewrite (den_agree e en (only vars en)).
  - rewrite K, (lincomb_dot vars cs en N). f_equal. lra.
  - intros x Hx. cbn. apply P, I in Hx. apply mem_str_spec in Hx. now rewrite Hx.
  - rewrite Z. intros ? ? [].
Qed.

(** ** Blocks *)
Lemma Forall2_in_r {A B} (P : A -> B -> Prop) l l' y : Forall2 P l l' -> In y l' -> exists x, In x l /\ P x y.
Proof. intros H. induction H as [|a c l l' Pa F IH]; intros Hy; [destruct Hy|]. destruct Hy as [<-|Hy]; [exists a; split; [now left|exact Pa]|]. destruct (IH Hy) as (x & Hx & Px). exists x. split; [now right|exact Px]. Qed.
Lemma in_equations_of s is e : In e (equations_of s is) -> exists i m k, In i is /\ model_of s i = Some m /\ In (k, e) (m_eqs m).
Proof.
  unfold equations_of. intros H. apply in_flat_map in H. destruct H as (i & Hi & He). destruct (model_of s i) as [m|] eqn:E; [|destruct He].
  apply in_map_iff in He. destruct He as ([k e'] & <- & Hk). exists i, m, k. auto.
Qed.
Lemma linear_block acts s b : resolved acts s b -> problem_type b = Some PTLinear -> forall x, In x (b_exprs b) -> lin_shape x = true.
Proof.
  intros R T x Hx. destruct (block_equations _ _ _ R) as (_ & Eq & _ & Pm & Li & _ & _).
  assert (A : forall e, In e (b_eqs b) -> eq_type e = Some CLinear).
  { intros e He. apply Li. apply (Permutation_in _ (Permutation_sym Pm)) in He.
    unfold problem_type in T. destruct (b_nonlin b), (b_diff b); cbn in T; destruct (b_lin b); cbn in *; try discriminate T.
    rewrite app_nil_r in He. exact He. }
  assert (L := map_res_in _ _ _ (bf_list _ _ (proj1 (proj2 (resolved_block _ _ _ R))))).
  destruct (Forall2_in_r _ _ _ _ L Hx) as (e & He & G).
  assert (Le : linear_so (eq_expr e) (eq_elem e) (eq_elementary e) (eq_type e)).
  { assert (He' := He). rewrite Eq in He'. apply in_equations_of in He'. destruct He' as (i & m & k & _ & Hm & Hk).
    destruct R as [R _]. unfold model_of in Hm. destruct (get_model (fst s) i) as [[m' d]|] eqn:Gm; [|discriminate]. injection Hm as ->.
    apply (linear_equation (acts ++ [AResolve]) i m d k e); [|exact Hk]. rewrite run_acts_app. cbn [run_acts fold_left]. 
    rewrite R. exact Gm. }
  destruct (Le (A e He)) as [L1 L2]. unfold get_symbolic in G. destruct (eq_elementary e).
  - destruct (eq_elem e) as [[a c]|]; [|discriminate]. injection G as <-. now apply (L2 a).
  - destruct (eq_expr e) as [n|]; [|discriminate]. injection G as <-. now apply L1.
Qed.

Lemma rows_exist vars es : (forall x, In x es -> exists r c, List.length r = List.length vars /\ forall en, den x en = Some (dot r (map (e_sym en) vars) - c)%R) ->
  exists rows, matrix_of vars es rows.
Proof.
  induction es as [|x es IH]; intros H; [exists []; constructor|].
  destruct IH as [rows M]; [intros y Hy; apply H; now right|]. destruct (H x (or_introl eq_refl)) as (r & c & L & K).
  exists ((r, c) :: rows). constructor; [now split|exact M].
Qed.

Lemma matrix_solved vars es rows en : matrix_of vars es rows ->
  ((forall x, In x es -> den x en = Some 0%R) <-> satisfies rows (map (e_sym en) vars)).
Proof.
  intros M. induction M as [|x [r c] es rows [L K] M IH]; cbn [fst snd] in *; [split; [constructor|intros _ ? []]|]. split.
  - intros H. constructor; [|apply IH; intros y Hy; apply H; now right]. cbn [fst snd].
    assert (E := H x (or_introl eq_refl)). rewrite K in E. injection E as E. lra.
  - intros S. inversion S as [|? ? S1 S2]; subst. cbn [fst snd] in S1. intros y [<-|Hy]; [|now apply IH].
    rewrite K, S1. f_equal. lra.
Qed.

Definition open_block (b : block) : Prop := forall x, In x (b_exprs b) -> in_the_open x = true /\ incl (fsyms x) (b_varlist b) /\ exists en, den x en <> None.

Lemma linear_matrix acts s b : resolved acts s b -> problem_type b = Some PTLinear ->
  (forall x, In x (b_exprs b) -> in_the_open x = true /\ incl (fsyms x) (b_varlist b) /\ exists en, den x en <> None) ->
  exists rows, matrix_of (b_varlist b) (b_exprs b) rows /\ List.length rows = List.length (b_eqs b) /\
    forall en, solved en b <-> satisfies rows (map (e_sym en) (b_varlist b)).
Proof.
  intros R T H. assert (N : NoDup (b_varlist b)) by apply (bf_nodup _ _ (proj1 (proj2 (resolved_block _ _ _ R)))).
  destruct (rows_exist (b_varlist b) (b_exprs b)) as [rows M].
  { intros x Hx. destruct (H x Hx) as (O & I & D). exact (shape_row _ x (linear_block _ _ _ R T x Hx) O N I D). }
  exists rows. split; [exact M|]. split.
  - assert (L := map_res_in _ _ _ (bf_list _ _ (proj1 (proj2 (resolved_block _ _ _ R))))).
    transitivity (List.length (b_exprs b)); [clear -M; induction M; cbn; congruence|clear -L; induction L; cbn; congruence].
  - intros en. exact (matrix_solved _ _ _ en M).
Qed.

(** ** One matrix *)
Definition unit_env (v : string) : env := mkEnv (fun x => if String.eqb x v then 1%R else 0%R) (fun _ _ => 0%R).
Lemma dot_zeros r vars : dot r (map (e_sym zero_env) vars) = 0%R.
Proof. revert r. induction vars as [|v vars IH]; intros [|a r]; cbn; try reflexivity. rewrite IH. lra. Qed.
Lemma dot_env r r2 vars : NoDup vars -> List.length r = List.length vars -> List.length r2 = List.length vars ->
  (forall g : string -> R, dot r (map g vars) = dot r2 (map g vars)) -> r = r2.
Proof.
  revert r r2. induction vars as [|v vars IH]; intros [|a r] [|a2 r2] N L1 L2 H; try discriminate; [reflexivity|].
  apply NoDup_cons_iff in N. destruct N as [N1 N2].
  assert (Z : forall q (g : string -> R), dot q (map (fun x => if String.eqb x v then g x else 0%R) vars) = 0%R).
  { intros q g. clear -N1. revert q. induction vars as [|y vars IH]; intros [|c q]; cbn [map dot]; try reflexivity.
    rewrite IH by (intros Q; apply N1; now right). destruct (String.eqb_spec y v) as [->|]; [destruct N1; now left|lra]. }
  f_equal.
  - assert (E := H (fun x => if String.eqb x v then 1%R else 0%R)). cbn [map dot] in E. rewrite String.eqb_refl in E.
    rewrite !(Z _ (fun _ => 1%R)) in E. lra.
  - apply IH; [exact N2|now injection L1|now injection L2|]. intros g.
    assert (E := H (fun x => if String.eqb x v then 0%R else g x)). cbn [map dot] in E. rewrite String.eqb_refl in E.
    assert (M : map (fun x => if String.eqb x v then 0%R else g x) vars = map g vars).
    { apply map_ext_in. intros y Hy. destruct (String.eqb_spec y v) as [->|]; [now destruct N1|reflexivity]. }
    rewrite M in E. lra.
Qed.
Lemma matrix_unique vars es rows rows2 : NoDup vars -> matrix_of vars es rows -> matrix_of vars es rows2 -> rows = rows2.
Proof.
  intros N M. revert rows2. induction M as [|x [r c] es rows [L K] M IH]; intros rows2 M2; inversion M2 as [|? [r2 c2] ? ? [L2 K2] M2']; subst; [reflexivity|].
  cbn [fst snd] in *. rewrite (IH _ M2'). f_equal.
  assert (C : c = c2). { assert (E := K zero_env). rewrite K2, !dot_zeros in E. injection E as E. lra. } subst c2. f_equal.
  apply (dot_env _ _ vars N L L2). intros g. assert (E := K (mkEnv g (fun _ _ => 0%R))). rewrite K2 in E. cbn [e_sym] in E. injection E as E. lra.
Qed.

(** ** The dense solver *)
Lemma nth_ext_error {A} (l l' : list A) : (forall i, nth_error l i = nth_error l' i) -> l = l'.
Proof.
  revert l'. induction l as [|a l IH]; intros [|a' l'] H; [reflexivity|discriminate (H 0%nat)|discriminate (H 0%nat)|].
  assert (E := H 0%nat). injection E as ->. f_equal. apply IH. intros i. exact (H (S i)).
Qed.
Lemma by_name_env (vars : list string) (x : list R) : NoDup vars -> List.length x = List.length vars ->
  map (e_sym (bind_env (by_name vars x))) vars = x.
Proof.
  intros N L. destruct (by_name_labelled vars x N L) as [_ B]. apply nth_ext_error. intros i.
  rewrite nth_error_map. destruct (nth_error vars i) as [v|] eqn:E; cbn [option_map].
  - cbn [bind_env e_sym]. rewrite (B i v E). destruct (nth_error x i) as [a|] eqn:F; [reflexivity|].
    apply nth_error_None in F. rewrite L in F. apply nth_error_None in F. congruence.
  - symmetry. apply nth_error_None in E. apply nth_error_None. now rewrite L.
Qed.

Lemma dense_finds acts s b rows x eng guess one : able eng (b_exprs b) (b_varlist b) -> resolved acts s b -> matrix_of (b_varlist b) (b_exprs b) rows ->
  List.length (b_eqs b) = List.length (b_varlist b) -> List.length x = List.length (b_varlist b) -> satisfies rows x ->
  (forall y, List.length y = List.length (b_varlist b) -> satisfies rows y -> y = x) ->
  exists out, la_solve one eng (Some "scipy") guess b = Ok out /\ labelled (b_varlist b) x out /\ solved (bind_env out) b.
Proof.
  intros A R M Sq L Sa U. assert (N : NoDup (b_varlist b)) by apply (bf_nodup _ _ (proj1 (proj2 (resolved_block _ _ _ R)))).
  assert (Q := map_res_in _ _ _ (bf_list _ _ (proj1 (proj2 (resolved_block _ _ _ R))))).
  assert (Le : List.length (b_exprs b) = List.length (b_varlist b)).
  { rewrite <- Sq. clear -Q. induction Q; cbn; congruence. }
  exists (by_name (b_varlist b) x). unfold la_solve. cbn. rewrite (A _ _ M Le L Sa U). cbn [rbind]. split; [reflexivity|].
  split; [now apply by_name_labelled|]. unfold solved. apply (matrix_solved _ _ _ (bind_env (by_name (b_varlist b) x)) M). now rewrite by_name_env.
Qed.
