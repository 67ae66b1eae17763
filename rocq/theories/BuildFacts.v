(** Proofs about written expressions: meaning, display form, maps, classes. *)
From Verif Require Import Base BaseFacts Num NumFacts UnitModel UnitFacts Sympy Node Build SpecExpr.
From Coq Require Import Reals Lra.
From Flocq Require Import Core.
Notation num := Verif.Num.num.

Lemma rbind_ok {A B} (r : res A) (k : A -> res B) b :
  rbind r k = Ok b -> exists a, r = Ok a /\ k a = Ok b.
Proof. destruct r; simpl; intros H; [eauto|discriminate]. Qed.

Ltac binv :=
  repeat match goal with
  | H : rbind _ _ = Ok _ |- _ =>
      let x := fresh "x" in let H1 := fresh "Hb" in
      apply rbind_ok in H; destruct H as [x [H1 H]]
  | H : Ok _ = Ok _ |- _ => injection H as H; try subst
  | H : Raise _ = Ok _ |- _ => discriminate H
  end.

(** ** Real arithmetic lemmas *)
Lemma Int_part_IZR z : Int_part (IZR z) = z.
Proof.
  unfold Int_part. assert (H := archimed (IZR z)). destruct H as [H1 H2].
  apply lt_IZR in H1.
  assert (H3 : (IZR (up (IZR z)) <= IZR (z + 1))%R) by (rewrite plus_IZR; lra).
  apply le_IZR in H3. lia.
Qed.

Lemma rpow_whole_neg x z : (x < 0)%R -> rpow x (IZR z) = Some (powerRZ x z).
Proof.
  intros Hx. unfold rpow. destruct (Rlt_dec 0 x); [lra|].
  cbv zeta. rewrite Int_part_IZR.
  destruct (Req_EM_T (IZR z) (IZR z)) as [_|n0]; [|now destruct n0].
  destruct (Req_EM_T x 0); [lra|reflexivity].
Qed.

Lemma rpow_pos x y : (0 < x)%R -> rpow x y = Some (Rpower x y).
Proof. intros Hx. unfold rpow. now destruct (Rlt_dec 0 x). Qed.

Lemma rpow_whole_pos x z : (0 < x)%R -> rpow x (IZR z) = Some (powerRZ x z).
Proof. intros Hx. rewrite rpow_pos by exact Hx. now rewrite <- powerRZ_Rpower. Qed.

Lemma rpow_whole_zero z : rpow 0 (IZR z) = if Z_lt_dec z 0 then None else Some (powerRZ 0 z).
Proof.
  unfold rpow. destruct (Rlt_dec 0 0); [lra|]. cbv zeta. rewrite Int_part_IZR.
  destruct (Req_EM_T (IZR z) (IZR z)) as [_|n0]; [|now destruct n0].
  now destruct (Req_EM_T 0 0); [|lra].
Qed.

Lemma rpow_m1 x : rpow x (-1) = if Req_EM_T x 0 then None else Some (/ x)%R.
Proof.
  change (-1)%R with (IZR (-1)).
  destruct (Req_EM_T x 0) as [->|Hx].
  - rewrite rpow_whole_zero. now destruct (Z_lt_dec (-1) 0); [|lia].
  - assert (powerRZ x (-1) = / x)%R by (simpl; now rewrite Rmult_1_r).
    destruct (Rtotal_order x 0) as [Hl|[?|Hg]]; [|lra|].
    + now rewrite rpow_whole_neg, H.
    + now rewrite rpow_whole_pos, H.
Qed.

(** ** Meaning *)
Lemma den_minmax mx l en :
  l <> [] -> den (sx_minmax mx l) en = extremum mx (map (fun e => den e en) l).
Proof.
  induction l as [|a r IH]; [congruence|]. intros _.
  destruct r as [|b r]; [reflexivity|].
  assert (IH' := IH ltac:(discriminate)). clear IH.
  change (sx_minmax mx (a :: b :: r)) with
    (if mx then SMax a (sx_minmax mx (b :: r)) else SMin a (sx_minmax mx (b :: r))).
  change (extremum mx (map (fun e => den e en) (a :: b :: r))) with
    (match den a en, extremum mx (map (fun e => den e en) (b :: r)) with
     | Some x, Some y => Some (pick mx x y) | _, _ => None end).
  rewrite <- IH'. destruct mx; simpl den; unfold lift2, obind, pick.
  - destruct (den a en); [|reflexivity]. destruct (den (sx_minmax true (b :: r)) en); reflexivity.
  - destruct (den a en); [|reflexivity]. destruct (den (sx_minmax false (b :: r)) en); reflexivity.
Qed.

Lemma node_op_ok_shape o a b n :
  node_op o a (ONode b) = Ok n ->
  (forall en, den (nd_sym n) en = arith o (den (nd_sym a) en) (den (nd_sym b) en)) /\
  (forall en, den (nd_repr n) en = arith o (den (nd_repr a) en) (den (nd_repr b) en)) /\
  nd_smap n = dupdate (nd_smap a) (nd_smap b) /\
  nd_vmap n = dupdate (nd_vmap a) (nd_vmap b) /\
  (forall x, In x (fsyms (nd_sym n)) <-> In x (fsyms (nd_sym a)) \/ In x (fsyms (nd_sym b))) /\
  (forall x, In x (fsyms (nd_repr n)) <-> In x (fsyms (nd_repr a)) \/ In x (fsyms (nd_repr b))).
Proof.
  intros H.
  destruct o; simpl in H;
    unfold node_add, node_sub, node_mul, node_div, node_pow in H;
    try (destruct (is_dimensionless (nd_unit b)); [|discriminate H]);
    binv; simpl; unfold lift2, obind, arith, rdiv;
    (split; [intros en; destruct (den (nd_sym a) en), (den (nd_sym b) en); reflexivity|]);
    (split; [intros en; destruct (den (nd_repr a) en), (den (nd_repr b) en); reflexivity|]);
    repeat split; try reflexivity; try (rewrite in_app_iff; tauto); intros HH; try (rewrite in_app_iff in HH; tauto); rewrite in_app_iff; tauto.
Qed.

Lemma node_op_num_shape o a k n :
  node_op o a (ONum k) = Ok n ->
  (forall en, den (nd_sym n) en = arith o (den (nd_sym a) en) (num_value k)) /\
  (forall en, den (nd_repr n) en = arith o (den (nd_repr a) en) (num_value k)) /\
  nd_smap n = nd_smap a /\ nd_vmap n = nd_vmap a /\
  (forall x, In x (fsyms (nd_sym n)) <-> In x (fsyms (nd_sym a))) /\
  (forall x, In x (fsyms (nd_repr n)) <-> In x (fsyms (nd_repr a))).
Proof.
  intros H.
  destruct o; simpl in H;
    unfold node_add, node_sub, node_mul, node_div, node_pow in H;
    binv; simpl; unfold lift2, obind, arith, rdiv;
    (split; [intros en; destruct (den (nd_sym a) en), (num_value k); reflexivity|]);
    (split; [intros en; destruct (den (nd_repr a) en), (num_value k); reflexivity|]);
    repeat split; try reflexivity; rewrite app_nil_r; tauto.
Qed.

Lemma node_rop_shape o a k n :
  node_rop o a k = Ok n ->
  (forall en, den (nd_sym n) en = arith o (num_value k) (den (nd_sym a) en)) /\
  (forall en, den (nd_repr n) en = arith o (num_value k) (den (nd_repr a) en)) /\
  nd_smap n = nd_smap a /\ nd_vmap n = nd_vmap a /\
  (forall x, In x (fsyms (nd_sym n)) <-> In x (fsyms (nd_sym a))) /\
  (forall x, In x (fsyms (nd_repr n)) <-> In x (fsyms (nd_repr a))).
Proof.
  intros H.
  destruct o; simpl in H; unfold node_rsub, node_rdiv, node_rpow in H; simpl in H;
    binv; simpl; unfold lift2, obind, arith, rdiv.
  - split; [intros en; destruct (den (nd_sym a) en), (num_value k); try reflexivity; f_equal; lra|].
    split; [intros en; destruct (den (nd_repr a) en), (num_value k); try reflexivity; f_equal; lra|].
    repeat split; try reflexivity; rewrite app_nil_r; tauto.
  - split; [intros en; destruct (den (nd_sym a) en), (num_value k); try reflexivity; f_equal; lra|].
    split; [intros en; destruct (den (nd_repr a) en), (num_value k); try reflexivity; f_equal; lra|].
    repeat split; try reflexivity; rewrite !app_nil_r; tauto.
  - split; [intros en; destruct (den (nd_sym a) en), (num_value k); try reflexivity; f_equal; lra|].
    split; [intros en; destruct (den (nd_repr a) en), (num_value k); try reflexivity; f_equal; lra|].
    repeat split; try reflexivity; rewrite app_nil_r; tauto.
  - assert (R : forall r, match rpow r (-1) with
                          | Some x => match num_value k with Some y => Some (x * y)%R | None => None end
                          | None => None end
                = match num_value k with
                  | Some x => if Req_EM_T r 0 then None else Some (x / r)%R
                  | None => None end).
    { intros r. rewrite rpow_m1. destruct (Req_EM_T r 0); destruct (num_value k); try reflexivity.
      f_equal. unfold Rdiv. apply Rmult_comm. }
    split; [intros en; destruct (den (nd_sym a) en); [apply R|now destruct (num_value k)]|].
    split; [intros en; destruct (den (nd_repr a) en); [apply R|now destruct (num_value k)]|].
    repeat split; try reflexivity; rewrite !app_nil_r; tauto.
Qed.

Lemma node_fun_shape f a n :
  node_fun f (ONode a) = Ok n ->
  n = mkNode (SFun f (nd_sym a)) (nd_smap a) (nd_vmap a) ty_nonlin (nd_unit a) (SFun f (nd_repr a)).
Proof. simpl. destruct (is_dimensionless (nd_unit a)); intros H; binv. reflexivity. Qed.

Lemma node_minmax_shape mx os n :
  node_minmax mx os = Ok n ->
  nd_sym n = sx_minmax mx (map opd_sym os) /\ nd_repr n = nd_sym n /\
  nd_smap n = fold_left opd_smap os [] /\ nd_vmap n = fold_left opd_vmap os [] /\ nd_ty n = ty_lin.
Proof.
  unfold node_minmax. intros H.
  destruct (forallb is_num_opd os); [binv; now repeat split|].
  destruct (forallb is_node_opd os); [discriminate|].
  destruct (first_unit os); [|discriminate]. binv. now repeat split.
Qed.

Lemma build_diff_shape h l t n :
  build_diff h l t = Ok n ->
  exists q, hget h l = Some q /\ q_kind q = KVariable /\ q_domain q = true /\
  let i := match t with Some i => i | None => l end in
  exists p, hget h i = Some p /\ (t <> None -> q_spec p = false) /\
  nd_sym n = (if q_spec q then SNum (PInt 0) else SDer (q_name q) (q_name p)) /\
  nd_repr n = SDer (q_name q) (q_name p) /\
  nd_smap n = [(q_name q, l)] /\ nd_vmap n = (if q_spec q then [] else [(q_name q, l)]) /\
  nd_ty n = ty_diff /\
  nd_unit n = match t with Some _ => unit_div (q_units q) (q_units p) | None => u_dimless end.
Proof.
  unfold build_diff. destruct (hget h l) as [q|] eqn:E; [|discriminate].
  destruct (qkind_eqb (q_kind q) KVariable) eqn:Ek; simpl; [|discriminate].
  assert (Hk : q_kind q = KVariable) by (destruct (q_kind q); try discriminate; reflexivity).
  intros H. exists q. split; [reflexivity|]. split; [exact Hk|].
  destruct t as [i|].
  - destruct (hget h i) as [p|] eqn:Ei; [|discriminate].
    unfold var_diff in H. destruct (q_domain q) eqn:Ed; simpl in H; [|discriminate].
    split; [reflexivity|]. exists p. split; [reflexivity|].
    destruct (q_spec p) eqn:Ep; [discriminate|]. binv. simpl.
    unfold qty_call. destruct (q_spec q); simpl; repeat split; reflexivity.
  - unfold var_diff in H. destruct (q_domain q) eqn:Ed; simpl in H; [|discriminate].
    split; [reflexivity|]. exists q. split; [first [exact E|reflexivity]|]. split; [congruence|]. binv. simpl.
    unfold qty_call. destruct (q_spec q); simpl; repeat split; reflexivity.
Qed.

Lemma build_qty_shape h l n :
  build_qty h l = Ok n -> exists q, hget h l = Some q /\ n = qty_call l q.
Proof. unfold build_qty. destruct (hget h l) as [q|]; intros H; binv. eauto. Qed.

Lemma build_meaning_mut h v en :
  env_for h v en ->
  (forall e n, build h e = Ok n -> den (nd_sym n) en = meaning h v e) /\
  (forall l os, build_args h l = Ok os ->
     map (fun o => den (opd_sym o) en) os = meanings h v l).
Proof.
  intros [Hs Hd]. apply uexpr_uargs_ind; simpl.
  - intros l n H. apply build_qty_shape in H. destruct H as [q [E ->]].
    unfold qty_meaning, qty_call. rewrite E. destruct (q_spec q) eqn:Eq; simpl; [reflexivity|].
    f_equal. eauto.
  - intros o e1 IH1 e2 IH2 n H. binv. apply node_op_ok_shape in H. destruct H as [H _].
    rewrite H, (IH1 _ Hb), (IH2 _ Hb0). reflexivity.
  - intros o e IH k n H. binv. apply node_op_num_shape in H. destruct H as [H _].
    now rewrite H, (IH _ Hb).
  - intros o k e IH n H. binv. apply node_rop_shape in H. destruct H as [H _].
    now rewrite H, (IH _ Hb).
  - intros f e IH n H. binv. apply node_fun_shape in H. subst n. simpl.
    rewrite (IH _ Hb). reflexivity.
  - discriminate.
  - intros l t n H. apply build_diff_shape in H.
    destruct H as [q [E [_ [_ [p [Ep [Hp [-> _]]]]]]]]. unfold der_meaning. rewrite E.
    destruct (q_spec q) eqn:Eq; simpl; [reflexivity|]. f_equal.
    apply Hd with (i := match t with Some i => i | None => l end); try assumption.
    destruct t; [apply Hp; discriminate|congruence].
  - intros mx l IH n H. binv. assert (IH' := IH _ Hb).
    destruct x as [|o os].
    + unfold node_minmax in H. simpl in H. binv. simpl in IH'. rewrite <- IH'. reflexivity.
    + apply node_minmax_shape in H. destruct H as [-> _].
      rewrite den_minmax by discriminate. rewrite map_map, IH'. reflexivity.
  - intros os H. binv. reflexivity.
  - intros e IHe r IHr os H. binv. simpl. now rewrite (IHe _ Hb), (IHr _ Hb0).
  - intros k r IHr os H. binv. simpl. now rewrite (IHr _ Hb).
Qed.

Theorem build_meaning h v en e n :
  env_for h v en -> build h e = Ok n -> den (nd_sym n) en = meaning h v e.
Proof. intros He. apply (proj1 (build_meaning_mut h v en He)). Qed.

(** ** Display form *)
Lemma build_display_mut h en :
  env_specified h en ->
  (forall e n, build h e = Ok n -> den (nd_repr n) en = den (nd_sym n) en) /\
  (forall l os, build_args h l = Ok os -> True).
Proof.
  intros Hs. apply uexpr_uargs_ind; simpl; auto.
  - intros l n H. apply build_qty_shape in H. destruct H as [q [E ->]].
    unfold qty_call. destruct (q_spec q) eqn:Eq; simpl; [|reflexivity].
    symmetry. now apply (Hs l q).
  - intros o e1 IH1 e2 IH2 n H. binv. apply node_op_ok_shape in H. destruct H as [H [H' _]].
    now rewrite H, H', (IH1 _ Hb), (IH2 _ Hb0).
  - intros o e IH k n H. binv. apply node_op_num_shape in H. destruct H as [H [H' _]].
    now rewrite H, H', (IH _ Hb).
  - intros o k e IH n H. binv. apply node_rop_shape in H. destruct H as [H [H' _]].
    now rewrite H, H', (IH _ Hb).
  - intros f e IH n H. binv. apply node_fun_shape in H. subst n. simpl. now rewrite (IH _ Hb).
  - discriminate.
  - intros l t n H. apply build_diff_shape in H.
    destruct H as [q [E [_ [_ [p [Ep [Hp [-> [-> _]]]]]]]]].
    destruct (q_spec q) eqn:Eq; simpl; [|reflexivity]. f_equal. now apply (Hs l q).
  - intros mx l _ n H. binv. apply node_minmax_shape in H. now destruct H as [_ [-> _]].
Qed.

Theorem build_display h en e n :
  env_specified h en -> build h e = Ok n -> den (nd_repr n) en = den (nd_sym n) en.
Proof. intros He. apply (proj1 (build_display_mut h en He)). Qed.

(** The display form names every quantity, where Min/Max are not used. *)
Fixpoint no_minmax (e : uexpr loc) : bool :=
  match e with
  | UQty _ | UFunN _ _ | UDiff _ _ => true
  | UBin _ a b => no_minmax a && no_minmax b
  | UNumR _ a _ | UNumL _ _ a | UFun _ a => no_minmax a
  | UMinMax _ _ => false
  end.

Theorem build_display_symbols h e n :
  build h e = Ok n -> no_minmax e = true ->
  forall l q, hget h l = Some q -> occurs l e -> In (q_name q) (fsyms (nd_repr n)).
Proof.
  revert n. induction e; simpl; intros n H Hm l' q Hq Ho; try discriminate.
  - apply build_qty_shape in H. destruct H as [q' [E ->]]. subst a.
    unfold qty_call. replace q' with q by congruence. destruct (q_spec q); simpl; auto.
  - binv. apply andb_prop in Hm. destruct Hm as [Hm1 Hm2].
    apply node_op_ok_shape in H. destruct H as [_ [_ [_ [_ [_ H]]]]]. rewrite H.
    destruct Ho; [left|right]; eauto.
  - binv. apply node_op_num_shape in H. destruct H as [_ [_ [_ [_ [_ H]]]]]. rewrite H. eauto.
  - binv. apply node_rop_shape in H. destruct H as [_ [_ [_ [_ [_ H]]]]]. rewrite H. eauto.
  - binv. apply node_fun_shape in H. subst n. simpl. eauto.
  - apply build_diff_shape in H. destruct H as [q' [E [_ [_ [p [Ep [Hp [_ [-> _]]]]]]]]].
    subst a. simpl. left. congruence.
Qed.

(** ** Object maps *)

(** [m] maps exactly the names of the quantities in [S] to these quantities. *)
Definition exact_map (h : heap) (S : loc -> Prop) (m : dict loc) : Prop :=
  NoDup (dkeys m) /\
  (forall x l, dget x m = Some l -> S l /\ exists q, hget h l = Some q /\ q_name q = x) /\
  (forall l, S l -> exists q, hget h l = Some q /\ dget (q_name q) m <> None).

Lemma exact_map_ext h S T m : (forall l, S l <-> T l) -> exact_map h S m -> exact_map h T m.
Proof.
  intros HST [H1 [H2 H3]]. split; [exact H1|split].
  - intros x l Hx. destruct (H2 x l Hx). split; [now apply HST|assumption].
  - intros l Hl. apply H3. now apply HST.
Qed.

Lemma exact_map_nil h : exact_map h (fun _ => False) [].
Proof. split; [constructor|split; [discriminate|tauto]]. Qed.

Lemma exact_map_one h l q : hget h l = Some q -> exact_map h (fun x => l = x) [(q_name q, l)].
Proof.
  intros E. split; [repeat constructor; simpl; tauto|split].
  - intros x l0. simpl. destruct (String.eqb_spec x (q_name q)); [|discriminate].
    intros H; injection H as <-. split; [reflexivity|]. exists q; auto.
  - intros l0 <-. exists q. split; [exact E|]. simpl. rewrite String.eqb_refl. discriminate.
Qed.

Lemma exact_map_union h S T m m' :
  exact_map h S m -> exact_map h T m' -> exact_map h (fun l => S l \/ T l) (dupdate m m').
Proof.
  intros [A1 [A2 A3]] [B1 [B2 B3]]. split; [now apply nodup_dupdate|split].
  - intros x l. rewrite dget_dupdate by exact B1. destruct (dget x m') as [l'|] eqn:E.
    + intros H; injection H as <-. destruct (B2 _ _ E). auto.
    + intros H. destruct (A2 _ _ H). auto.
  - intros l [Hl|Hl].
    + destruct (A3 l Hl) as [q [E Hq]]. exists q. split; [exact E|].
      rewrite dget_dupdate by exact B1. destruct (dget (q_name q) m'); [discriminate|exact Hq].
    + destruct (B3 l Hl) as [q [E Hq]]. exists q. split; [exact E|].
      rewrite dget_dupdate by exact B1. destruct (dget (q_name q) m'); [discriminate|congruence].
Qed.

Definition unspec (h : heap) (l : loc) : Prop := exists q, hget h l = Some q /\ q_spec q = false.

Definition maps_ok (h : heap) (n : node) (S : loc -> Prop) : Prop :=
  exact_map h S (nd_smap n) /\
  exact_map h (fun l => S l /\ unspec h l) (nd_vmap n) /\
  (forall x, In x (fsyms (nd_sym n)) <-> In x (dkeys (nd_vmap n))).

Lemma minmax_maps_aux h os S0 sm vm (Ss : list (loc -> Prop)) :
  exact_map h S0 sm -> exact_map h (fun l => S0 l /\ unspec h l) vm ->
  Forall2 (fun o S => match o with ONode n => maps_ok h n S | _ => forall l, ~ S l end) os Ss ->
  exact_map h (fun l => S0 l \/ Exists (fun S => S l) Ss) (fold_left opd_smap os sm) /\
  exact_map h (fun l => (S0 l \/ Exists (fun S => S l) Ss) /\ unspec h l) (fold_left opd_vmap os vm) /\
  (forall x, In x (dkeys (fold_left opd_vmap os vm)) <->
             In x (dkeys vm) \/ Exists (fun o => In x (fsyms (opd_sym o)) /\ is_node_opd o = true) os).
Proof.
  intros H1 H2 H. revert S0 sm vm H1 H2. induction H as [|o S os Ss Ho H IH]; intros S0 sm vm H1 H2; simpl.
  - split; [|split].
    + eapply exact_map_ext; [|exact H1]. intros l. split; [auto|]. intros [?|E]; [assumption|inversion E].
    + eapply exact_map_ext; [|exact H2]. intros l. split; [tauto|]. intros [[?|E] ?]; [tauto|inversion E].
    + intros x. split; [auto|]. intros [?|E]; [assumption|inversion E].
  - destruct o as [n|k|]; simpl.
    + destruct Ho as [M1 [M2 M3]].
      destruct (IH (fun l => S0 l \/ S l) (dupdate sm (nd_smap n)) (dupdate vm (nd_vmap n))) as [I1 [I2 I3]].
      * now apply exact_map_union.
      * eapply exact_map_ext; [|apply exact_map_union; [exact H2|exact M2]]. simpl. intros l; tauto.
      * split; [|split].
        -- eapply exact_map_ext; [|exact I1]. simpl. intros l. rewrite Exists_cons. tauto.
        -- eapply exact_map_ext; [|exact I2]. simpl. intros l. rewrite Exists_cons. tauto.
        -- intros x. rewrite I3, in_dkeys_dupdate, Exists_cons. simpl. rewrite (M3 x). tauto.
    + destruct (IH S0 sm vm H1 H2) as [I1 [I2 I3]]. split; [|split].
      * eapply exact_map_ext; [|exact I1]. simpl. intros l. rewrite Exists_cons. specialize (Ho l). tauto.
      * eapply exact_map_ext; [|exact I2]. simpl. intros l. rewrite Exists_cons. specialize (Ho l). tauto.
      * intros x. rewrite I3, Exists_cons. simpl. intuition discriminate.
    + destruct (IH S0 sm vm H1 H2) as [I1 [I2 I3]]. split; [|split].
      * eapply exact_map_ext; [|exact I1]. simpl. intros l. rewrite Exists_cons. specialize (Ho l). tauto.
      * eapply exact_map_ext; [|exact I2]. simpl. intros l. rewrite Exists_cons. specialize (Ho l). tauto.
      * intros x. rewrite I3, Exists_cons. simpl. intuition discriminate.
Qed.

Lemma fsyms_minmax mx l x : In x (fsyms (sx_minmax mx l)) <-> Exists (fun e => In x (fsyms e)) l.
Proof.
  induction l as [|a r IH].
  - simpl. split; [tauto|intros H; inversion H].
  - destruct r as [|b r].
    + simpl. split; [intros H; now constructor|]. intros H; inversion H; subst; [assumption|]. inversion H1.
    + change (sx_minmax mx (a :: b :: r)) with
        (if mx then SMax a (sx_minmax mx (b :: r)) else SMin a (sx_minmax mx (b :: r))).
      rewrite Exists_cons, <- IH. destruct mx; simpl; rewrite in_app_iff; tauto.
Qed.

Fixpoint arg_sets (l : uargs loc) : list (loc -> Prop) :=
  match l with
  | ANil => []
  | AExpr e r => (fun l => occurs l e) :: arg_sets r
  | ANum _ r => (fun _ => False) :: arg_sets r
  end.

Lemma arg_sets_occurs l r : Exists (fun S => S l) (arg_sets r) <-> occurs_args l r.
Proof.
  induction r; simpl; rewrite ?Exists_cons, ?IHr; try tauto.
  split; [intros H; inversion H|tauto].
Qed.

Lemma build_maps_mut h :
  (forall e n, build h e = Ok n -> maps_ok h n (fun l => occurs l e)) /\
  (forall l os, build_args h l = Ok os ->
     Forall2 (fun o S => match o with ONode n => maps_ok h n S | _ => forall l, ~ S l end) os (arg_sets l) /\
     Forall (fun o => is_node_opd o = true \/ is_num_opd o = true) os).
Proof.
  apply uexpr_uargs_ind; simpl.
  - intros l n H. apply build_qty_shape in H. destruct H as [q [E ->]].
    unfold qty_call. destruct (q_spec q) eqn:Eq; (split; [|split]); simpl.
    + now apply exact_map_one.
    + eapply exact_map_ext; [|apply exact_map_nil]. simpl. intros l'. split; [tauto|].
      intros [<- [q' [E' ?]]]. congruence.
    + tauto.
    + now apply exact_map_one.
    + eapply exact_map_ext; [|apply exact_map_one; exact E]. simpl. intros l'. split; [|tauto].
      intros <-. split; [reflexivity|]. exists q; auto.
    + tauto.
  - intros o e1 IH1 e2 IH2 n H. binv. destruct (IH1 _ Hb) as [A1 [A2 A3]].
    destruct (IH2 _ Hb0) as [B1 [B2 B3]].
    apply node_op_ok_shape in H. destruct H as [_ [_ [H1 [H2 [H3 _]]]]].
    unfold maps_ok. rewrite H1, H2. split; [|split].
    + now apply exact_map_union.
    + eapply exact_map_ext; [|apply exact_map_union; eassumption]. simpl. intros l. tauto.
    + intros y. now rewrite H3, in_dkeys_dupdate, A3, B3.
  - intros o e IH k n H. binv. destruct (IH _ Hb) as [A1 [A2 A3]].
    apply node_op_num_shape in H. destruct H as [_ [_ [H1 [H2 [H3 _]]]]].
    unfold maps_ok. rewrite H1, H2. split; [assumption|split; [assumption|]]. intros y. now rewrite H3.
  - intros o k e IH n H. binv. destruct (IH _ Hb) as [A1 [A2 A3]].
    apply node_rop_shape in H. destruct H as [_ [_ [H1 [H2 [H3 _]]]]].
    unfold maps_ok. rewrite H1, H2. split; [assumption|split; [assumption|]]. intros y. now rewrite H3.
  - intros f e IH n H. binv. apply node_fun_shape in H. subst n. exact (IH _ Hb).
  - discriminate.
  - intros l t n H. apply build_diff_shape in H.
    destruct H as [q [E [_ [_ [p [Ep [Hp [H1 [_ [H2 [H3 _]]]]]]]]]]].
    unfold maps_ok. rewrite H1, H2, H3. split; [now apply exact_map_one|].
    destruct (q_spec q) eqn:Eq; split; simpl.
    + eapply exact_map_ext; [|apply exact_map_nil]. simpl. intros l'. split; [tauto|].
      intros [<- [q' [E' ?]]]. congruence.
    + tauto.
    + eapply exact_map_ext; [|apply exact_map_one; exact E]. simpl. intros l'. split; [|tauto].
      intros <-. split; [reflexivity|]. exists q; auto.
    + tauto.
  - intros mx l IH n H. binv. destruct (IH _ Hb) as [F W].
    apply node_minmax_shape in H. destruct H as [H1 [_ [H2 [H3 _]]]].
    destruct (minmax_maps_aux h x (fun _ => False) [] [] (arg_sets l)) as [I1 [I2 I3]].
    + apply exact_map_nil.
    + eapply exact_map_ext; [|apply exact_map_nil]. simpl; tauto.
    + exact F.
    + unfold maps_ok. rewrite H1, H2, H3. split; [|split].
      * eapply exact_map_ext; [|exact I1]. simpl. intros y. rewrite arg_sets_occurs. tauto.
      * eapply exact_map_ext; [|exact I2]. simpl. intros y. rewrite arg_sets_occurs. tauto.
      * intros y. rewrite I3, fsyms_minmax, Exists_exists, Exists_exists. simpl. split.
        -- intros [e [He Hy]]. apply in_map_iff in He. destruct He as [o [<- Ho]]. right.
           exists o. split; [exact Ho|]. split; [exact Hy|].
           rewrite Forall_forall in W. destruct (W o Ho) as [?|Hn]; [assumption|].
           destruct o; try discriminate Hn. destruct Hy.
        -- intros [[]|[o [Ho [Hy _]]]]. exists (opd_sym o). split; [now apply in_map|exact Hy].
  - intros os H. binv. split; constructor.
  - intros e IHe r IHr os H. binv. destruct (IHr _ Hb0). split; constructor; auto.
  - intros k r IHr os H. binv. destruct (IHr _ Hb). split; constructor; auto.
Qed.

Theorem build_maps h e n : build h e = Ok n -> maps_ok h n (fun l => occurs l e).
Proof. apply (proj1 (build_maps_mut h)). Qed.

(** With distinct names the maps send each name to its own quantity. *)
Lemma exact_map_lookup h S m :
  distinct_names h -> exact_map h S m ->
  forall l q, hget h l = Some q -> (dget (q_name q) m = Some l <-> S l) /\ (~ S l -> dget (q_name q) m = None).
Proof.
  intros Hd [H1 [H2 H3]] l q E.
  assert (K : forall l', dget (q_name q) m = Some l' -> l' = l).
  { intros l' Hl'. destruct (H2 _ _ Hl') as [_ [q' [E' N]]]. now apply (Hd l' l q' q). }
  split; [split|].
  - intros Hl. now apply (H2 _ _ Hl).
  - intros Hs. destruct (H3 l Hs) as [q' [E' N]].
    replace q' with q in N by congruence. destruct (dget (q_name q) m) as [l'|] eqn:Eg; [|congruence].
    now rewrite (K l' eq_refl).
  - intros Hs. destruct (dget (q_name q) m) as [l'|] eqn:Eg; [|reflexivity].
    exfalso. apply Hs. assert (l' = l) by now apply K. subst. now apply (H2 _ _ Eg).
Qed.

(** ** Classes *)
Definition one_class (t : ety) : Prop := t = ty_lin \/ t = ty_nonlin \/ t = ty_diff.

Lemma ty_prec_class a b : one_class (ty_prec a b).
Proof. unfold ty_prec, one_class. destruct (_ || _); [auto|]. destruct (_ || _); auto. Qed.

Lemma node_op_class o a b n :
  one_class (nd_ty a) -> (forall x, b = ONode x -> one_class (nd_ty x)) ->
  node_op o a b = Ok n -> one_class (nd_ty n).
Proof.
  intros Ha Hb H.
  destruct o, b as [x|k|]; simpl in H; binv; simpl; try apply ty_prec_class; try assumption.
  - unfold ty_product. specialize (Hb x eq_refl). destruct (is_empty _); [assumption|].
    destruct (is_empty _); [assumption|]. unfold one_class; auto.
  - unfold ty_product. specialize (Hb x eq_refl). destruct (is_empty _); [assumption|].
    destruct (is_empty _); [assumption|]. unfold one_class; auto.
  - destruct (is_dimensionless (nd_unit x)); [|discriminate]. binv. simpl. apply ty_prec_class.
Qed.

Lemma node_rop_class o a k n :
  one_class (nd_ty a) -> node_rop o a k = Ok n -> one_class (nd_ty n).
Proof.
  intros Ha H. destruct o; simpl in H; unfold node_rsub, node_rdiv, node_rpow in H; simpl in H; binv;
    simpl; try assumption. apply ty_prec_class.
Qed.

Theorem build_class h e n : build h e = Ok n -> one_class (nd_ty n).
Proof.
  revert n. induction e; simpl; intros n H.
  - apply build_qty_shape in H. destruct H as [q [_ ->]]. unfold qty_call, one_class.
    destruct (q_spec q); auto.
  - binv. eapply node_op_class; [apply IHe1; eassumption| |exact H].
    intros y Hy; injection Hy as <-. now apply IHe2.
  - binv. eapply node_op_class; [apply IHe; eassumption| |exact H]. discriminate.
  - binv. eapply node_rop_class; [apply IHe; eassumption|exact H].
  - binv. apply node_fun_shape in H. subst n. unfold one_class; simpl; auto.
  - discriminate.
  - apply build_diff_shape in H. destruct H as [q [_ [_ [_ [p [_ [_ [_ [_ [_ [_ [-> _]]]]]]]]]]]].
    unfold one_class; auto.
  - binv. apply node_minmax_shape in H. destruct H as [_ [_ [_ [_ ->]]]]. unfold one_class; auto.
Qed.

Lemma maps_lookup : forall h e n, distinct_names h -> build h e = Ok n ->
  (forall l q, hget h l = Some q -> (dget (q_name q) (nd_smap n) = Some l <-> occurs l e)) /\
  (forall l q, hget h l = Some q ->
     (dget (q_name q) (nd_vmap n) = Some l <-> occurs l e /\ q_spec q = false)) /\
  (forall x, In x (fsyms (nd_sym n)) <-> In x (dkeys (nd_vmap n))).
Proof.
  intros h e n Hd H. destruct (build_maps h e n H) as [M1 [M2 M3]]. split; [|split].
  - intros l q E. apply (exact_map_lookup h _ _ Hd M1 l q E).
  - intros l q E. rewrite (proj1 (exact_map_lookup h _ _ Hd M2 l q E)).
    split; intros [H1 H2]; (split; [exact H1|]).
    + destruct H2 as [q' [E' Hs]]. congruence.
    + exists q; auto.
  - exact M3.
Qed.

Lemma maps_only : forall h e n x l, build h e = Ok n ->
  (dget x (nd_smap n) = Some l -> occurs l e /\ exists q, hget h l = Some q /\ q_name q = x) /\
  (dget x (nd_vmap n) = Some l -> occurs l e /\ exists q, hget h l = Some q /\ q_name q = x /\ q_spec q = false).
Proof.
  intros h e n x l H. destruct (build_maps h e n H) as [[_ [M1 _]] [[_ [M2 _]] _]]. split; intros Hx.
  - now apply M1.
  - destruct (M2 x l Hx) as [[Ho [q [E Hs]]] [q' [E' Hn]]]. split; [exact Ho|]. exists q.
    repeat split; try assumption. congruence.
Qed.
