(** Facts about the symbols of sessions whose models take in other models (C57,
    C27, C94, C62). *)
From Verif Require Import Base BaseFacts Num NumFacts UnitModel UnitFacts Sympy Node Build EquationModel ModelModel ProblemModel
  SpecUnits UnitThms SpecExpr SpecQty QtyFacts SpecModel BuildFacts EquationFacts ModelFacts SpecInc IncFacts SpecCall CallFacts
  SpecProblem ProblemFacts SessionFacts EqInvFacts UsualFacts DofFacts ConnFacts SolverModel SimModel SpecSolver SolverFacts ReportModel SpecReport ReportFacts SpecSymbols SymbolFacts CountFacts
  SpecSettled SettledFacts SpecTaken.
From Coq Require Import Reals Permutation.
Notation num := Verif.Num.num.

(** ** The displayed form has the symbols of the working form *)
Lemma build_shown h e : forall n, build h e = Ok n -> incl (fsyms (nd_sym n)) (fsyms (nd_repr n)).
Proof.
  induction e; intros n H.
  - apply build_qty_shape in H. destruct H as [q [E ->]]. unfold qty_call. destruct (q_spec q); simpl; intros x Hx; [destruct Hx|exact Hx].
  - cbn [build] in H. binv. apply node_op_ok_shape in H. destruct H as [_ [_ [_ [_ [H1 H2]]]]]. intros y Hy. apply H2. apply H1 in Hy.
    destruct Hy; [left; now apply (IHe1 _ Hb)|right; now apply (IHe2 _ Hb0)].
  - cbn [build] in H. binv. apply node_op_num_shape in H. destruct H as [_ [_ [_ [_ [H1 H2]]]]]. intros y Hy. apply H2. apply (IHe _ Hb). now apply H1.
  - cbn [build] in H. binv. apply node_rop_shape in H. destruct H as [_ [_ [_ [_ [H1 H2]]]]]. intros y Hy. apply H2. apply (IHe _ Hb). now apply H1.
  - cbn [build] in H. binv. apply node_fun_shape in H. subst n. exact (IHe _ Hb).
  - discriminate.
  - apply build_diff_shape in H. destruct H as [q [E [_ [_ [p [Ep [Hp [-> [-> _]]]]]]]]]. simpl. intros x Hx. destruct (q_spec q); [destruct Hx|exact Hx].
  - cbn [build] in H. binv. apply node_minmax_shape in H. destruct H as [-> [-> _]]. apply incl_refl.
Qed.

Definition shown : epred := fun x el _ _ => forall n, x = Some n ->
  incl (fsyms (nd_sym n)) (fsyms (nd_repr n)) /\ incl (fsyms (nd_repr n)) (dkeys (nd_smap n)) /\
  (forall a b, el = Some (a, b) -> incl (fsyms (nd_sym a)) (fsyms (nd_repr n)) /\ incl (fsyms (nd_sym b)) (fsyms (nd_repr n))).

Lemma made_shown h q arg name e : build_eq h q = Ok arg -> set_residual (blank_eqn name) arg = (e, Ok tt) -> made_so shown e.
Proof.
  intros Hq Hr. unfold made_so, shown. intros n En.
  destruct (eq_data _ _ _ _ _ Hq Hr) as (n0 & En0 & _ & _ & _ & _ & _ & Kn & _). assert (n0 = n) by congruence. subst n0.
  assert (W : incl (fsyms (nd_sym n)) (fsyms (nd_repr n)) /\
    (forall a b, eq_elem e = Some (a, b) -> incl (fsyms (nd_sym a)) (fsyms (nd_repr n)) /\ incl (fsyms (nd_sym b)) (fsyms (nd_repr n))));
    [|destruct W; auto].
  clear En0 Kn. destruct q as [x|l r|l k]; simpl in Hq; binv.
  - unfold set_residual, finish_residual in Hr. cbn in Hr. injection Hr as <-. cbn in *. injection En as <-.
    split; [exact (build_shown _ _ _ Hb)|intros a b E; discriminate E].
  - unfold set_residual in Hr. destruct (node_sub x (ONode x0)) as [d|] eqn:Es; [|discriminate].
    unfold finish_residual in Hr. cbv beta iota zeta delta [with_form with_expr with_elem with_type with_objs eq_expr] in Hr.
    injection Hr as <-. cbn in En |- *. injection En as <-.
    assert (Hbd : build h (UBin BSub l r) = Ok d) by (cbn [build]; rewrite Hb; cbn [rbind]; rewrite Hb0; exact Es).
    split; [exact (build_shown _ _ _ Hbd)|]. intros a b [= <- <-].
    assert (Sh := node_op_ok_shape BSub x x0 d Es). destruct Sh as [_ [_ [_ [_ [_ S2]]]]].
    split; intros y Hy; apply S2; [left; now apply (build_shown _ _ _ Hb)|right; now apply (build_shown _ _ _ Hb0)].
  - unfold set_residual in Hr. destruct (node_sub x (ONode (number_node k (nd_unit x)))) as [d|] eqn:Es; [|discriminate].
    unfold finish_residual in Hr. cbv beta iota zeta delta [with_form with_expr with_elem with_type with_objs eq_expr] in Hr.
    injection Hr as <-. cbn in En |- *. injection En as <-.
    assert (Sh := node_op_ok_shape BSub _ _ _ Es). destruct Sh as [_ [_ [_ [_ [S1 S2]]]]]. assert (B := build_shown _ _ _ Hb).
    split.
    + intros y Hy. apply S2. apply S1 in Hy. destruct Hy as [Hy|Hy]; [left; now apply B|destruct Hy].
    + intros a b [= <- <-]. split; intros y Hy; [apply S2; left; now apply B|destruct Hy].
Qed.

Lemma subs_chain m e : subs m e = rename (chain m) e.
Proof. rewrite <- (rename_id e) at 1. rewrite subs_rename. apply rename_ext. reflexivity. Qed.

Lemma try_syms m e x : In x (fsyms (subs_try m e)) -> exists y, In y (fsyms e) /\ x = chain (sort_items m) y.
Proof.
  unfold subs_try, subs_obj. destruct (is_raw e) eqn:E.
  - intros H. rewrite (raw_fsyms _ E) in H. destruct H.
  - rewrite subs_chain, fsyms_rename, in_map_iff. intros (y & <- & Hy). eauto.
Qed.

(** What a converted equation is, in terms of the old one. *)
Lemma convert_syms names w e e2 : convert_symbolic names w e = Ok e2 ->
  exists n n' sm, eq_expr e = Some n /\ eq_expr e2 = Some n' /\ eq_objs e2 = Some sm /\
    fsyms (nd_sym n') = map (chain (sort_items names)) (fsyms (nd_sym n)) /\
    fsyms (nd_repr n') = map (chain (sort_items names)) (fsyms (nd_repr n)) /\
    pick_all w (uniq (fsyms (nd_repr n'))) = Ok sm /\ nd_smap n' = sm /\
    (forall a' b', eq_elem e2 = Some (a', b') -> exists a b, eq_elem e = Some (a, b) /\
       (forall x, In x (fsyms (nd_sym a')) -> exists y, In y (fsyms (nd_sym a)) /\ x = chain (sort_items names) y) /\
       (forall x, In x (fsyms (nd_sym b')) -> exists y, In y (fsyms (nd_sym b)) /\ x = chain (sort_items names) y)).
Proof.
  intros H. unfold convert_symbolic in H. destruct (eq_expr e) as [n|] eqn:En; [|discriminate].
  destruct (subs_obj names (nd_repr n)) as [r|] eqn:E1; [|discriminate]. destruct (subs_obj names (nd_sym n)) as [s|] eqn:E2; [|discriminate].
  cbn [rbind] in H. destruct (match eq_elem e with None => _ | Some _ => _ end) as [el|] eqn:E3; [|discriminate]. cbn [rbind] in H.
  destruct (pick_all w (uniq (fsyms r))) as [sm|] eqn:E4; [|discriminate]. cbn [rbind] in H. injection H as <-.
  unfold subs_obj in E1, E2. destruct (is_raw (nd_repr n)); [discriminate|]. destruct (is_raw (nd_sym n)); [discriminate|].
  injection E1 as <-. injection E2 as <-. rewrite !subs_chain in *.
  eexists n, _, sm. split; [reflexivity|]. split; [reflexivity|]. split; [reflexivity|]. cbn [node_with nd_sym nd_repr eq_elem].
  rewrite !fsyms_rename. split; [reflexivity|]. split; [reflexivity|]. split; [now rewrite <- fsyms_rename|]. split; [reflexivity|].
  intros a' b' Hel. destruct (eq_elem e) as [[a b]|] eqn:Ee; [|injection E3 as <-; discriminate].
  unfold convert_sides in E3. destruct (subs_obj names (nd_repr a)) as [ra|]; [|discriminate]. destruct (subs_obj names (nd_repr b)) as [rb|]; [|discriminate].
  cbn [rbind] in E3. destruct (pick_all w (uniq (fsyms ra))) as [ma|]; [|discriminate]. destruct (pick_all w (uniq (fsyms rb))) as [mb|]; [|discriminate].
  cbn [rbind] in E3. injection E3 as <-. injection Hel as <- <-. exists a, b. split; [reflexivity|]. cbn [node_with nd_sym].
  split; intros x; apply try_syms.
Qed.

Lemma renamed_shown names w e e2 : made_so shown e -> convert_symbolic names w e = Ok e2 -> made_so shown e2.
Proof.
  intros S H. destruct (convert_syms _ _ _ _ H) as (n & n' & sm & En & En' & _ & S1 & S2 & Pk & Es & S4). unfold made_so, shown in *.
  destruct (S n En) as [I1 [_ I2]]. intros n0 E0. assert (n0 = n') by congruence. subst n0. split; [|split].
  - rewrite S1, S2. intros x Hx. apply in_map_iff in Hx. destruct Hx as (y & <- & Hy). apply in_map, I1, Hy.
  - rewrite Es. intros x Hx. assert (Hu := proj2 (uniq_in x _) Hx). clear - Pk Hu. revert sm Pk.
    induction (uniq (fsyms (nd_repr n'))) as [|k ks IH]; intros sm Pk; [destruct Hu|]. cbn [pick_all] in Pk.
    destruct (dget k w) as [l|]; [|discriminate]. destruct (pick_all w ks) as [d|]; [|discriminate]. cbn [rbind] in Pk. injection Pk as <-.
    destruct Hu as [->|Hu]; [now left|right; exact (IH Hu d eq_refl)].
  - intros a' b' Hel. destruct (S4 a' b' Hel) as (a & b & Ee & A & B). destruct (I2 a b Ee) as [Ia Ib]. rewrite S2.
    split; intros x Hx; [destruct (A x Hx) as (y & Hy & ->)|destruct (B x Hx) as (y & Hy & ->)]; apply in_map; auto.
Qed.

Lemma session_shown acts i m d k e : get_model (fst (run_acts start_session acts)) i = Some (m, d) -> In (k, e) (m_eqs m) -> made_so shown e.
Proof. intros G H. exact (run_inv shown made_shown renamed_shown acts i m d G k e H). Qed.

(** ** Taking in a model *)
Lemma pick_all_get w ks : forall d x, pick_all w ks = Ok d -> In x ks -> dget x d = dget x w.
Proof.
  induction ks as [|k ks IH]; intros d x H Hx; [destruct Hx|]. cbn [pick_all] in H.
  destruct (dget k w) as [l|] eqn:E; [|discriminate]. destruct (pick_all w ks) as [d'|] eqn:E2; [|discriminate]. cbn [rbind] in H. injection H as <-.
  cbn [dget]. destruct (String.eqb_spec x k) as [->|Hne]; [now rewrite E|]. apply IH; [reflexivity|]. destruct Hx as [<-|Hx]; [congruence|exact Hx].
Qed.

Lemma added_eqs names w rw es : forall m m' r, add_equations m es names w rw = (m', r) ->
  forall k e, In (k, e) (m_eqs m') -> In (k, e) (m_eqs m) \/ exists e0 e1, In e0 es /\ eq_expr e1 = eq_expr e0 /\ eq_elem e1 = eq_elem e0 /\ convert_symbolic names w e1 = Ok e.
Proof.
  induction es as [|e0 es IH]; intros m m' r H k e Hin; cbn [add_equations] in H; [injection H as <- _; now left|].
  unfold add_equation in H. destruct (convert_symbolic names w _) as [e2|x] eqn:Ec; [|injection H as <- _; now left].
  destruct (IH _ _ _ H k e Hin) as [Hm|(e1 & e1' & He & X & Y & Hc)].
  - cbn [m_eqs with_eqs set_attr with_attrs] in Hm. apply in_dset in Hm. destruct Hm as [[_ ->]|Hm]; [|now left].
    right. eexists e0, _. split; [now left|]. split; [|split; [|exact Ec]]; reflexivity.
  - right. exists e1, e1'. split; [now right|auto].
Qed.
Lemma added_vars names w rw es : forall m m' r, add_equations m es names w rw = (m', r) -> whole_objects m' = whole_objects m /\ m_vars m' = m_vars m.
Proof.
  induction es as [|e0 es IH]; intros m m' r H; cbn [add_equations] in H; [injection H as <- _; auto|].
  unfold add_equation in H. destruct (convert_symbolic names w _) as [e2|x] eqn:Ec; [|injection H as <- _; auto].
  apply (IH _ _ _ H).
Qed.

(** Copies have a value set if and only if their originals have. *)
Lemma add_all_free add : (forall h m l rw h' m' r, add h m l rw = (h', m', r) -> h' = h \/ exists q q', hget h l = Some q /\ h' = h ++ [q'] /\ q_kind q' = q_kind q /\ q_spec q' = q_spec q) ->
  forall ls h m rw h' m' r, add_all add h m ls rw = (h', m', r) -> free_vars h -> free_vars h'.
Proof.
  intros A. assert (One : forall h m l rw h' m' r, add h m l rw = (h', m', r) -> free_vars h -> free_vars h').
  { intros h m l rw h' m' r H F. destruct (A _ _ _ _ _ _ _ H) as [-> |(q & q' & G & -> & K & S)]; [exact F|].
    intros i o Gi Ki. destruct (Nat.lt_ge_cases i (List.length h)) as [L|L].
    - apply (F i o); [|exact Ki]. unfold hget in *. rewrite nth_error_app1 in Gi by exact L. exact Gi.
    - unfold hget in Gi. rewrite nth_error_app2 in Gi by exact L. destruct (i - List.length h)%nat as [|z]; [|destruct z; discriminate].
      injection Gi as <-. rewrite S. apply (F l q G). congruence. }
  induction ls as [|l ls IH]; intros h m rw h' m' r H F; cbn [add_all] in H; [injection H as <- _ _; exact F|].
  destruct (add h m l rw) as [[h1 m1] [[]|x]] eqn:E; assert (F1 := One _ _ _ _ _ _ _ E F); [exact (IH _ _ _ _ _ _ H F1)|injection H as <- _ _; exact F1].
Qed.
Lemma incorporate_free h m d f h' m' r : incorporate h m d f = (h', m', r) -> free_vars h -> free_vars h'.
Proof.
  assert (Av : forall h m l rw h' m' r, add_variable h m l rw = (h', m', r) -> h' = h \/ exists q q', hget h l = Some q /\ h' = h ++ [q'] /\ q_kind q' = q_kind q /\ q_spec q' = q_spec q).
  { intros h0 m0 l rw h1 m1 r0 H. unfold add_variable in H. destruct (hget h0 l) as [q|]; [|injection H as <- _ _; now left].
    right. exists q, (reown q (m_name m0) rw). destruct (q_exposed q); injection H as <- _ _; auto. }
  assert (Ap : forall h m l rw h' m' r, add_parameter h m l rw = (h', m', r) -> h' = h \/ exists q q', hget h l = Some q /\ h' = h ++ [q'] /\ q_kind q' = q_kind q /\ q_spec q' = q_spec q).
  { intros h0 m0 l rw h1 m1 r0 H. unfold add_parameter in H. destruct (hget h0 l) as [q|]; [|injection H as <- _ _; now left].
    right. exists q, (reown q (m_name m0) rw). injection H as <- _ _; auto. }
  assert (Ac : forall h m l rw h' m' r, add_constant h m l rw = (h', m', r) -> h' = h \/ exists q q', hget h l = Some q /\ h' = h ++ [q'] /\ q_kind q' = q_kind q /\ q_spec q' = q_spec q).
  { intros h0 m0 l rw h1 m1 r0 H. unfold add_constant in H. destruct (hget h0 l) as [q|]; [|injection H as <- _ _; now left].
    right. exists q, (reown q (m_name m0) rw). injection H as <- _ _; auto. }
  intros H F. unfold incorporate in H.
  destruct (if i_vars f then _ else _) as [[h1 m1] r1] eqn:E1.
  assert (F1 : free_vars h1) by (destruct (i_vars f); [exact (add_all_free _ Av _ _ _ _ _ _ _ E1 F)|injection E1 as <- _ _; exact F]).
  destruct r1 as [[]|x]; [|injection H as <- _ _; exact F1].
  destruct (if i_pars f then _ else _) as [[h2 m2] r2] eqn:E2.
  assert (F2 : free_vars h2) by (destruct (i_pars f); [exact (add_all_free _ Ap _ _ _ _ _ _ _ E2 F1)|injection E2 as <- _ _; exact F1]).
  destruct r2 as [[]|x]; [|injection H as <- _ _; exact F2].
  destruct (if i_cons f then _ else _) as [[h3 m3] r3] eqn:E3.
  assert (F3 : free_vars h3) by (destruct (i_cons f); [exact (add_all_free _ Ac _ _ _ _ _ _ _ E3 F2)|injection E3 as <- _ _; exact F2]).
  destruct r3 as [[]|x]; [|injection H as <- _ _; exact F3].
  destruct (i_eqs f); [|injection H as <- _ _; exact F3].
  destruct (add_equations m3 _ _ _ _) as [m4 r4]. injection H as <- _ _. exact F3.
Qed.

(** The equations after taking in a model are the old ones and the converted ones. *)
Lemma incorporate_eqs h m d f h' m' r : incorporate h m d f = (h', m', r) ->
  forall k e, In (k, e) (m_eqs m') -> In (k, e) (m_eqs m) \/
    (i_eqs f = true /\ exists k0 e0 e1, In (k0, e0) (m_eqs d) /\ eq_expr e1 = eq_expr e0 /\ eq_elem e1 = eq_elem e0 /\
       convert_symbolic (names_map d (m_name m)) (whole_objects m') e1 = Ok e).
Proof.
  intros H k e Hin. unfold incorporate in H.
  destruct (if i_vars f then _ else _) as [[h1 m1] r1] eqn:E1.
  assert (T1 : m_eqs m1 = m_eqs m /\ m_name m1 = m_name m).
  { destruct (i_vars f); [|injection E1 as _ <- _; auto].
    split; [exact (EqInvFacts.add_all_eqs _ EqInvFacts.add_variable_eqs _ _ _ _ _ _ _ E1)|exact (add_all_name _ add_variable_name _ _ _ _ _ _ _ E1)]. }
  destruct r1 as [[]|x]; [|injection H as _ <- _; left; destruct T1; congruence].
  destruct (if i_pars f then _ else _) as [[h2 m2] r2] eqn:E2.
  assert (T2 : m_eqs m2 = m_eqs m1 /\ m_name m2 = m_name m1).
  { destruct (i_pars f); [|injection E2 as _ <- _; auto].
    split; [exact (EqInvFacts.add_all_eqs _ EqInvFacts.add_parameter_eqs _ _ _ _ _ _ _ E2)|exact (add_all_name _ add_parameter_name _ _ _ _ _ _ _ E2)]. }
  destruct r2 as [[]|x]; [|injection H as _ <- _; left; destruct T1, T2; congruence].
  destruct (if i_cons f then _ else _) as [[h3 m3] r3] eqn:E3.
  assert (T3 : m_eqs m3 = m_eqs m2 /\ m_name m3 = m_name m2).
  { destruct (i_cons f); [|injection E3 as _ <- _; auto].
    split; [exact (EqInvFacts.add_all_eqs _ EqInvFacts.add_constant_eqs _ _ _ _ _ _ _ E3)|exact (add_all_name _ add_constant_name _ _ _ _ _ _ _ E3)]. }
  assert (X : m_eqs m3 = m_eqs m /\ m_name m3 = m_name m) by (destruct T1, T2, T3; split; congruence). clear T1 T2 T3. destruct X as [X1 X2].
  destruct r3 as [[]|x]; [|injection H as _ <- _; left; congruence].
  destruct (i_eqs f); [|injection H as _ <- _; left; congruence].
  destruct (add_equations m3 _ _ _ _) as [m4 r4] eqn:E4. injection H as _ <- _.
  destruct (added_vars _ _ _ _ _ _ _ E4) as [W _].
  destruct (added_eqs _ _ _ _ _ _ _ E4 k e Hin) as [Hm|(e0 & e1 & He & A & B & C)]; [left; congruence|right].
  split; [reflexivity|]. apply in_map_iff in He. destruct He as ([k0 e0'] & E0 & He). cbn in E0. subst e0'.
  exists k0, e0, e1. rewrite W, <- X2. auto.
Qed.

Lemma take_kept fx h m d f h' m' r : model_ok h m -> model_ok h d -> mtidy d ->
  (forall k e, In (k, e) (m_eqs d) -> made_so shown e) ->
  (forall k e, In (k, e) (m_eqs d) -> covered h e) -> (fx = false -> forall k e, In (k, e) (m_eqs d) -> occurring h e) ->
  takes_whole h d m f -> incorporate h m d f = (h', m', r) -> SymbolFacts.kept fx h m h' m'.
Proof.
  intros Mm Md Td Sh Cov Occ Tk H. assert (T := incorporate_tr _ _ _ _ _ _ _ Mm Md H).
  assert (Mm' := tr_ok _ _ _ _ T Mm). assert (G := tr_grows _ _ _ _ T). constructor; [exact G|intros _; exact (incorporate_free _ _ _ _ _ _ _ H)|].
  intros k e Hin. destruct (incorporate_eqs _ _ _ _ _ _ _ H k e Hin) as [Hm|(Hf & k0 & e0 & e1 & He0 & X1 & X2 & Hc)]; [now left|right].
  destruct (Tk Hf) as (-> & Hd & Nc & Own & Ap). clear Tk Hf.
  assert (Hh : host_ok m) by (destruct Mm as ([A _] & [B _] & [C _] & _); exact (conj A (conj B C))).
  destruct (incorporate_ok h m d Hd Hh Nc) as (h1 & m1 & E & Nm & _ & Cv & Cp & Cc & Kv & _).
  rewrite H in E. injection E as <- <- _.
  destruct (convert_syms _ _ _ _ Hc) as (n & n' & sm & En & En' & Eo & S1 & S2 & Pk & _ & S4). rewrite X1 in En.
  destruct (Td _ _ He0) as (nt & Ent & Eot & _). assert (nt = n) by congruence. subst nt.
  assert (Sh0 := Sh _ _ He0). unfold made_so, shown in Sh0. destruct (Sh0 n En) as [I1 [Ik I2]]. clear Sh0.
  assert (Hd0 := Hd). destruct Hd0 as (Hne & O1 & O2 & O3 & _ & NDe & Hk). destruct (Hk _ _ He0) as (_ & _ & _ & Inc). clear Hk.
  destruct Inc as [(ni & Eni & _ & _ & D1 & D2) _]. assert (ni = n) by congruence. subst ni.
  set (g := chain (sort_items (names_map d (m_name m)))) in *.
  (* what the new names are *)
  assert (Gn : forall y, g y = new_name d (m_name m) y).
  { intros y. assert (Z := subs_names h d (m_name m) (SSym y) Hd Nc). rewrite subs_chain in Z. cbn in Z. now injection Z. }
  assert (Ga : forall y, In y (declared d) -> exists a, y = full_name a (m_name d) /\ g y = full_name a (m_name m)).
  { intros y Hy. destruct (declared_suffix h d y O1 O2 O3 Hy) as [a ->]. exists a. split; [reflexivity|]. rewrite Gn. now apply (new_name_full h). }
  destruct Mm' as ([Nv Dv] & [Np Dp] & [Nk Dc] & _). assert (Wg := whole_get m' ).
  (* a variable of the donor among the symbols is a variable of the host *)
  assert (Var : forall y, uses_variable h y e0 -> In y (fsyms (nd_repr n)) -> uses_variable h' (g y) e).
  { intros y (o & kk & l & q & Eoy & Hin' & Gl & Kq & Nq) Hy. replace o with (nd_smap n) in * by congruence.
    assert (Hv : In (kk, l) (m_vars d)).
    { destruct Md as ([_ Av] & [_ Apar] & [_ Acon] & _). destruct (Own _ _ _ _ _ He0 Eot Hin') as [V|[V|V]]; [exact V| |];
        [destruct (Apar _ _ V) as (q1 & G1 & _ & K1)|destruct (Acon _ _ V) as (q1 & G1 & _ & K1)]; congruence. }
    destruct (proj2 O1 _ _ Hv) as (q1 & a & G1 & N1 & -> & _). assert (q1 = q) by congruence. subst q1.
    assert (Ey : y = full_name a (m_name d)) by congruence. clear Nq. subst y. rename N1 into Nq.
    assert (Dl : dget (full_name a (m_name d)) (m_vars d) = Some l) by (apply in_dget_nodup; [exact (proj1 O1)|exact Hv]).
    destruct (Cv a l q Dl G1) as (l' & q' & Dl' & G' & _ & C1 & _ & C3 & _).
    assert (Hdec : In (full_name a (m_name d)) (declared d)) by (unfold declared; rewrite !in_app_iff; left; now apply dget_in_keys in Dl).
    destruct (Ga _ Hdec) as (a' & Ea & Eg). assert (a' = a) by (symmetry; exact (full_inj_same _ _ _ Ea)). subst a'.
    exists sm, (full_name a (m_name m)), l', q'. split; [exact Eo|]. split.
    - apply dget_some_in. rewrite (pick_all_get _ _ _ _ Pk); [|apply uniq_in; rewrite S2, <- Eg; now apply in_map].
      rewrite Wg by assumption. now rewrite Dl'.
    - split; [exact G'|]. split; [congruence|]. now rewrite Eg. }
  split.
  - intros x Hx. assert (Hy : exists y, In y (fsyms (nd_repr n)) /\ has_symbol e0 y /\ x = g y).
    { destruct Hx as [(n2 & E2 & Hx)|(a' & b' & E2 & Hx)].
      - assert (n2 = n') by congruence. subst n2. rewrite S1 in Hx. apply in_map_iff in Hx. destruct Hx as (y & <- & Hy). exists y.
        split; [now apply I1|]. split; [|reflexivity]. left. exists n. auto.
      - destruct (S4 a' b' E2) as (a & b & Ee & A & B). rewrite X2 in Ee. destruct (I2 a b Ee) as [Ia Ib].
        destruct Hx as [Hx|Hx]; [destruct (A x Hx) as (y & Hy & ->)|destruct (B x Hx) as (y & Hy & ->)]; exists y;
          (split; [auto|]; split; [|reflexivity]); right; exists a, b; auto. }
    destruct Hy as (y & Hr & Hs & ->). exact (Var y (Cov _ _ He0 y Hs) Hr).
  - intros Ef Fr. destruct (Occ Ef _ _ He0) as (n3 & d3 & En3 & Ed3 & Ob3 & Oc3). assert (n3 = n) by congruence. subst n3.
    assert (d3 = nd_smap n) by congruence. subst d3.
    assert (Wo : objs_ok h' (whole_objects m')) by (apply whole_objs; split; [now split|]; split; [now split|]; split; [now split|]; exact (proj2 (proj2 (proj2 (tr_ok _ _ _ _ T Mm))))).
    destruct (pick_all_objs _ _ _ _ Wo (uniq_nodup _) Pk) as [Osm Ksm].
    exists n', sm. split; [exact En'|]. split; [exact Eo|]. split; [exact Osm|].
    intros x (o & kk & l & q & Eox & Hin' & Gl & Kq & Nq). replace o with sm in * by congruence.
    destruct (proj2 Osm _ _ Hin') as (q1 & G1 & N1). assert (q1 = q) by congruence. subst q1. rewrite N1 in Nq. subst kk.
    assert (Hx : In x (fsyms (nd_repr n'))) by (apply uniq_in; rewrite <- Ksm; exact (in_map fst _ _ Hin')).
    assert (Dx : dget x (whole_objects m') = Some l).
    { rewrite <- (pick_all_get _ _ _ x Pk) by now apply uniq_in. apply in_dget_nodup; [exact (proj1 Osm)|exact Hin']. }
    rewrite S2 in Hx. apply in_map_iff in Hx. destruct Hx as (y & <- & Hy).
    assert (Hdec := D2 y Hy). destruct (Ga y Hdec) as (a & -> & Eg). rewrite S1. apply in_map.
    assert (Hvm : In (full_name a (m_name m)) (dkeys (m_vars m'))).
    { rewrite Wg, Eg in Dx by assumption. destruct (dget (full_name a (m_name m)) (m_vars m')) as [l0|] eqn:E0; [now apply dget_in_keys in E0|].
      exfalso. destruct (dget (full_name a (m_name m)) (m_pars m')) as [l0|] eqn:E1.
      - injection Dx as ->. destruct (Dp _ _ (dget_some_in _ _ _ E1)) as (q1 & G2 & _ & K2). congruence.
      - destruct (Dc _ _ (dget_some_in _ _ _ Dx)) as (q1 & G2 & _ & K2). congruence. }
    assert (Hvd : In (full_name a (m_name d)) (dkeys (m_vars d))).
    { unfold declared in Hdec. rewrite !in_app_iff in Hdec. destruct Hdec as [V|V]; [exact V|]. exfalso. destruct (Ap a V) as [V1 V2]. apply V2.
      destruct (in_keys_dget _ _ Hvm) as [l0 E0]. rewrite (Kv (full_name a (m_name m))) in E0.
      - now apply dget_in_keys in E0.
      - intros a' Ea Ha. assert (a' = a) by (symmetry; exact (full_inj_same _ _ _ Ea)). subst a'. contradiction. }
    apply Oc3. assert (Hsm : In (full_name a (m_name d)) (dkeys (nd_smap n))) by exact (Ik _ Hy).
    destruct (in_keys_dget _ _ Hsm) as [ls Els]. apply dget_some_in in Els.
    destruct (Own _ _ _ _ _ He0 Eot Els) as [V|V].
    + destruct Md as ([_ Av] & _). destruct (Av _ _ V) as (q1 & G2 & N2 & K2). exists (nd_smap n), (full_name a (m_name d)), ls, q1. auto.
    + exfalso. destruct (Ap a) as [V1 _]; [|contradiction]. destruct V as [V|V]; [left|right]; exact (in_map fst _ _ V).
Qed.

(** ** Sessions *)
Lemma gathered_holds fx acts a : let s := run_acts start_session acts in
  gathered fx s a -> holds fx (fst s) -> holds fx (fst (fst (do_act s a))).
Proof.
  intros s P O. assert (Gs : good s) by apply run_good, start_good.
  destruct a as [n dd|k c|k|k j f|k|m1 m2 outs ins e|m1 m2 out inp|names|c|]; try (apply settled_holds; [exact Gs|exact P|exact O]).
  - destruct c as [a n u ex ty v|a n u v|a n u v|a v u|a|a n q check]; try (apply settled_holds; [exact Gs|exact P|exact O]).
    clear Gs. destruct s as [w p]. cbn [do_act]. destruct (on_model w k _) as [w1 r1] eqn:E1. cbn [fst] in *.
    apply (on_model_holds _ _ _ _ _ _ O) with (2 := E1). intros m d w2 r2 Gm F. cbn [run_cmd w_mod w_heap] in F.
    unfold assign_qty, create_variable in F.
    destruct ex; [destruct (String.eqb ty "input"); [|destruct (String.eqb ty "output")]|]; injection F as <- _; now apply kept_new.
  - cbn [gathered] in P. assert (W := g_ok _ Gs). assert (Td := run_tidy acts). assert (Sh := session_shown acts). fold s in Td, Sh. clear Gs.
    clearbody s. destruct s as [w p]. cbn [fst] in *. cbn [do_act].
    destruct (get_model w j) as [[dm dd]|] eqn:Gj; [|exact O].
    destruct (on_model w k _) as [w1 r1] eqn:E1. cbn [fst].
    apply (on_model_holds _ _ _ _ _ _ O) with (2 := E1). intros m d w2 r2 Gm F. cbn [w_heap w_mod] in F.
    destruct (incorporate (pw_heap w) m dm f) as [[h3 m3] r4] eqn:Ei. injection F as <- _. cbn [w_heap w_mod].
    apply (take_kept fx _ _ dm f _ _ r4); [exact (proj1 W k m d Gm)|exact (proj1 W j dm dd Gj)|exact (Td j dm dd Gj)|exact (fun k0 e => Sh j dm dd k0 e Gj)| | | |exact Ei].
    + intros k0 e. exact (h_cov _ _ O j dm dd k0 e Gj).
    + intros Ef k0 e. exact (h_occ _ _ O Ef j dm dd k0 e Gj).
    + apply P; unfold model_of; cbn [fst]; [now rewrite Gm|now rewrite Gj].
Qed.

Lemma gathered_snoc fx acts a : forall s, all_gathered fx s (acts ++ [a]) -> all_gathered fx s acts /\ gathered fx (run_acts s acts) a.
Proof.
  induction acts as [|b acts IH]; intros s; cbn [app all_gathered run_acts]; [tauto|]. intros [H1 H2]. destruct (IH _ H2). tauto.
Qed.
Lemma gathered_app fx l l' : forall s, all_gathered fx s l -> all_gathered fx (run_acts s l) l' -> all_gathered fx s (l ++ l').
Proof.
  induction l as [|a l IH]; intros s; cbn [app all_gathered run_acts]; [tauto|]. intros [A B] C. split; [exact A|]. now apply IH.
Qed.
Lemma settled_gathered fx acts : forall s, all_settled fx s acts -> all_gathered fx s acts.
Proof.
  induction acts as [|a acts IH]; intros s; cbn [all_settled all_gathered]; [tauto|]. intros [A B]. split; [|now apply IH].
  destruct a as [n dd|k c|k|k j f|k|m1 m2 outs ins e|m1 m2 out inp|names|c|]; try exact A; [destruct c; try exact A|]; destruct A.
Qed.
Lemma gathered_run fx acts : all_gathered fx start_session acts -> holds fx (fst (run_acts start_session acts)).
Proof.
  induction acts as [|a acts IH] using rev_ind; intros P; [exact (run_holds fx [] eq_refl)|].
  apply gathered_snoc in P. destruct P as [P1 P2]. rewrite run_acts_app. cbn [run_acts].
  apply gathered_holds; [exact P2|now apply IH].
Qed.
Lemma gathered_block fx acts s b : resolved acts s b -> all_gathered fx start_session acts -> holds fx (fst s).
Proof.
  intros [H _] P. replace s with (fst (do_act (run_acts start_session acts) AResolve)) by now rewrite H.
  apply gathered_holds; [exact I|now apply gathered_run].
Qed.

Lemma gathered_symbols fx acts s b e x : resolved acts s b -> all_gathered fx start_session acts -> added_with_variables acts s b ->
  In e (b_eqs b) -> has_symbol e x -> In x (b_varlist b).
Proof.
  intros R P C He Hx. destruct (block_unknowns _ _ _ R) as [_ U]. apply U.
  destruct (block_model _ _ _ _ R He) as (i & m & d & k & G & Hin). assert (V := h_cov _ _ (gathered_block _ _ _ _ R P) i m d k e G Hin x Hx).
  split; [exact (C e x He V)|]. exists e. auto.
Qed.
Lemma gathered_unknowns acts s b x : resolved acts s b -> all_gathered false start_session acts ->
  In x (b_varlist b) -> exists e n, In e (b_eqs b) /\ eq_expr e = Some n /\ In x (fsyms (nd_sym n)).
Proof.
  intros R P Hx. destruct (block_unknowns _ _ _ R) as [_ U]. apply U in Hx. destruct Hx as (_ & e & He & Hu).
  destruct (block_model _ _ _ _ R He) as (i & m & d & k & G & Hin).
  destruct (h_occ _ _ (gathered_block _ _ _ _ R P) eq_refl i m d k e G Hin) as (n & d' & En & _ & _ & Ho). exists e, n. auto.
Qed.
Lemma gathered_exprs fx acts s b : resolved acts s b -> all_gathered fx start_session acts -> added_with_variables acts s b ->
  forall ex, In ex (b_exprs b) -> incl (fsyms ex) (b_varlist b).
Proof.
  intros R P C ex He x Hx. destruct (resolved_block _ _ _ R) as (_ & B & _).
  destruct (map_res_in _ _ _ _ (bf_list _ _ B) He) as (e & Hin & Es).
  apply (gathered_symbols fx acts s b e x R P C Hin). unfold get_symbolic in Es. destruct (eq_elementary e).
  - destruct (eq_elem e) as [[a c]|] eqn:El; [|discriminate]. injection Es as <-. right. exists a, c. auto.
  - destruct (eq_expr e) as [n|] eqn:En; [|discriminate]. injection Es as <-. left. exists n. auto.
Qed.
Lemma gathered_function fx acts s b args : resolved acts s b -> all_gathered fx start_session acts -> added_with_variables acts s b ->
  (forall e, In e (b_exprs b) -> has_der e = false) -> List.length args = List.length (b_varlist b) ->
  exists vs, call_function (b_varlist b) (b_exprs b) args = Ok vs /\ List.length vs = List.length (b_eqs b).
Proof.
  intros R P C D L. destruct (resolved_block _ _ _ R) as (_ & B & _). rewrite <- (bf_exprs _ _ B).
  apply closed_call; [now symmetry|]. intros ex He. split; [exact (gathered_exprs _ _ _ _ R P C ex He)|now apply D].
Qed.
Lemma gathered_listed acts s b : resolved acts s b -> all_gathered false start_session acts -> added_with_variables acts s b ->
  NoDup (b_varlist b) /\ forall x, In x (b_varlist b) <-> exists e, In e (b_eqs b) /\ has_symbol e x.
Proof.
  intros R O C. split; [exact (proj1 (block_unknowns _ _ _ R))|]. intros x. split.
  - intros Hx. destruct (gathered_unknowns _ _ _ _ R O Hx) as (e & n & He & En & Hn). exists e. split; [exact He|]. left. exists n. auto.
  - intros (e & He & Hs). exact (gathered_symbols _ _ _ _ _ _ R O C He Hs).
Qed.
Lemma gathered_counts pn acts s b t : prints_numbers pn -> resolved acts s b -> distinct_models acts -> all_gathered false start_session acts ->
  added_with_variables acts s b -> pr_time (snd s) = Some [t] -> one_word t = true -> str_contains "_" t = true ->
  (forall e r, In e (b_eqs b) -> eq_type e = Some CDifferential -> analysed e r -> der_free r = true /\ readable t r /\ r <> SSym t) ->
  exists names known, NoDup names /\ (forall x, In x names <-> exists e, In e (b_eqs b) /\ has_symbol e x) /\
    (known = 1%nat /\ time_occurs t (b_eqs b) \/ known = 0%nat /\ ~ time_occurs t (b_eqs b)) /\
    dof_test pn (pw_heap (fst s)) (snd s) =
      if Nat.eqb (List.length names + unspecified_pars (pw_heap (fst s)) (b_pars b)) (list_sum (map (equation_count s) (added acts)) + known)
      then Ok true else Raise EException.
Proof.
  intros P R D O C T W U H. destruct (dof_exact pn acts s b t P R T W U H) as (known & K & E). exists (b_varlist b), known.
  destruct (gathered_listed _ _ _ R O C) as [N L]. split; [exact N|]. split; [exact L|]. split; [exact K|].
  rewrite E. now rewrite (block_added _ _ _ R D), equations_count.
Qed.

Lemma gathered_residuals fx acts s b out : resolved acts s b -> all_gathered fx start_session acts -> added_with_variables acts s b ->
  (forall e, In e (b_eqs b) -> eq_elementary e = false) -> (forall x, In x (b_exprs b) -> has_der x = false /\ is_raw x = false) ->
  NoDup (dkeys out) -> incl (b_varlist b) (dkeys out) ->
  exists rows, final_residuals b out = Ok rows /\ Forall2 (states_residual (bind_env out)) (b_eqs b) rows.
Proof.
  intros R P C El D N I. destruct (resolved_block _ _ _ R) as (_ & B & _). unfold final_residuals.
  rewrite <- (bind_results out N). apply (rows_residual _ _ _ (bf_list _ _ B) El). intros x Hx. destruct (D x Hx) as [Dx Rx].
  split; [exact Rx|]. unfold closed. rewrite Dx, Bool.andb_true_r. apply forallb_forall. intros y Hy. apply existsb_exists. exists y.
  split; [|apply String.eqb_refl]. destruct (results_same out N) as [_ G].
  assert (Hin : In y (dkeys out)) by (apply I; exact (gathered_exprs fx _ _ _ R P C x Hx y Hy)).
  destruct (in_keys_dget _ _ Hin) as [v Hv]. rewrite <- G in Hv. now apply dget_in_keys in Hv.
Qed.

(** ** Deciding on examples *)
Fixpoint distinctb (l : list string) : bool := match l with [] => true | x :: r => negb (mem_str x r) && distinctb r end.
Lemma distinctb_ok l : distinctb l = true -> NoDup l.
Proof.
  induction l as [|x l IH]; cbn [distinctb]; [constructor|]. intros H. apply andb_prop in H. destruct H as [A B]. constructor; [|now apply IH].
  intros Hx. apply mem_str_spec in Hx. rewrite Hx in A. discriminate A.
Qed.
Definition local (k model : string) : bool := String.eqb k (full_name (strip_name k model) model).
Definition objectsb (h : heap) (model : string) (d : dict loc) : bool :=
  distinctb (dkeys d) &&
  forallb (fun kl => match hget h (snd kl) with
                     | Some q => String.eqb (q_name q) (fst kl) && local (fst kl) model && String.eqb (q_owner q) model && negb (q_exposed q)
                     | None => false end) d.
Lemma objectsb_ok h model d : objectsb h model d = true -> objects_ok h model d /\ not_exposed h d.
Proof.
  unfold objectsb. intros H. apply andb_prop in H. destruct H as [A B]. rewrite forallb_forall in B. split.
  - split; [now apply distinctb_ok|]. intros k l Hin. specialize (B _ Hin). cbn [fst snd] in B. destruct (hget h l) as [q|]; [|discriminate B].
    apply andb_prop in B. destruct B as [B _]. apply andb_prop in B. destruct B as [B O]. apply andb_prop in B. destruct B as [N L].
    unfold local in L. apply String.eqb_eq in N, L, O. exists q, (strip_name k model). auto.
  - intros k l q Hin G. specialize (B _ Hin). cbn [fst snd] in B. rewrite G in B. apply andb_prop in B. destruct B as [_ B]. now destruct (q_exposed q).
Qed.
Definition among_all (l names : list string) : bool := forallb (fun x => mem_str x names) l.
Lemma among_all_ok l names : among_all l names = true -> incl l names.
Proof. unfold among_all. rewrite forallb_forall. intros H x Hx. apply mem_str_spec. auto. Qed.
Definition incorporableb (m : mstate) (e : eqn) : bool :=
  match eq_expr e with
  | Some n => negb (is_raw (nd_sym n)) && negb (is_raw (nd_repr n)) && among_all (fsyms (nd_sym n)) (declared m) && among_all (fsyms (nd_repr n)) (declared m)
  | None => false
  end &&
  match eq_elem e with
  | Some (a, b) => negb (is_raw (nd_repr a)) && negb (is_raw (nd_repr b)) && among_all (fsyms (nd_repr a)) (declared m) && among_all (fsyms (nd_repr b)) (declared m)
  | None => true
  end.
Lemma incorporableb_ok m e : incorporableb m e = true -> incorporable m e.
Proof.
  unfold incorporableb, incorporable. intros H. apply andb_prop in H. destruct H as [A B]. split.
  - destruct (eq_expr e) as [n|]; [|discriminate A]. exists n. split; [reflexivity|]. apply andb_prop in A. destruct A as [A A4].
    apply andb_prop in A. destruct A as [A A3]. apply andb_prop in A. destruct A as [A1 A2].
    apply Bool.negb_true_iff in A1, A2. auto using among_all_ok.
  - clear A. intros a b E. rewrite E in B. apply andb_prop in B. destruct B as [A A4].
    apply andb_prop in A. destruct A as [A A3]. apply andb_prop in A. destruct A as [A1 A2].
    apply Bool.negb_true_iff in A1, A2. auto using among_all_ok.
Qed.
Definition entry_in (kl : string * loc) (d : dict loc) : bool := existsb (fun p => String.eqb (fst kl) (fst p) && Nat.eqb (snd kl) (snd p)) d.
Lemma entry_in_ok x l d : entry_in (x, l) d = true -> In (x, l) d.
Proof.
  unfold entry_in. rewrite existsb_exists. intros ([y i] & Hin & E). cbn [fst snd] in E. apply andb_prop in E. destruct E as [A B].
  apply String.eqb_eq in A. apply Nat.eqb_eq in B. now subst.
Qed.
Definition takesb (h : heap) (d m : mstate) : bool :=
  negb (String.eqb (m_name d) "") && objectsb h (m_name d) (m_vars d) && objectsb h (m_name d) (m_pars d) && objectsb h (m_name d) (m_cons d) &&
  distinctb (dkeys (m_eqs d)) &&
  forallb (fun ke => String.eqb (eq_name (snd ke)) (fst ke) && local (fst ke) (m_name d) && String.eqb (eq_owner (snd ke)) (m_name d) &&
                     incorporableb d (snd ke) &&
                     match eq_objs (snd ke) with
                     | Some o => forallb (fun xl => entry_in xl (m_vars d) || entry_in xl (m_pars d) || entry_in xl (m_cons d)) o
                     | None => true end) (m_eqs d) &&
  forallb (fun x => forallb (fun y => negb (String.eqb (full_name (strip_name x (m_name d)) (m_name m)) y) || String.eqb x y) (declared d)) (declared d) &&
  forallb (fun x => negb (mem_str x (dkeys (m_vars d))) && negb (mem_str (full_name (strip_name x (m_name d)) (m_name m)) (dkeys (m_vars m))))
          (dkeys (m_pars d) ++ dkeys (m_cons d)).
Lemma takesb_ok h d m : takesb h d m = true -> takes_whole h d m inc_default.
Proof.
  unfold takesb. intros H _. repeat (apply andb_prop in H; destruct H as [H ?]).
  match goal with K : forallb _ (_ ++ _) = true |- _ => rename K into Kap end.
  match goal with K : forallb _ (declared d) = true |- _ => rename K into Kcap end.
  match goal with K : forallb _ (m_eqs d) = true |- _ => rename K into Keq end.
  rewrite forallb_forall in Kap, Kcap, Keq. apply Bool.negb_true_iff in H. apply String.eqb_neq in H.
  destruct (objectsb_ok h (m_name d) (m_vars d)) as [O1 X1]; [assumption|]. destruct (objectsb_ok h (m_name d) (m_pars d)) as [O2 _]; [assumption|].
  destruct (objectsb_ok h (m_name d) (m_cons d)) as [O3 _]; [assumption|].
  split; [reflexivity|]. split.
  { split; [exact H|]. split; [exact O1|]. split; [exact O2|]. split; [exact O3|]. split; [exact X1|]. split; [now apply distinctb_ok|].
    intros k e Hin. specialize (Keq _ Hin). cbn [fst snd] in Keq. apply andb_prop in Keq. destruct Keq as [Keq _].
    apply andb_prop in Keq. destruct Keq as [Keq I]. apply andb_prop in Keq. destruct Keq as [Keq Ow]. apply andb_prop in Keq. destruct Keq as [N L].
    unfold local in L. apply String.eqb_eq in N, L, Ow. split; [exact N|]. split; [exists (strip_name k (m_name d)); exact L|].
    split; [exact Ow|now apply incorporableb_ok]. }
  split.
  { intros a b Ha Hb E. specialize (Kcap _ Ha). rewrite forallb_forall in Kcap. specialize (Kcap _ Hb). rewrite strip_full, E, String.eqb_refl in Kcap.
    cbn in Kcap. apply String.eqb_eq in Kcap. exact (full_inj_same _ _ _ Kcap). }
  split.
  - intros k e o x l Hin Eo Hx. specialize (Keq _ Hin). cbn [fst snd] in Keq. apply andb_prop in Keq. destruct Keq as [_ Keq]. rewrite Eo in Keq.
    rewrite forallb_forall in Keq. specialize (Keq _ Hx). apply Bool.orb_prop in Keq. destruct Keq as [Keq|Keq]; [|right; right; now apply entry_in_ok].
    apply Bool.orb_prop in Keq. destruct Keq as [Keq|Keq]; [left|right; left]; now apply entry_in_ok.
  - intros a Ha. rewrite <- in_app_iff in Ha. specialize (Kap _ Ha). apply andb_prop in Kap. destruct Kap as [A B]. rewrite strip_full in B.
    apply Bool.negb_true_iff in A, B. split; intros C; apply mem_str_spec in C; congruence.
Qed.

(** The names of the variables the equations use. *)
Definition used_names (h : heap) (b : block) : list string :=
  flat_map (fun e => match eq_objs e with
                     | Some o => flat_map (fun kl => match hget h (snd kl) with Some q => [q_name q] | None => [] end)
                                          (filter (fun kl => match hget h (snd kl) with Some q => qkind_eqb (q_kind q) KVariable | None => false end) o)
                     | None => [] end) (b_eqs b).
Lemma used_names_ok h b e x : In e (b_eqs b) -> uses_variable h x e -> In x (used_names h b).
Proof.
  intros He (o & k & l & q & Eo & Hin & G & K & N). unfold used_names. apply in_flat_map. exists e. split; [exact He|]. rewrite Eo. apply in_flat_map.
  exists (k, l). split; [apply filter_In; split; [exact Hin|]; cbn [snd]; rewrite G, K; reflexivity|]. cbn [snd]. rewrite G. now left.
Qed.
Lemma added_by acts before i after m names s b : acts = before ++ AAdd i :: after ->
  model_of (run_acts start_session before) i = Some m -> names = dkeys (m_vars m) ->
  among_all (used_names (pw_heap (fst s)) b) names = true -> added_with_variables acts s b.
Proof.
  intros E Hm -> Ha e x He Hu. exists before, i, after, m. split; [exact E|]. split; [exact Hm|]. exact (among_all_ok _ _ Ha x (used_names_ok _ _ _ _ He Hu)).
Qed.
