(** Invariants of the equations of a session: what holds of every equation when it is
    made and is kept by renaming holds of every equation of every model. *)
From Verif Require Import Base BaseFacts Num NumFacts UnitModel UnitFacts Sympy Node Build EquationModel ModelModel ProblemModel
  SpecUnits UnitThms SpecExpr SpecQty QtyFacts SpecModel BuildFacts EquationFacts ModelFacts SpecInc IncFacts SpecCall CallFacts
  SpecProblem ProblemFacts SessionFacts SpecTrace.
From Coq Require Import Reals.
Notation num := Verif.Num.num.

(** [P i e]: what holds of equation [e] of model [i] before an action, [P'] after it;
    [Src]: the equations the action may write; [Ren i j]: how it may change the names
    of equations it copies from model [j] to model [i]. *)
Definition epred := option node -> option (node * node) -> bool -> option eclass -> Prop.
Definition made_so (P : epred) (e : eqn) : Prop := P (eq_expr e) (eq_elem e) (eq_elementary e) (eq_type e).
Definition minv (P : epred) (m : mstate) : Prop := forall k e, In (k, e) (m_eqs m) -> made_so P e.

Section Invariant.
Variables P P' : nat -> epred.
Variable Src : nat -> heap -> ueq loc -> Prop.
Variable Ren : nat -> nat -> dict string -> Prop.
Hypothesis mono : forall i x el f t, P i x el f t -> P' i x el f t.
Hypothesis made : forall i h q arg name e, Src i h q -> build_eq h q = Ok arg -> set_residual (blank_eqn name) arg = (e, Ok tt) -> made_so (P' i) e.
Hypothesis renamed : forall i j names w e e2, Ren i j names -> made_so (P j) e -> convert_symbolic names w e = Ok e2 -> made_so (P' i) e2.

Lemma create_inv i w n h q arg check w' r : Src i h q -> build_eq h q = Ok arg -> minv (P' i) (w_mod w) ->
  create_equation w n (Some arg) check = (w', r) -> minv (P' i) (w_mod w').
Proof.
  intros Hs Hb M H. destruct (create_outcome w n arg check) as [u' E]. rewrite E in H. clear E.
  destruct (set_residual _ arg) as [e0 [[]|x2]] eqn:Er; [|injection H as <- _; exact M].
  destruct (eq_expr e0) as [nn|] eqn:En; [|injection H as <- _; exact M]. cbv zeta in H.
  set (e2 := mkEqn (stored_name w n) (Some nn) (eq_elem e0) (eq_elementary e0) (eq_type e0) (Some (nd_smap nn)) (m_name (w_mod w))) in *.
  assert (S : minv (P' i) (with_eqs (w_mod w) (dset (stored_name w n) e2 (m_eqs (w_mod w))))).
  { intros k e Hin. cbn [m_eqs with_eqs] in Hin. apply in_dset in Hin. destruct Hin as [[_ ->]|Hin]; [|exact (M k e Hin)].
    assert (X := made _ _ _ _ _ _ Hs Hb Er). unfold made_so in *. rewrite En in X. exact X. }
  destruct check; [destruct (forallb _ _)|]; injection H as <- _; [exact S|exact M|exact S].
Qed.

Lemma cmd_inv i w c w' r : (forall a n q check q', c = CEq a n q check -> resolve_eq (attr_qty (w_mod w)) q = Ok q' -> Src i (w_heap w) q') ->
  minv (P' i) (w_mod w) -> run_cmd w c = (w', r) -> minv (P' i) (w_mod w').
Proof.
  intros S M H. destruct c as [a n u ex ty v|a n u v|a n u v|a v u|a|a n q check]; cbn [run_cmd] in H.
  - unfold assign_qty, create_variable in H.
    destruct ex; [destruct (String.eqb ty "input"); [|destruct (String.eqb ty "output")]|]; injection H as <- _; exact M.
  - injection H as <- _; exact M.
  - injection H as <- _; exact M.
  - destruct (attr_qty (w_mod w) a) as [l|x]; [|injection H as <- _; exact M].
    destruct (match v with SANum n => _ | SAAttr b => _ end) as [sv|x]; [|injection H as <- _; exact M].
    destruct (heap_set_value _ _ _ _) as [h' r']. injection H as <- _. exact M.
  - destruct (attr_qty (w_mod w) a) as [l|x]; [|injection H as <- _; exact M].
    destruct (hget (w_heap w) l) as [q|]; [|injection H as <- _; exact M].
    destruct (qkind_eqb (q_kind q) KVariable); injection H as <- _; exact M.
  - destruct (rbind (resolve_eq (attr_qty (w_mod w)) q) (fun q' => build_eq (w_heap w) q')) as [arg|x] eqn:Eb;
      [|injection H as <- _; exact M].
    binv. destruct (create_equation w n (Some arg) check) as [w2 r2] eqn:Ec.
    assert (M2 := create_inv i _ _ _ _ _ _ _ _ (S _ _ _ _ _ eq_refl Hb) Eb M Ec). destruct r2; injection H as <- _; exact M2.
Qed.
Lemma cmds_inv i cs : forall w w' r, (forall h q, reaches w cs h q -> Src i h q) ->
  minv (P' i) (w_mod w) -> run_cmds w cs = (w', r) -> minv (P' i) (w_mod w').
Proof.
  induction cs as [|c cs IH]; intros w w' r S M H; cbn [run_cmds] in H; [injection H as <- _; exact M|].
  destruct (run_cmd w c) as [w1 r1] eqn:E.
  assert (M1 : minv (P' i) (w_mod w1)).
  { apply (cmd_inv i w c w1 r1) with (3 := E); [|exact M]. intros a n q check q' -> Hq. apply S.
    exists [], a, n, q, check, cs, w. repeat split. exact Hq. }
  destruct r1 as [[]|x]; [|injection H as <- _; exact M1]. refine (IH _ _ _ _ M1 H).
  intros h q (pre & a & n & q0 & check & post & w2 & -> & Hp & Hq & ->). apply S.
  exists (c :: pre), a, n, q0, check, post, w2. split; [reflexivity|]. split; [cbn [run_cmds]; now rewrite E|]. split; [exact Hq|reflexivity].
Qed.
Lemma call_inv i d w w' r : (forall h q, reaches w (method_statements d) h q -> Src i h q) ->
  minv (P' i) (w_mod w) -> model_call d w = (w', r) -> minv (P' i) (w_mod w').
Proof. intros S M H. exact (cmds_inv i _ _ _ _ S M H). Qed.

Lemma add_equations_inv i j names w rw es : Ren i j names -> (forall e, In e es -> made_so (P j) e) ->
  forall m m' r, minv (P' i) m -> add_equations m es names w rw = (m', r) -> minv (P' i) m'.
Proof.
  intros Hr. induction es as [|e es IH]; intros He m m' r M H; cbn [add_equations] in H; [injection H as <- _; exact M|].
  unfold add_equation in H.
  destruct (convert_symbolic names w _) as [e2|x] eqn:Ec; [|injection H as <- _; exact M].
  assert (O : made_so (P' i) e2) by (refine (renamed i j _ _ _ _ Hr _ Ec); exact (He e (or_introl eq_refl))).
  refine (IH (fun x Hx => He x (or_intror Hx)) _ _ _ _ H).
  intros k e' Hin. cbn [m_eqs with_eqs set_attr with_attrs] in Hin. apply in_dset in Hin. destruct Hin as [[_ ->]|Hin]; [exact O|exact (M k e' Hin)].
Qed.

Lemma add_all_eqs add : (forall h m l rw h' m' r, add h m l rw = (h', m', r) -> m_eqs m' = m_eqs m) ->
  forall ls h m rw h' m' r, add_all add h m ls rw = (h', m', r) -> m_eqs m' = m_eqs m.
Proof.
  intros A. induction ls as [|l ls IH]; intros h m rw h' m' r H; cbn [add_all] in H; [injection H as _ <- _; reflexivity|].
  destruct (add h m l rw) as [[h1 m1] [[]|x]] eqn:E; assert (X := A _ _ _ _ _ _ _ E).
  - rewrite <- X. exact (IH _ _ _ _ _ _ H).
  - injection H as _ <- _. exact X.
Qed.
Lemma add_variable_eqs h m l rw h' m' r : add_variable h m l rw = (h', m', r) -> m_eqs m' = m_eqs m.
Proof.
  unfold add_variable. destruct (hget h l) as [q|]; [|intros H; now injection H as _ <- _].
  destruct (q_exposed q); intros H; injection H as _ <- _; reflexivity.
Qed.
Lemma add_parameter_eqs h m l rw h' m' r : add_parameter h m l rw = (h', m', r) -> m_eqs m' = m_eqs m.
Proof. unfold add_parameter. destruct (hget h l) as [q|]; intros H; now injection H as _ <- _. Qed.
Lemma add_constant_eqs h m l rw h' m' r : add_constant h m l rw = (h', m', r) -> m_eqs m' = m_eqs m.
Proof. unfold add_constant. destruct (hget h l) as [q|]; intros H; now injection H as _ <- _. Qed.

Lemma same_inv Q m m' : m_eqs m' = m_eqs m -> minv Q m -> minv Q m'.
Proof. intros E M k e H. apply (M k). now rewrite <- E. Qed.

Lemma add_all_name add : (forall h m l rw h' m' r, add h m l rw = (h', m', r) -> m_name m' = m_name m) ->
  forall ls h m rw h' m' r, add_all add h m ls rw = (h', m', r) -> m_name m' = m_name m.
Proof.
  intros A. induction ls as [|l ls IH]; intros h m rw h' m' r H; cbn [add_all] in H; [injection H as _ <- _; reflexivity|].
  destruct (add h m l rw) as [[h1 m1] [[]|x]] eqn:E; assert (X := A _ _ _ _ _ _ _ E).
  - rewrite <- X. exact (IH _ _ _ _ _ _ H).
  - injection H as _ <- _. exact X.
Qed.
Lemma add_variable_name h m l rw h' m' r : add_variable h m l rw = (h', m', r) -> m_name m' = m_name m.
Proof.
  unfold add_variable. destruct (hget h l) as [q|]; [|intros H; now injection H as _ <- _].
  destruct (q_exposed q); intros H; injection H as _ <- _; reflexivity.
Qed.
Lemma add_parameter_name h m l rw h' m' r : add_parameter h m l rw = (h', m', r) -> m_name m' = m_name m.
Proof. unfold add_parameter. destruct (hget h l) as [q|]; intros H; now injection H as _ <- _. Qed.
Lemma add_constant_name h m l rw h' m' r : add_constant h m l rw = (h', m', r) -> m_name m' = m_name m.
Proof. unfold add_constant. destruct (hget h l) as [q|]; intros H; now injection H as _ <- _. Qed.

Lemma incorporate_inv i j h m donor f h' m' r : (i_eqs f = true -> Ren i j (names_map donor (m_name m))) ->
  minv (P' i) m -> minv (P j) donor -> incorporate h m donor f = (h', m', r) -> minv (P' i) m'.
Proof.
  intros Rn M D H. unfold incorporate in H.
  destruct (if i_vars f then _ else _) as [[h1 m1] r1] eqn:E1.
  assert (T1 : minv (P' i) m1).
  { destruct (i_vars f); [|injection E1 as _ <- _; exact M]. exact (same_inv _ _ _ (add_all_eqs _ add_variable_eqs _ _ _ _ _ _ _ E1) M). }
  assert (N1 : m_name m1 = m_name m).
  { destruct (i_vars f); [exact (add_all_name _ add_variable_name _ _ _ _ _ _ _ E1)|now injection E1 as _ <- _]. }
  destruct r1 as [[]|x]; [|injection H as _ <- _; exact T1].
  destruct (if i_pars f then _ else _) as [[h2 m2] r2] eqn:E2.
  assert (T2 : minv (P' i) m2).
  { destruct (i_pars f); [|injection E2 as _ <- _; exact T1]. exact (same_inv _ _ _ (add_all_eqs _ add_parameter_eqs _ _ _ _ _ _ _ E2) T1). }
  assert (N2 : m_name m2 = m_name m1).
  { destruct (i_pars f); [exact (add_all_name _ add_parameter_name _ _ _ _ _ _ _ E2)|now injection E2 as _ <- _]. }
  destruct r2 as [[]|x]; [|injection H as _ <- _; exact T2].
  destruct (if i_cons f then _ else _) as [[h3 m3] r3] eqn:E3.
  assert (T3 : minv (P' i) m3).
  { destruct (i_cons f); [|injection E3 as _ <- _; exact T2]. exact (same_inv _ _ _ (add_all_eqs _ add_constant_eqs _ _ _ _ _ _ _ E3) T2). }
  assert (N3 : m_name m3 = m_name m2).
  { destruct (i_cons f); [exact (add_all_name _ add_constant_name _ _ _ _ _ _ _ E3)|now injection E3 as _ <- _]. }
  destruct r3 as [[]|x]; [|injection H as _ <- _; exact T3].
  destruct (i_eqs f) eqn:Ef; [|injection H as _ <- _; exact T3].
  destruct (add_equations m3 _ _ _ _) as [m4 r4] eqn:E4. injection H as _ <- _.
  refine (add_equations_inv i j _ _ _ _ _ _ _ _ _ T3 E4).
  { rewrite N3, N2, N1. now apply Rn. }
  intros e He. apply in_map_iff in He. destruct He as [[k e'] [<- Hin]]. exact (D k e' Hin).
Qed.

Lemma connection_inv i w outs ins a w' r : (a = EAOther \/ exists q, Src i (w_heap w) q /\ build_eq (w_heap w) q = Ok a) -> minv (P' i) (w_mod w) ->
  model_connection w outs ins a = (w', r) -> minv (P' i) (w_mod w').
Proof.
  intros Ba M H. unfold model_connection in H.
  destruct (forallb (is_variable (w_heap w)) ins && forallb (is_variable (w_heap w)) outs); [|injection H as <- _; exact M].
  destruct (rbind (qty_names (w_heap w) outs) _) as [name|x] eqn:En; [|injection H as <- _; exact M].
  assert (Ne : name <> "") by (binv; apply append_ne).
  destruct (connection_init (w_uids w) name a) as [u [e|x]] eqn:Ec; injection H as <- _; [|exact M].
  destruct Ba as [->|(q & Hs & Hb)].
  { exfalso. unfold connection_init, equation_init in Ec. destruct (String.eqb name ""); simpl in Ec; discriminate. }
  unfold connection_init in Ec.
  destruct (init_outcome (w_uids w) main_thread name a "") as [u1 E]. rewrite E in Ec. clear E.
  apply String.eqb_neq in Ne. rewrite Ne in Ec.
  destruct (set_residual (blank_eqn name) a) as [e1 [[]|x]] eqn:Er; [|discriminate].
  destruct (residual_again a _ _ (with_eowner e1 "") (built_not_other _ _ _ Hb) Er) as (e2 & E2 & X & T & N & _ & El & Ef).
  rewrite E2 in Ec. assert (D := made _ _ _ _ _ _ Hs Hb Er). unfold sweep_objects in Ec. destruct (eq_expr e2) as [nn|] eqn:E3; [|discriminate].
  injection Ec as _ <-.
  intros k e Hin. cbn [w_mod m_eqs with_eqs] in Hin. apply in_dset in Hin. destruct Hin as [[_ ->]|Hin]; [|exact (M k e Hin)].
  unfold made_so in *. cbn. rewrite <- X, <- (El eq_refl), <- (Ef eq_refl), <- T in D. rewrite E3 in *. exact D.
Qed.

Definition winv (Q : nat -> epred) (w : pworld) : Prop := forall i m d, get_model w i = Some (m, d) -> minv (Q i) m.
Lemma winv_mono w : winv P w -> winv P' w.
Proof. intros O i m d G k e Hin. apply mono. exact (O i m d G k e Hin). Qed.
Lemma on_model_inv {A} w i (f : decls -> mworld -> mworld * res A) w2 r : winv P' w ->
  (forall m d w' r, get_model w i = Some (m, d) -> f d (mkW (pw_heap w) (pw_uids w) m) = (w', r) -> minv (P' i) m -> minv (P' i) (w_mod w')) ->
  on_model w i f = (w2, r) -> winv P' w2.
Proof.
  intros O HF H. apply on_model_spec in H. destruct H as [(_ & -> & _)|(m & d & w' & G & F & Hh & G2 & Go & L)]; [exact O|].
  assert (K := HF m d w' r G F (O i m d G)). intros j mj dj Gj. destruct (Nat.eq_dec j i) as [->|Hne].
  - assert (X : Some (mj, dj) = Some (w_mod w', d)) by congruence. injection X as -> ->. exact K.
  - rewrite Go in Gj by exact Hne. exact (O j mj dj Gj).
Qed.
Lemma reload_inv is : forall w w' r,
  (forall done i rest w1 m d h q, is = done ++ i :: rest -> reload w done = (w1, Ok tt) -> get_model w1 i = Some (m, d) ->
     reaches (mkW (pw_heap w1) (pw_uids w1) m) (method_statements d) h q -> Src i h q) ->
  winv P' w -> reload w is = (w', r) -> winv P' w'.
Proof.
  induction is as [|i is IH]; intros w w' r S O H; simpl in H; [now injection H as <- _|].
  destruct (on_model w i model_call) as [w1 r1] eqn:E.
  assert (O1 : winv P' w1).
  { apply (on_model_inv _ _ _ _ _ O) with (2 := E). intros m d w2 r2 G F M.
    refine (call_inv i d (mkW (pw_heap w) (pw_uids w) m) _ _ _ M F).
    intros h q Hq. refine (S [] i is w m d h q eq_refl eq_refl G Hq). }
  destruct r1 as [[]|x]; [|injection H as <- _; exact O1]. refine (IH _ _ _ _ O1 H).
  intros done j rest w2 m d h q -> Hd. apply (S (i :: done) j rest w2 m d h q eq_refl). simpl. now rewrite E.
Qed.

Lemma do_act_inv s a : (forall i h q, writes s a i h q -> Src i h q) ->
  (forall i j f m d dm dd, a = AInc i j f -> i_eqs f = true -> get_model (fst s) i = Some (m, d) -> get_model (fst s) j = Some (dm, dd) ->
     Ren i j (names_map dm (m_name m))) ->
  winv P (fst s) -> winv P' (fst (fst (do_act s a))).
Proof.
  intros S Rn O0. assert (O := winv_mono _ O0). destruct s as [w p]. destruct (do_act (w, p) a) as [[w' p'] r] eqn:E. cbn [fst snd] in *.
  destruct a as [n dd|k c|k|k j f|k|m1 m2 outs ins e|m1 m2 out inp|names|c|]; simpl in E.
  - injection E as <- _ _. intros i m d H. unfold get_model in H. simpl in H. destruct (Nat.lt_ge_cases i (List.length (pw_models w))) as [L|L].
    + rewrite nth_error_app1 in H by exact L. exact (O i m d H).
    + rewrite nth_error_app2 in H by exact L. destruct (i - _)%nat as [|z]; [|destruct z; discriminate]. injection H as <- <-. intros k e [].
  - destruct (on_model w k _) as [w1 r1] eqn:E1. injection E as <- _ _.
    apply (on_model_inv _ _ _ _ _ O) with (2 := E1). intros m d w2 r2 G F M.
    refine (cmd_inv k (mkW (pw_heap w) (pw_uids w) m) _ _ _ _ M F).
    intros a n q check q' -> Hq. apply S. split; [reflexivity|]. exists m, d. split; [exact G|].
    exists [], a, n, q, check, [], (mkW (pw_heap w) (pw_uids w) m). repeat split. exact Hq.
  - destruct (on_model w k _) as [w1 r1] eqn:E1. injection E as <- _ _.
    apply (on_model_inv _ _ _ _ _ O) with (2 := E1). intros m d w2 r2 G F M.
    refine (call_inv k _ (mkW (pw_heap w) (pw_uids w) m) _ _ _ M F).
    intros h q Hq. apply S. split; [reflexivity|]. exists m, d. split; [exact G|exact Hq].
  - destruct (get_model w j) as [[dm dd]|] eqn:Gj; [|injection E as <- _ _; exact O].
    destruct (on_model w k _) as [w1 r1] eqn:E1. injection E as <- _ _.
    apply (on_model_inv _ _ _ _ _ O) with (2 := E1). intros m d w3 r3 Gi F M.
    simpl in F. destruct (incorporate (pw_heap w) m dm f) as [[h3 m3] r4] eqn:Ei. injection F as <- _.
    refine (incorporate_inv k j _ _ _ _ _ _ _ _ M (O0 j dm dd Gj) Ei). intros Hf. exact (Rn k j f m d dm dd eq_refl Hf Gi Gj).
  - destruct (get_model w k); injection E as <- _ _; exact O.
  - destruct (match e with None => Ok None | Some q => _ end) as [x|x] eqn:Ex; [|injection E as <- _ _; exact O].
    unfold connect_vars in E. destruct (get_model w m2) as [[s2 d2]|]; [|injection E as <- _ _; exact O].
    destruct (match m1 with CMName _ => _ | CMModel i => _ end); [|injection E as <- _ _; exact O].
    destruct (forallb _ (cv_list ins) && forallb _ (cv_list outs)).
    2: { destruct ins, outs; injection E as <- _ _; exact O. }
    destruct (match x with Some a => Ok a | None => balance _ _ _ end) as [ar|] eqn:Ba; [|injection E as <- _ _; exact O].
    assert (Ha : ar = EAOther \/ exists q, Src m2 (pw_heap w) q /\ build_eq (pw_heap w) q = Ok ar).
    { destruct x as [a'|].
      - injection Ba as ->. destruct e as [q|]; [|discriminate]. binv. right. exists q. split; [apply S; repeat split|]. rewrite Hb. congruence.
      - destruct e as [q|]; [binv; discriminate|]. apply balance_built in Ba. destruct Ba as [(-> & _)|(q & Hq & Hb)]; [now left|right].
        exists (UResid q). split; [|exact Hb]. apply S. split; [reflexivity|]. split; [reflexivity|]. exists q. split; [reflexivity|].
        intros v. exact (balance_meaning _ _ _ _ _ Hq). }
    destruct (rbind (qty_names (pw_heap w) (cv_list outs)) _) as [[o i']|]; [|injection E as <- _ _; exact O].
    destruct (on_model w m2 _) as [w1 r1] eqn:E1.
    assert (Q : winv P' w1).
    { apply (on_model_inv _ _ _ _ _ O) with (2 := E1). intros m d w2 r2 _ F M.
      exact (connection_inv m2 (mkW (pw_heap w) (pw_uids w) m) _ _ _ _ _ Ha M F). }
    destruct r1; injection E as <- _ _; exact Q.
  - destruct (rbind (build (pw_heap w) out) _) as [[o i]|x] eqn:Ex; [|injection E as <- _ _; exact O].
    destruct (build (pw_heap w) out) as [o'|] eqn:Ho; [|discriminate]. cbn [rbind] in Ex.
    destruct (build (pw_heap w) inp) as [i'|] eqn:Hi; [|discriminate]. cbn [rbind] in Ex. injection Ex as -> ->.
    unfold connect_nodes in E. destruct (get_model w m2) as [[s2 d2]|]; [|injection E as <- _ _; exact O].
    destruct (match m1 with CMName _ => _ | CMModel i => _ end) as [pu r0].
    set (w0 := mkPW (pw_heap w) (pw_uids w) pu (pw_models w)) in *.
    assert (O1 : winv P' w0) by exact O.
    destruct r0 as [n1|e]; [|injection E as <- _ _; exact O1].
    destruct (node_sub i (ONode o)) as [d|e] eqn:Ed; [|injection E as <- _ _; exact O1].
    assert (Hb : build_eq (pw_heap w) (UResid (UBin BSub inp out)) = Ok (EANode d)).
    { cbn [build_eq build]. rewrite Hi, Ho. cbn [rbind node_op]. now rewrite Ed. }
    assert (Hs : Src m2 (pw_heap w) (UResid (UBin BSub inp out))) by (apply S; repeat split).
    destruct (on_model w0 m2 _) as [w2 r2] eqn:E2.
    assert (Q : winv P' w2).
    { apply (on_model_inv _ _ _ _ _ O1) with (2 := E2). intros m dd w3 r3 _ F M.
      exact (create_inv m2 (mkW (pw_heap w) (pw_uids w) m) _ _ _ _ _ _ _ Hs Hb M F). }
    destruct r2 as [e|e]; injection E as <- _ _; exact Q.
  - injection E as <- _ _. exact O.
  - injection E as <- _ _. exact O.
  - unfold presolve in E. destruct (reload w (dvals (pr_models p))) as [w1 r1] eqn:E1.
    assert (Q : winv P' w1).
    { apply (reload_inv _ _ _ _) with (2 := O) (3 := E1). intros done i rest w2 m d h q Hi Hd Hm Hq. apply S.
      exists done, rest, w2, m, d. split; [exact Hi|]. split; [exact Hd|]. split; [exact Hm|exact Hq]. }
    destruct r1 as [[]|x]; [|injection E as <- _ _; exact Q]. destruct (build_block w1 p); [|injection E as <- _ _; exact Q].
    destruct (block_call _) as [b' r']. injection E as <- _ _. exact Q.
Qed.
End Invariant.

(** A property of equations that may refer to the actions so far. *)
Lemma run_trace (P : list act -> nat -> epred) :
  (forall past a i x el f t, P past i x el f t -> P (past ++ [a]) i x el f t) ->
  (forall past a i h q arg name e, writes (run_acts start_session past) a i h q -> build_eq h q = Ok arg ->
     set_residual (blank_eqn name) arg = (e, Ok tt) -> made_so (P (past ++ [a]) i) e) ->
  (forall past i j fl m d dm dd w e e2, get_model (fst (run_acts start_session past)) i = Some (m, d) ->
     get_model (fst (run_acts start_session past)) j = Some (dm, dd) -> i_eqs fl = true ->
     made_so (P past j) e -> convert_symbolic (names_map dm (m_name m)) w e = Ok e2 -> made_so (P (past ++ [AInc i j fl]) i) e2) ->
  forall acts, winv (P acts) (fst (run_acts start_session acts)).
Proof.
  intros mono made renamed acts. induction acts as [|a acts IH] using rev_ind.
  - intros i m d H. unfold get_model in H; destruct i; discriminate.
  - rewrite run_acts_app. simpl.
    apply (do_act_inv (P acts) (P (acts ++ [a])) (writes (run_acts start_session acts) a)
      (fun i j names => exists f m d dm dd, a = AInc i j f /\ i_eqs f = true /\ get_model (fst (run_acts start_session acts)) i = Some (m, d) /\
         get_model (fst (run_acts start_session acts)) j = Some (dm, dd) /\ names = names_map dm (m_name m))).
    + intros i x el f t. apply mono.
    + intros i h q arg name e. apply made.
    + intros i j names w e e2 (f & m & d & dm & dd & -> & Hf & Gi & Gj & ->). exact (renamed acts i j f m d dm dd w e e2 Gi Gj Hf).
    + intros i h q H. exact H.
    + intros i j f m d dm dd -> Hf Gi Gj. exists f, m, d, dm, dd. repeat split; assumption.
    + exact IH.
Qed.

(** A property of equations alone. *)
Lemma run_inv (P : epred) :
  (forall h q arg name e, build_eq h q = Ok arg -> set_residual (blank_eqn name) arg = (e, Ok tt) -> made_so P e) ->
  (forall names w e e2, made_so P e -> convert_symbolic names w e = Ok e2 -> made_so P e2) ->
  forall acts i m d, get_model (fst (run_acts start_session acts)) i = Some (m, d) -> forall k e, In (k, e) (m_eqs m) -> made_so P e.
Proof.
  intros made renamed acts. apply (run_trace (fun _ _ => P)); eauto.
Qed.
