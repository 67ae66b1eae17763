(** The units of the quantities of a session are those written in it (C61). *)
From Verif Require Import Base BaseFacts Num NumFacts UnitModel UnitFacts Sympy Node Build EquationModel ModelModel ProblemModel
  SpecUnits UnitThms SpecExpr SpecQty QtyFacts SpecModel BuildFacts EquationFacts ModelFacts SpecInc IncFacts SpecCall CallFacts
  SpecProblem ProblemFacts SessionFacts SpecProper.
Notation num := Verif.Num.num.

Section Units.
Variable P : unit -> Prop.
Definition all_of (h : heap) : Prop := forall l q, hget h l = Some q -> P (q_units q).

Lemma all_of_end h q : P (q_units q) -> all_of h -> all_of (h ++ [q]).
Proof.
  intros Pq A l o H. unfold hget in H. destruct (Nat.lt_ge_cases l (List.length h)) as [L|L].
  - rewrite nth_error_app1 in H by exact L. exact (A l o H).
  - rewrite nth_error_app2 in H by exact L. destruct (l - List.length h)%nat as [|z]; [injection H as <-; exact Pq|destruct z; discriminate H].
Qed.
Lemma all_of_set h l q q' : hget h l = Some q -> q_units q' = q_units q -> all_of h -> all_of (hset h l q').
Proof.
  intros G E A i o H. destruct (Nat.eq_dec i l) as [->|N].
  - rewrite hget_hset_eq in H by now apply hget_lt in G. injection H as <-. rewrite E. exact (A l q G).
  - rewrite hget_hset_neq in H by exact N. exact (A i o H).
Qed.

Lemma cmd_all w c w' r : Forall P (cmd_unit c) -> run_cmd w c = (w', r) -> all_of (w_heap w) -> all_of (w_heap w').
Proof.
  intros F H A. destruct c as [a n u ex ty v|a n u v|a n u v|a v u|a|a n q check]; cbn [run_cmd cmd_unit] in *.
  - apply Forall_inv in F. unfold assign_qty, create_variable in H.
    destruct ex; [destruct (String.eqb ty "input"); [|destruct (String.eqb ty "output")]|]; injection H as <- _; now apply all_of_end.
  - apply Forall_inv in F. injection H as <- _. now apply all_of_end.
  - apply Forall_inv in F. injection H as <- _. now apply all_of_end.
  - destruct (attr_qty (w_mod w) a) as [l|x]; [|injection H as <- _; exact A].
    destruct (match v with SANum n => _ | SAAttr b => _ end) as [sv|x]; [|injection H as <- _; exact A].
    unfold heap_set_value in H. destruct (hget (w_heap w) l) as [q|] eqn:G; [|injection H as <- _; exact A].
    destruct (set_value q sv u) as [q'|x] eqn:Es; injection H as <- _; [|exact A].
    destruct (set_value_effect _ _ _ _ Es) as (_ & _ & E & _). exact (all_of_set _ _ _ _ G E A).
  - destruct (attr_qty (w_mod w) a) as [l|x]; [|injection H as <- _; exact A].
    destruct (hget (w_heap w) l) as [q|] eqn:G; [|injection H as <- _; exact A].
    destruct (qkind_eqb (q_kind q) KVariable); injection H as <- _; [|exact A].
    refine (all_of_set _ _ q _ G _ A). reflexivity.
  - destruct (rbind (resolve_eq (attr_qty (w_mod w)) q) (fun q' => build_eq (w_heap w) q')) as [arg|x]; [|injection H as <- _; exact A].
    destruct (create_outcome w n arg check) as [u' E]. rewrite E in H. clear E.
    destruct (set_residual _ arg) as [e0 [[]|x2]]; [|injection H as <- _; exact A].
    destruct (eq_expr e0) as [nn|]; [|injection H as <- _; exact A]. cbv zeta in H.
    destruct check; [destruct (forallb _ _)|]; injection H as <- _; exact A.
Qed.
Lemma cmds_all cs : forall w w' r, Forall P (flat_map cmd_unit cs) -> run_cmds w cs = (w', r) -> all_of (w_heap w) -> all_of (w_heap w').
Proof.
  induction cs as [|c cs IH]; intros w w' r F H A; cbn [run_cmds flat_map] in *; [injection H as <- _; exact A|].
  apply Forall_app in F. destruct F as [F1 F2]. destruct (run_cmd w c) as [w1 [[]|x]] eqn:E.
  - exact (IH _ _ _ F2 H (cmd_all _ _ _ _ F1 E A)).
  - injection H as <- _. exact (cmd_all _ _ _ _ F1 E A).
Qed.

Lemma add_all_units (add : heap -> mstate -> loc -> bool -> heap * mstate * res Datatypes.unit) :
  (forall h m l rw h' m' r, add h m l rw = (h', m', r) -> all_of h -> all_of h') ->
  forall ls h m rw h' m' r, add_all add h m ls rw = (h', m', r) -> all_of h -> all_of h'.
Proof.
  intros S. induction ls as [|l ls IH]; intros h m rw h' m' r H A; cbn [add_all] in H; [injection H as <- _ _; exact A|].
  destruct (add h m l rw) as [[h1 m1] [[]|x]] eqn:E.
  - exact (IH _ _ _ _ _ _ H (S _ _ _ _ _ _ _ E A)).
  - injection H as <- _ _. exact (S _ _ _ _ _ _ _ E A).
Qed.
Lemma variable_units h m l rw h' m' r : add_variable h m l rw = (h', m', r) -> all_of h -> all_of h'.
Proof.
  unfold add_variable. destruct (hget h l) as [q|] eqn:G; intros H A; [|injection H as <- _ _; exact A].
  assert (Q := A l q G). destruct (q_exposed q); injection H as <- _ _; now apply all_of_end.
Qed.
Lemma parameter_units h m l rw h' m' r : add_parameter h m l rw = (h', m', r) -> all_of h -> all_of h'.
Proof.
  unfold add_parameter. destruct (hget h l) as [q|] eqn:G; intros H A; [|injection H as <- _ _; exact A].
  assert (Q := A l q G). injection H as <- _ _. now apply all_of_end.
Qed.
Lemma constant_units h m l rw h' m' r : add_constant h m l rw = (h', m', r) -> all_of h -> all_of h'.
Proof.
  unfold add_constant. destruct (hget h l) as [q|] eqn:G; intros H A; [|injection H as <- _ _; exact A].
  assert (Q := A l q G). injection H as <- _ _. now apply all_of_end.
Qed.
Lemma incorporate_units h m d f h' m' r : incorporate h m d f = (h', m', r) -> all_of h -> all_of h'.
Proof.
  unfold incorporate. intros H A.
  destruct (if i_vars f then _ else _) as [[h1 m1] r1] eqn:E1.
  assert (A1 : all_of h1). { destruct (i_vars f); [exact (add_all_units _ variable_units _ _ _ _ _ _ _ E1 A)|injection E1 as <- _ _; exact A]. }
  destruct r1 as [[]|x]; [|injection H as <- _ _; exact A1].
  destruct (if i_pars f then _ else _) as [[h2 m2] r2] eqn:E2.
  assert (A2 : all_of h2). { destruct (i_pars f); [exact (add_all_units _ parameter_units _ _ _ _ _ _ _ E2 A1)|injection E2 as <- _ _; exact A1]. }
  destruct r2 as [[]|x]; [|injection H as <- _ _; exact A2].
  destruct (if i_cons f then _ else _) as [[h3 m3] r3] eqn:E3.
  assert (A3 : all_of h3). { destruct (i_cons f); [exact (add_all_units _ constant_units _ _ _ _ _ _ _ E3 A2)|injection E3 as <- _ _; exact A2]. }
  destruct r3 as [[]|x]; [|injection H as <- _ _; exact A3].
  destruct (i_eqs f); [|injection H as <- _ _; exact A3]. destruct (add_equations _ _ _ _ _) as [m4 r4]. injection H as <- _ _. exact A3.
Qed.

Definition script_units (d : decls) : list unit := flat_map cmd_unit (d_cons d ++ d_pars d ++ d_vars d ++ d_eqs d).
Record proper (w : pworld) : Prop := mkProper {
  p_heap : all_of (pw_heap w);
  p_models : forall i m d, get_model w i = Some (m, d) -> Forall P (script_units d) }.

Lemma on_model_proper {A} w i (f : decls -> mworld -> mworld * res A) w2 r : proper w ->
  (forall m d w' r, get_model w i = Some (m, d) -> f d (mkW (pw_heap w) (pw_uids w) m) = (w', r) -> all_of (w_heap w')) ->
  on_model w i f = (w2, r) -> proper w2.
Proof.
  intros O HF H. apply on_model_spec in H. destruct H as [(_ & -> & _)|(m & d & w' & G & F & Hh & G2 & Go & L)]; [exact O|].
  constructor; [rewrite Hh; exact (HF m d w' r G F)|]. intros j mj dj Gj. destruct (Nat.eq_dec j i) as [->|Hne].
  - assert (X : Some (mj, dj) = Some (w_mod w', d)) by congruence. injection X as -> ->. exact (p_models _ O i m d G).
  - rewrite Go in Gj by exact Hne. exact (p_models _ O j mj dj Gj).
Qed.
Lemma call_proper w i w2 r : proper w -> on_model w i model_call = (w2, r) -> proper w2.
Proof.
  intros O. apply (on_model_proper _ _ _ _ _ O). intros m d w' r' G F.
  exact (cmds_all _ (mkW (pw_heap w) (pw_uids w) m) _ _ (p_models _ O i m d G) F (p_heap _ O)).
Qed.
Lemma reload_proper is : forall w w' r, proper w -> reload w is = (w', r) -> proper w'.
Proof.
  induction is as [|i is IH]; intros w w' r O H; cbn [reload] in H; [now injection H as <- _|].
  destruct (on_model w i model_call) as [w1 [[]|x]] eqn:E.
  - exact (IH _ _ _ (call_proper _ _ _ _ O E) H).
  - injection H as <- _. exact (call_proper _ _ _ _ O E).
Qed.

Lemma do_act_proper s a : Forall P (written_units [a]) -> proper (fst s) -> proper (fst (fst (do_act s a))).
Proof.
  intros F O. destruct s as [w p]. destruct (do_act (w, p) a) as [[w' p'] r] eqn:E. cbn [fst] in *. unfold written_units in F. cbn [flat_map] in F.
  rewrite app_nil_r in F.
  destruct a as [n dd|k c|k|k j f|k|m1 m2 outs ins e|m1 m2 out inp|names|c|]; cbn [do_act] in E.
  - injection E as <- _ _. destruct O as [O1 O2]. constructor; [exact O1|]. intros i m d H. unfold get_model in *. cbn [pw_models] in H.
    destruct (Nat.lt_ge_cases i (List.length (pw_models w))) as [L|L].
    + rewrite nth_error_app1 in H by exact L. exact (O2 i m d H).
    + rewrite nth_error_app2 in H by exact L. destruct (i - _)%nat as [|z]; [|destruct z; discriminate]. injection H as <- <-. exact F.
  - destruct (on_model w k _) as [w1 r1] eqn:E1. injection E as <- _ _.
    apply (on_model_proper _ _ _ _ _ O) with (2 := E1). intros m d w2 r2 _ H. exact (cmd_all (mkW (pw_heap w) (pw_uids w) m) _ _ _ F H (p_heap _ O)).
  - destruct (on_model w k _) as [w1 r1] eqn:E1. injection E as <- _ _. exact (call_proper _ _ _ _ O E1).
  - destruct (get_model w j) as [[dm dd]|]; [|injection E as <- _ _; exact O].
    destruct (on_model w k _) as [w1 r1] eqn:E1. injection E as <- _ _.
    apply (on_model_proper _ _ _ _ _ O) with (2 := E1). intros m d w2 r2 _ H. cbn [w_heap w_mod] in H.
    destruct (incorporate (pw_heap w) m dm f) as [[h2 m3] r3] eqn:Ei. injection H as <- _. exact (incorporate_units _ _ _ _ _ _ _ Ei (p_heap _ O)).
  - destruct (get_model w k); injection E as <- _ _; exact O.
  - destruct (match e with None => Ok None | Some q => _ end) as [x|x]; [|injection E as <- _ _; exact O].
    unfold connect_vars in E. destruct (get_model w m2) as [[s2 d2]|]; [|injection E as <- _ _; exact O].
    destruct (match m1 with CMName _ => _ | CMModel i => _ end); [|injection E as <- _ _; exact O].
    destruct (forallb _ (cv_list ins) && forallb _ (cv_list outs)).
    2: { destruct ins, outs; injection E as <- _ _; exact O. }
    destruct (match x with Some a => Ok a | None => balance _ _ _ end) as [ar|]; [|injection E as <- _ _; exact O].
    destruct (rbind (qty_names (pw_heap w) (cv_list outs)) _) as [[o i']|]; [|injection E as <- _ _; exact O].
    destruct (on_model w m2 _) as [w1 r1] eqn:E1.
    assert (Q : proper w1).
    { apply (on_model_proper _ _ _ _ _ O) with (2 := E1). intros m d w2 r2 _ H. unfold model_connection in H. cbn [w_heap w_mod w_uids] in H.
      assert (A := p_heap _ O).
      destruct (_ && _) in H; [|injection H as <- _; exact A].
      destruct (rbind _ _) as [nm|] in H; [|injection H as <- _; exact A].
      destruct (connection_init _ _ _) as [u [e2|]] in H; injection H as <- _; exact A. }
    destruct r1; injection E as <- _ _; exact Q.
  - destruct (rbind (build (pw_heap w) out) _) as [[o i']|x]; [|injection E as <- _ _; exact O].
    unfold connect_nodes in E. destruct (get_model w m2) as [[s2 d2]|]; [|injection E as <- _ _; exact O].
    destruct (match m1 with CMName _ => _ | CMModel i => _ end) as [pu r0].
    assert (O' : proper (mkPW (pw_heap w) (pw_uids w) pu (pw_models w))) by (destruct O as [O1 O2]; constructor; [exact O1|exact O2]).
    destruct r0; [|injection E as <- _ _; exact O'].
    destruct (node_sub i' (ONode o)) as [nd|]; [|injection E as <- _ _; exact O'].
    destruct (on_model _ m2 _) as [w1 r1] eqn:E1.
    assert (Q : proper w1).
    { apply (on_model_proper _ _ _ _ _ O') with (2 := E1). intros m d w2 r2 _ H. assert (A := p_heap _ O).
      match type of H with create_equation ?a ?b (Some ?c) ?e = _ => destruct (create_outcome a b c e) as [u' Ec] end.
      rewrite Ec in H. clear Ec. destruct (set_residual _ _) as [e0 [[]|x2]] in H; [|injection H as <- _; exact A].
      destruct (eq_expr e0); [|injection H as <- _; exact A]. cbv zeta in H. injection H as <- _. exact A. }
    destruct r1; injection E as <- _ _; exact Q.
  - injection E as <- _ _. exact O.
  - injection E as <- _ _. exact O.
  - unfold presolve in E. destruct (reload w (dvals (pr_models p))) as [w1 r1] eqn:E1.
    assert (Q := reload_proper _ _ _ _ O E1).
    destruct r1 as [[]|x]; [|injection E as <- _ _; exact Q]. destruct (build_block w1 p); [|injection E as <- _ _; exact Q].
    destruct (block_call _) as [b' r']. injection E as <- _ _. exact Q.
Qed.

Lemma run_proper acts : forall s, Forall P (written_units acts) -> proper (fst s) -> proper (fst (run_acts s acts)).
Proof.
  induction acts as [|a acts IH]; intros s F O; cbn [run_acts]; [exact O|].
  change (a :: acts) with ([a] ++ acts) in F. unfold written_units in F. rewrite flat_map_app in F. apply Forall_app in F. destruct F as [F1 F2].
  apply IH; [exact F2|]. now apply do_act_proper.
Qed.

Lemma resolved_units acts s b : resolved acts s b -> Forall P (written_units acts) -> all_of (pw_heap (fst s)).
Proof.
  intros [H _] F. assert (O : proper (fst (run_acts start_session acts))).
  { apply run_proper; [exact F|]. constructor; [intros l q Hl; unfold hget in Hl; destruct l; discriminate Hl|].
    intros i m d Hi. unfold get_model in Hi. destruct i; discriminate Hi. }
  assert (Q := do_act_proper _ AResolve (Forall_nil _) O). rewrite H in Q. exact (p_heap _ Q).
Qed.
End Units.

Lemma units_written acts s b l q : resolved acts s b -> hget (pw_heap (fst s)) l = Some q -> In (q_units q) (written_units acts).
Proof. intros R. apply (resolved_units (fun u => In u (written_units acts)) acts s b R). now apply Forall_forall. Qed.
