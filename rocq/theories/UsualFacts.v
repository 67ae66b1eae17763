(** More facts about sessions: resolving succeeds; where variables come from
    (C24, C25). *)
From Verif Require Import Base BaseFacts Num NumFacts UnitModel UnitFacts Sympy Node Build EquationModel ModelModel ProblemModel
  SpecUnits UnitThms SpecExpr SpecQty QtyFacts SpecModel BuildFacts EquationFacts ModelFacts SpecInc IncFacts SpecCall CallFacts
  SpecProblem ProblemFacts SessionFacts.
From Coq Require Import Reals Permutation.
Notation num := Verif.Num.num.

(** ** Resolving succeeds *)
Lemma do_act_count s a : good s -> (List.length (pw_models (fst s)) <= List.length (pw_models (fst (fst (do_act s a)))))%nat.
Proof.
  intros G. destruct s as [w p]. destruct (do_act (w, p) a) as [[w' p'] r] eqn:E. simpl.
  destruct (do_act_step w p a w' p' r (g_ok _ G) E) as [S _].
  destruct (Nat.le_gt_cases (List.length (pw_models w)) (List.length (pw_models w'))) as [L|L]; [exact L|exfalso].
  destruct (nth_error (pw_models w) (List.length (pw_models w'))) as [[m d]|] eqn:E1.
  - destruct (as_models _ _ S _ _ _ E1) as (m' & G' & _). assert (N : nth_error (pw_models w') (List.length (pw_models w')) = None).
    { apply nth_error_None. apply Nat.le_refl. }
    unfold get_model in G'. rewrite N in G'. discriminate.
  - apply nth_error_None in E1. lia.
Qed.

(** Models come from [ANew]. *)
Lemma do_act_origin s a i m d : good s -> get_model (fst (fst (do_act s a))) i = Some (m, d) ->
  (exists m0, get_model (fst s) i = Some (m0, d) /\ m_name m = m_name m0 /\ kincl m0 m) \/ (m = new_model (m_name m) /\ a = ANew (m_name m) d).
Proof.
  intros G H. destruct s as [w p]. destruct (do_act (w, p) a) as [[w' p'] r] eqn:E. simpl in H.
  destruct (do_act_step w p a w' p' r (g_ok _ G) E) as [S _].
  destruct (get_model w i) as [[m0 d0]|] eqn:G0.
  - left. destruct (as_models _ _ S i m0 d0 G0) as (m' & G' & N & K). assert (X : Some (m', d0) = Some (m, d)) by congruence.
    injection X as <- <-. exists m0. auto.
  - right. unfold get_model in *. assert (L : (List.length (pw_models w) <= i)%nat) by now apply nth_error_None.
    assert (L' : (i < List.length (pw_models w'))%nat) by (apply nth_error_Some; congruence).
    destruct a as [n dd|k c|k|k j f|k|m1 m2 outs ins e|m1 m2 out inp|names|c|]; simpl in E.
    + injection E as <- <- _. simpl in *. rewrite app_length in L'. simpl in L'. replace i with (List.length (pw_models w)) in H by lia.
      rewrite nth_error_app2, Nat.sub_diag in H by lia. simpl in H. injection H as <- <-. auto.
    + exfalso. destruct (on_model w k _) as [w1 r1] eqn:E1. injection E as <- <- _.
      apply on_model_spec in E1. destruct E1 as [(_ & -> & _)|(? & ? & ? & _ & _ & _ & _ & _ & Len)]; lia.
    + exfalso. destruct (on_model w k _) as [w1 r1] eqn:E1. injection E as <- <- _.
      apply on_model_spec in E1. destruct E1 as [(_ & -> & _)|(? & ? & ? & _ & _ & _ & _ & _ & Len)]; lia.
    + exfalso. destruct (get_model w j) as [[dm dd]|]; [|injection E as <- _ _; lia].
      destruct (on_model w k _) as [w1 r1] eqn:E1. injection E as <- <- _.
      apply on_model_spec in E1. destruct E1 as [(_ & -> & _)|(? & ? & ? & _ & _ & _ & _ & _ & Len)]; lia.
    + exfalso. destruct (get_model w k); injection E as <- _ _; lia.
    + exfalso. destruct (match e with None => Ok None | Some q => _ end) as [x|x]; [|injection E as <- _ _; lia].
      unfold connect_vars in E. destruct (get_model w m2) as [[s2 d2]|]; [|injection E as <- _ _; lia].
      destruct (match m1 with CMName _ => _ | CMModel i => _ end); [|injection E as <- _ _; lia].
      destruct (forallb _ (cv_list ins) && forallb _ (cv_list outs)).
      2: { destruct ins, outs; injection E as <- _ _; lia. }
      destruct (match x with Some a => Ok a | None => balance _ _ _ end); [|injection E as <- _ _; lia].
      destruct (rbind (qty_names (pw_heap w) (cv_list outs)) _) as [[o i']|]; [|injection E as <- _ _; lia].
      destruct (on_model w m2 _) as [w1 r1] eqn:E1.
      apply on_model_spec in E1. destruct r1; injection E as <- _ _;
        destruct E1 as [(_ & -> & _)|(? & ? & ? & _ & _ & _ & _ & _ & Len)]; lia.
    + exfalso. destruct (rbind (build (pw_heap w) out) _) as [[o i']|x]; [|injection E as <- _ _; lia].
      unfold connect_nodes in E. destruct (get_model w m2) as [[s2 d2]|]; [|injection E as <- _ _; lia].
      destruct (match m1 with CMName _ => _ | CMModel i => _ end) as [pu r0].
      destruct r0; [|injection E as <- _ _; simpl in *; lia].
      destruct (node_sub i' (ONode o)); [|injection E as <- _ _; simpl in *; lia].
      destruct (on_model _ m2 _) as [w1 r1] eqn:E1.
      apply on_model_spec in E1. destruct r1; injection E as <- _ _;
        destruct E1 as [(_ & -> & _)|(? & ? & ? & _ & _ & _ & _ & _ & Len)]; simpl in *; lia.
    + exfalso. injection E as <- _ _. lia.
    + exfalso. injection E as <- _ _. lia.
    + exfalso. unfold presolve in E. destruct (reload w (dvals (pr_models p))) as [w1 r1] eqn:E1.
      assert (C := ws_count _ _ (reload_step _ w _ _ (g_ok _ G) E1)).
      destruct r1 as [[]|x]; [|injection E as <- _ _; lia]. destruct (build_block w1 p); [|injection E as <- _ _; lia].
      destruct (block_call _) as [b' r']. injection E as <- _ _. lia.
Qed.

Lemma origin acts : forall i m d, get_model (fst (run_acts start_session acts)) i = Some (m, d) -> In (ANew (m_name m) d) acts.
Proof.
  induction acts as [|a acts IH] using rev_ind; intros i m d H.
  - unfold get_model in H. destruct i; discriminate.
  - rewrite run_acts_app in H. simpl in H. apply in_app_iff.
    apply do_act_origin in H; [|apply run_good, start_good]. destruct H as [(m0 & H & N & _)|(_ & ->)].
    + left. rewrite N. exact (IH i m0 d H).
    + right. now left.
Qed.

Lemma reload_ok is : forall w, wok w ->
  (forall i, In i is -> exists m d, get_model w i = Some (m, d)) ->
  (forall i m d, get_model w i = Some (m, d) -> named d = true /\ runs (m_name m) d) ->
  exists w', reload w is = (w', Ok tt).
Proof.
  induction is as [|i is IH]; intros w O Ex R; simpl; [eauto|].
  destruct (Ex i (or_introl eq_refl)) as (m & d & G). destruct (R i m d G) as [Nd Rd].
  unfold runs in Rd. destruct (model_call d (mkW [] _ (new_model (m_name m)))) as [A r] eqn:EA. simpl in Rd. subst r.
  destruct (recall_ok d _ _ _ A (mkW (pw_heap w) (pw_uids w) m) Nd EA eq_refl) as (B & EB & _ & NB & _).
  destruct (on_model w i model_call) as [w1 r1] eqn:E.
  assert (S : wstep w w1).
  { apply (on_model_step w i model_call w1 r1 O) with (2 := E). intros m' d' w2 r2 _ F. exact (run_cmds_tr _ _ _ _ F). }
  assert (R1 : r1 = Ok tt).
  { apply on_model_spec in E. destruct E as [(E & _)|(m' & d' & w' & E & F & _)]; [congruence|].
    assert (X : Some (m', d') = Some (m, d)) by congruence. injection X as -> ->. rewrite EB in F. now injection F as _ <-. }
  subst r1. apply (IH w1 (ws_ok _ _ S)).
  - intros j Hj. destruct (Ex j (or_intror Hj)) as (mj & dj & Gj). destruct (ws_models _ _ S j mj dj Gj) as (m' & G' & _). eauto.
  - intros j mj dj Gj. assert (L : (j < List.length (pw_models w))%nat).
    { rewrite <- (ws_count _ _ S). apply nth_error_Some. unfold get_model in Gj. congruence. }
    apply nth_error_Some in L. destruct (nth_error (pw_models w) j) as [[m0 d0]|] eqn:E0; [|congruence].
    destruct (ws_models _ _ S j m0 d0 E0) as (m' & G' & N & _). assert (X : Some (m', d0) = Some (mj, dj)) by congruence.
    injection X as <- <-. rewrite N. exact (R j m0 d0 E0).
Qed.

Lemma resolves acts : (forall n d, In (ANew n d) acts -> named d = true /\ runs n d) ->
  exists s b, resolved acts s b.
Proof.
  intros H. set (s := run_acts start_session acts). assert (G : good s) by (apply run_good, start_good).
  destruct (reload_ok (dvals (pr_models (snd s))) (fst s) (g_ok _ G)) as [w' E].
  - intros i Hi. apply in_map_iff in Hi. destruct Hi as [[k i'] [<- Hin]]. destruct (g_named _ G k i' Hin) as (m & d & Gm & _). eauto.
  - intros i m d Gm. apply H. exact (origin acts i m d Gm).
  - destruct (resolve_outcome s G) as (w2 & r & E2 & R). rewrite E in E2. injection E2 as <- <-.
    destruct R as (b & R & B). exists (w', with_block (snd s) b), b. split; [exact R|reflexivity].
Qed.

(** ** Variables come from the script *)
Definition script (d : decls) : list cmd := d_cons d ++ d_pars d ++ d_vars d ++ d_eqs d.
Definition script_vars (name : string) (cs : list cmd) : list string :=
  flat_map (fun c => match c with CVar _ n _ _ _ _ => [full_name n name] | _ => [] end) cs.

Lemma run_cmd_name c w w' r : run_cmd w c = (w', r) -> m_name (w_mod w') = m_name (w_mod w).
Proof. intros H. exact (tr_name _ _ _ _ (run_cmd_tr _ _ _ _ H)). Qed.

Lemma run_cmd_vars c w w' r : run_cmd w c = (w', r) ->
  (forall x, In x (dkeys (m_vars (w_mod w'))) -> In x (dkeys (m_vars (w_mod w))) \/ In x (script_vars (m_name (w_mod w)) [c])) /\
  (forall x, r = Ok tt -> In x (script_vars (m_name (w_mod w)) [c]) -> In x (dkeys (m_vars (w_mod w')))).
Proof.
  intros H. destruct c as [a n u ex ty v|a n u v|a n u v|a v u|a|a n q check]; simpl in H.
  - unfold assign_qty, create_variable in H.
    assert (X : exists m, w_mod w' = m /\ dkeys (m_vars m) = dkeys (dset (full_name n (m_name (w_mod w))) (List.length (w_heap w)) (m_vars (w_mod w)))).
    { destruct ex; [destruct (String.eqb ty "input"); [|destruct (String.eqb ty "output")]|]; injection H as <- _; eexists; split; reflexivity. }
    destruct X as (m & -> & E). rewrite E. split.
    + intros x Hx. apply in_dkeys_dset in Hx. simpl. destruct Hx as [->|Hx]; auto.
    + intros x _ Hx. apply in_dkeys_dset. simpl in Hx. left. destruct Hx as [<-|[]]. reflexivity.
  - injection H as <- _. simpl. tauto.
  - injection H as <- _. simpl. tauto.
  - destruct (attr_qty (w_mod w) a) as [l|x]; [|injection H as <- _; simpl; tauto].
    destruct (match v with SANum n => _ | SAAttr b => _ end) as [sv|x]; [|injection H as <- _; simpl; tauto].
    destruct (heap_set_value (w_heap w) l sv u) as [h' r']. injection H as <- _. simpl; tauto.
  - destruct (attr_qty (w_mod w) a) as [l|x]; [|injection H as <- _; simpl; tauto].
    destruct (hget (w_heap w) l) as [q|]; [|injection H as <- _; simpl; tauto].
    destruct (qkind_eqb (q_kind q) KVariable); injection H as <- _; simpl; tauto.
  - destruct (rbind (resolve_eq (attr_qty (w_mod w)) q) (fun q' => build_eq (w_heap w) q')) as [arg|x] eqn:Eb;
      [|injection H as <- _; simpl; tauto].
    destruct (create_outcome w n arg check) as [u' E]. rewrite E in H.
    destruct (set_residual _ arg) as [e0 [[]|x2]]; [|injection H as <- _; simpl; tauto].
    destruct (eq_expr e0) as [nn|]; [|injection H as <- _; simpl; tauto]. cbv zeta in H.
    destruct check; [destruct (forallb _ _)|]; injection H as <- _; simpl; tauto.
Qed.

Lemma run_cmds_vars cs : forall w w' r, run_cmds w cs = (w', r) ->
  (forall x, In x (dkeys (m_vars (w_mod w'))) -> In x (dkeys (m_vars (w_mod w))) \/ In x (script_vars (m_name (w_mod w)) cs)) /\
  (forall x, r = Ok tt -> In x (script_vars (m_name (w_mod w)) cs) -> In x (dkeys (m_vars (w_mod w')))).
Proof.
  induction cs as [|c cs IH]; intros w w' r H; simpl in H.
  - injection H as <- <-. simpl. tauto.
  - destruct (run_cmd w c) as [w1 r1] eqn:E. assert (Nm := run_cmd_name _ _ _ _ E). destruct (run_cmd_vars _ _ _ _ E) as [A B].
    change (c :: cs) with ([c] ++ cs). unfold script_vars in *. rewrite flat_map_app. destruct r1 as [[]|x].
    + destruct (IH _ _ _ H) as [C D]. rewrite Nm in C, D. split.
      * intros x Hx. rewrite in_app_iff. destruct (C x Hx) as [Hx1|Hx1]; [destruct (A x Hx1)|]; tauto.
      * intros x Hr Hx. apply in_app_iff in Hx. destruct Hx as [Hx|Hx]; [|now apply D].
        assert (K := tr_keys _ _ _ _ (run_cmds_tr _ _ _ _ H)). apply K. now apply B.
    + injection H as <- <-. split; [|discriminate]. intros y Hy. rewrite in_app_iff. destruct (A y Hy); tauto.
Qed.

Definition from_script (w : pworld) : Prop :=
  forall i m d x, get_model w i = Some (m, d) -> In x (dkeys (m_vars m)) -> In x (script_vars (m_name m) (script d)).

Lemma on_model_script {A} w i (f : decls -> mworld -> mworld * res A) w2 r : from_script w ->
  (forall m d w' r, get_model w i = Some (m, d) -> f d (mkW (pw_heap w) (pw_uids w) m) = (w', r) ->
     m_name (w_mod w') = m_name m /\ forall x, In x (dkeys (m_vars (w_mod w'))) -> In x (dkeys (m_vars m)) \/ In x (script_vars (m_name m) (script d))) ->
  on_model w i f = (w2, r) -> from_script w2.
Proof.
  intros O HF H. apply on_model_spec in H. destruct H as [(_ & -> & _)|(m & d & w' & G & F & Hh & G2 & Go & L)]; [exact O|].
  intros j mj dj x Gj Hx. destruct (Nat.eq_dec j i) as [->|Hne].
  - assert (X : Some (mj, dj) = Some (w_mod w', d)) by congruence. injection X as -> ->.
    destruct (HF m d w' r G F) as [N K]. rewrite N. destruct (K x Hx) as [Hm|Hs]; [exact (O i m d x G Hm)|exact Hs].
  - rewrite Go in Gj by exact Hne. exact (O j mj dj x Gj Hx).
Qed.

Lemma call_script w i w2 r : from_script w -> on_model w i model_call = (w2, r) -> from_script w2.
Proof.
  intros O. apply (on_model_script w i _ _ _ O). intros m d w' r' G F. split.
  - exact (tr_name _ _ _ _ (run_cmds_tr _ _ _ _ F)).
  - exact (proj1 (run_cmds_vars _ _ _ _ F)).
Qed.
Lemma reload_script is : forall w w' r, from_script w -> reload w is = (w', r) -> from_script w'.
Proof.
  induction is as [|i is IH]; intros w w' r O H; simpl in H; [now injection H as <- _|].
  destruct (on_model w i model_call) as [w1 [[]|x]] eqn:E.
  - apply (IH _ _ _ (call_script _ _ _ _ O E) H).
  - injection H as <- _. exact (call_script _ _ _ _ O E).
Qed.

Lemma do_act_script s a : good s -> plain a = true -> from_script (fst s) -> from_script (fst (fst (do_act s a))).
Proof.
  intros G P O. destruct s as [w p]. destruct (do_act (w, p) a) as [[w' p'] r] eqn:E. simpl in *.
  destruct a as [n dd|k c|k|k j f|k|m1 m2 outs ins e|m1 m2 out inp|names|c|]; simpl in E.
  - injection E as <- _ _. intros i m d x H Hx. unfold get_model in H. simpl in H.
    destruct (Nat.lt_ge_cases i (List.length (pw_models w))) as [L|L].
    + rewrite nth_error_app1 in H by exact L. exact (O i m d x H Hx).
    + rewrite nth_error_app2 in H by exact L. destruct (i - _)%nat as [|z]; [|destruct z; discriminate].
      injection H as <- <-. destruct Hx.
  - destruct (on_model w k _) as [w1 r1] eqn:E1. injection E as <- _ _.
    apply (on_model_script _ _ _ _ _ O) with (2 := E1). intros m d w2 r2 _ F. split; [exact (run_cmd_name _ _ _ _ F)|].
    intros x Hx. destruct (proj1 (run_cmd_vars _ _ _ _ F) x Hx) as [H|H]; [now left|]. destruct c; simpl in P, H; try discriminate; contradiction.
  - destruct (on_model w k _) as [w1 r1] eqn:E1. injection E as <- _ _. exact (call_script _ _ _ _ O E1).
  - discriminate.
  - destruct (get_model w k); injection E as <- _ _; exact O.
  - destruct (match e with None => Ok None | Some q => _ end) as [x|x]; [|injection E as <- _ _; exact O].
    unfold connect_vars in E. destruct (get_model w m2) as [[s2 d2]|]; [|injection E as <- _ _; exact O].
    destruct (match m1 with CMName _ => _ | CMModel i => _ end); [|injection E as <- _ _; exact O].
    destruct (forallb _ (cv_list ins) && forallb _ (cv_list outs)).
    2: { destruct ins, outs; injection E as <- _ _; exact O. }
    destruct (match x with Some a => Ok a | None => balance _ _ _ end) as [ar|]; [|injection E as <- _ _; exact O].
    destruct (rbind (qty_names (pw_heap w) (cv_list outs)) _) as [[o i']|]; [|injection E as <- _ _; exact O].
    destruct (on_model w m2 _) as [w1 r1] eqn:E1.
    assert (Q : from_script w1).
    { apply (on_model_script _ _ _ _ _ O) with (2 := E1). intros m d w2 r2 _ F. unfold model_connection in F. simpl in F.
      destruct (_ && _) in F; [|injection F as <- _; simpl; auto].
      destruct (rbind _ _) as [nm|] in F; [|injection F as <- _; simpl; auto].
      destruct (connection_init _ _ _) as [u [e2|]] in F; injection F as <- _; simpl; auto. }
    destruct r1; injection E as <- _ _; exact Q.
  - destruct (rbind (build (pw_heap w) out) _) as [[o i']|x]; [|injection E as <- _ _; exact O].
    unfold connect_nodes in E. destruct (get_model w m2) as [[s2 d2]|]; [|injection E as <- _ _; exact O].
    destruct (match m1 with CMName _ => _ | CMModel i => _ end) as [pu r0].
    destruct r0; [|injection E as <- _ _; exact O].
    destruct (node_sub i' (ONode o)) as [nd|]; [|injection E as <- _ _; exact O].
    destruct (on_model _ m2 _) as [w1 r1] eqn:E1.
    assert (Q : from_script w1).
    { refine (on_model_script (mkPW (pw_heap w) (pw_uids w) pu (pw_models w)) _ _ _ _ O _ E1). intros m d w2 r2 _ F.
      match type of F with create_equation ?a ?b (Some ?c) ?e = _ => destruct (create_outcome a b c e) as [u' Ec] end.
      rewrite Ec in F. clear Ec. destruct (set_residual _ _) as [e0 [[]|x2]] in F; [|injection F as <- _; simpl; auto].
      destruct (eq_expr e0); [|injection F as <- _; simpl; auto]. cbv zeta in F. injection F as <- _. simpl. auto. }
    destruct r1; injection E as <- _ _; exact Q.
  - injection E as <- _ _. exact O.
  - injection E as <- _ _. exact O.
  - unfold presolve in E. destruct (reload w (dvals (pr_models p))) as [w1 r1] eqn:E1.
    assert (Q := reload_script _ _ _ _ O E1).
    destruct r1 as [[]|x]; [|injection E as <- _ _; exact Q]. destruct (build_block w1 p); [|injection E as <- _ _; exact Q].
    destruct (block_call _) as [b' r']. injection E as <- _ _. exact Q.
Qed.

Lemma run_script_vars acts : forallb plain acts = true -> from_script (fst (run_acts start_session acts)).
Proof.
  induction acts as [|a acts IH] using rev_ind; intros P.
  - intros i m d x H. unfold get_model in H. destruct i; discriminate.
  - rewrite forallb_app in P. apply andb_prop in P. destruct P as [P1 P2]. simpl in P2. rewrite Bool.andb_true_r in P2.
    rewrite run_acts_app. simpl. apply do_act_script; [apply run_good, start_good|exact P2|now apply IH].
Qed.

Lemma call_effect s i s' : do_act s (ACall i) = (s', Ok tt) ->
  exists m d m', get_model (fst s) i = Some (m, d) /\ get_model (fst s') i = Some (m', d) /\ m_name m' = m_name m /\
    forall x, In x (script_vars (m_name m) (script d)) -> In x (dkeys (m_vars m')).
Proof.
  destruct s as [w p]. cbn [do_act]. destruct (on_model w i model_call) as [w2 r2] eqn:E. intros H. injection H as <- ->.
  apply on_model_spec in E. destruct E as [(_ & _ & E)|(m & d & ww & G & F & _ & G2 & _)]; [discriminate|].
  exists m, d, (w_mod ww). split; [exact G|]. split; [exact G2|]. split; [exact (tr_name _ _ _ _ (run_cmds_tr _ _ _ _ F))|].
  intros x Hx. exact (proj2 (run_cmds_vars _ _ _ _ F) x eq_refl Hx).
Qed.

Lemma unknowns_usual acts s b : resolved acts s b -> forallb plain acts = true -> called_then_added acts ->
  NoDup (b_varlist b) /\
  forall x, In x (b_varlist b) <-> exists e, In e (b_eqs b) /\ uses_variable (pw_heap (fst s)) x e.
Proof.
  intros H P C. apply (block_unknowns_complete acts s b H). intros i m x Hm Hx.
  assert (Hs : from_script (fst s)).
  { destruct H as [H _]. replace s with (fst (do_act (run_acts start_session acts) AResolve)) by now rewrite H.
    apply do_act_script; [apply run_good, start_good|reflexivity|now apply run_script_vars]. }
  unfold model_of in Hm. destruct (get_model (fst s) i) as [[m' d]|] eqn:Gm; [|discriminate]. injection Hm as <-. simpl in Hx.
  apply (Hs i m' d x Gm) in Hx.
  assert (G0 : exists m0, get_model (fst (run_acts start_session acts)) i = Some (m0, d) /\ m_name m0 = m_name m').
  { destruct H as [H _]. assert (Q := do_act_origin (run_acts start_session acts) AResolve i m' d (run_good _ _ start_good)).
    rewrite H in Q. destruct (Q Gm) as [(m0 & G0 & N0 & _)|(_ & E)]; [eauto|discriminate]. }
  destruct G0 as (m0 & G0 & N0).
  destruct (C i m0) as (a1 & a2 & a3 & Ea & Ok1). { unfold model_of. now rewrite G0. }
  set (s1 := run_acts start_session a1) in *. assert (Gs1 : good s1) by (apply run_good, start_good).
  destruct (do_act s1 (ACall i)) as [s2 r2] eqn:E2. simpl in Ok1. subst r2.
  assert (Gs2 : good s2) by (replace s2 with (fst (do_act s1 (ACall i))) by (now rewrite E2); now apply do_act_good).
  destruct (call_effect _ _ _ E2) as (mc & dc & m2 & _ & G2 & N2 & V2).
  assert (Rb : run_acts start_session (a1 ++ ACall i :: a2) = run_acts s2 a2).
  { rewrite run_acts_app. fold s1. cbn [run_acts]. now rewrite E2. }
  destruct (as_models _ _ (run_step a2 s2 Gs2) i m2 dc G2) as (m3 & G3 & N3 & K3).
  assert (Ra : run_acts start_session acts = run_acts (run_acts s2 a2) (AAdd i :: a3)).
  { rewrite Ea. change (a1 ++ ACall i :: a2 ++ AAdd i :: a3) with (a1 ++ (ACall i :: a2) ++ AAdd i :: a3).
    rewrite app_assoc, run_acts_app. now rewrite Rb. }
  destruct (as_models _ _ (run_step (AAdd i :: a3) (run_acts s2 a2) (run_good _ _ Gs2)) i m3 dc G3) as (m4 & G4 & N4 & _).
  rewrite <- Ra in G4. assert (X : Some (m4, dc) = Some (m0, d)) by congruence. injection X as -> ->.
  exists (a1 ++ ACall i :: a2), i, a3, m3. split; [rewrite Ea, <- app_assoc; reflexivity|].
  split; [rewrite Rb; unfold model_of; now rewrite G3|]. apply K3, V2. replace (m_name mc) with (m_name m') by congruence. exact Hx.
Qed.
