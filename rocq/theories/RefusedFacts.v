(** * Proofs about operations that raise *)
From Coq Require Import ZArith List Bool String Lia.
From Verif Require Import Base BaseFacts Num UnitModel Node Build Sympy EquationModel ModelModel ProblemModel SpecProblem ProblemFacts SessionFacts SpecRefused.
Import ListNotations.
Local Open Scope list_scope.

Lemma untouched_refl s : untouched s s.
Proof. repeat split. Qed.

Lemma set_nth_same {A} (l : list A) : forall i x, nth_error l i = Some x -> set_nth l i x = l.
Proof.
  induction l as [|y l IH]; intros [|i] x H; simpl in *; try discriminate; [congruence|]. now rewrite (IH i x H).
Qed.

(** Something that fails on a model without changing it changes nothing. *)
Lemma on_model_refused {A} w i (f : decls -> mworld -> mworld * res A) w2 x :
  (forall m d w' y, f d (mkW (pw_heap w) (pw_uids w) m) = (w', Raise y) -> w_heap w' = pw_heap w /\ w_mod w' = m) ->
  on_model w i f = (w2, Raise x) -> pw_heap w2 = pw_heap w /\ pw_models w2 = pw_models w.
Proof.
  intros F H. unfold on_model in H. destruct (get_model w i) as [[m d]|] eqn:G; [|injection H as <- _; auto].
  destruct (f d _) as [w' r] eqn:E. injection H as <- ->. destruct (F _ _ _ _ E) as [Hh Hm]. simpl. split; [exact Hh|].
  rewrite Hm. now apply set_nth_same.
Qed.

Lemma create_equation_refused w n a check w' x : create_equation w n a check = (w', Raise x) ->
  w_heap w' = w_heap w /\ w_mod w' = w_mod w.
Proof.
  unfold create_equation. intros H. destruct (equation_init _ _ _ _ _) as [u r]. destruct r as [e0|y]; [|injection H as <- _; auto].
  destruct (sweep_objects _) as [e2 r2]. destruct r2; [|injection H as <- _; auto].
  destruct check; [|discriminate]. destruct (check_equation _ _); [discriminate|injection H as <- _; auto].
Qed.

Lemma stmt_refused w c w' x : (forall a n u t v, c = CVar a n u true t v -> t = "input"%string \/ t = "output"%string) ->
  run_cmd w c = (w', Raise x) -> w_heap w' = w_heap w /\ w_mod w' = w_mod w.
Proof.
  intros T H. destruct c as [a n u ex ty v|a n u v|a n u v|a v u|a|a n q check]; simpl in H.
  - exfalso. unfold assign_qty, create_variable in H. destruct ex; [|discriminate].
    destruct (T _ _ _ _ _ eq_refl) as [-> | ->]; simpl in H; discriminate.
  - discriminate.
  - discriminate.
  - destruct (attr_qty (w_mod w) a) as [l|y]; [|injection H as <- _; auto].
    destruct (match v with SANum n => Ok (SVNum n) | SAAttr b => _ end) as [sv|y]; [|injection H as <- _; auto].
    unfold heap_set_value in H. destruct (hget (w_heap w) l) as [q|]; [|injection H as <- _; auto].
    destruct (set_value q sv u); [discriminate|injection H as <- _; auto].
  - destruct (attr_qty (w_mod w) a) as [l|y]; [|injection H as <- _; auto].
    destruct (hget (w_heap w) l) as [q|]; [|injection H as <- _; auto].
    destruct (qkind_eqb (q_kind q) KVariable); [discriminate|injection H as <- _; auto].
  - destruct (rbind _ _) as [arg|y]; [|injection H as <- _; auto].
    destruct (create_equation w n (Some arg) check) as [w1 r1] eqn:E. destruct r1 as [e|y]; [discriminate|].
    injection H as <- _. exact (create_equation_refused _ _ _ _ _ _ E).
Qed.

Lemma model_connection_refused w outs ins a w' x : model_connection w outs ins a = (w', Raise x) ->
  w_heap w' = w_heap w /\ w_mod w' = w_mod w.
Proof.
  unfold model_connection. intros H. destruct (forallb _ _ && forallb _ _); [|injection H as <- _; auto].
  destruct (rbind _ _) as [name|y]; [|injection H as <- _; auto].
  destruct (connection_init _ _ _) as [u [e|y]]; [discriminate|injection H as <- _; auto].
Qed.

Lemma refused s a s' x : single a -> ~ mistyped a -> do_act s a = (s', Raise x) -> untouched s s'.
Proof.
  intros Sg Mt H. destruct s as [w p]. unfold untouched. destruct a; simpl in *; try contradiction; try discriminate.
  - destruct (on_model w i _) as [w1 r1] eqn:E. injection H as <- ->. simpl.
    apply on_model_refused in E; [tauto|]. intros m d w' y F. apply stmt_refused in F; [exact F|].
    intros a' n u t v ->. simpl in Mt. destruct (String.string_dec t "input") as [|N1]; [now left|].
    destruct (String.string_dec t "output") as [|N2]; [now right|]. now destruct Mt.
  - destruct (get_model w i); [discriminate|]. injection H as <- _. simpl. auto.
  - destruct (match e with None => Ok None | Some q => _ end) as [ex|y]; [|injection H as <- _; simpl; auto].
    unfold connect_vars in H. destruct (get_model w m2) as [[s2 d2]|]; [|injection H as <- _; simpl; auto].
    destruct (match m1 with CMName _ => Raise EAttribute | CMModel i => _ end) as [s1|y]; [|injection H as <- _; simpl; auto].
    destruct (forallb _ _ && forallb _ _).
    + destruct (match ex with Some a => Ok a | None => _ end) as [a|y]; [|injection H as <- _; simpl; auto].
      destruct (rbind _ _) as [[o i]|y]; [|injection H as <- _; simpl; auto].
      destruct (on_model w m2 _) as [w1 r1] eqn:E. destruct r1 as [en|y]; [discriminate|]. injection H as <- ->. simpl.
      apply on_model_refused in E; [tauto|]. intros m d w' z F. exact (model_connection_refused _ _ _ _ _ _ F).
    + destruct ins, outs; injection H as <- _; simpl; auto.
  - destruct (rbind _ _) as [[o i]|y]; [|injection H as <- _; simpl; auto].
    unfold connect_nodes in H. destruct (get_model w m2) as [[s2 d2]|]; [|injection H as <- _; simpl; auto].
    destruct (match m1 with CMName _ => _ | CMModel _ => _ end) as [pu r]. destruct r as [n1|y]; [|injection H as <- _; simpl; auto].
    destruct (node_sub i (ONode o)) as [dd|y]; [|injection H as <- _; simpl; auto].
    destruct (on_model _ m2 _) as [w1 r1] eqn:E. destruct r1 as [en|y]; [discriminate|]. injection H as <- ->. simpl.
    apply on_model_refused in E; [simpl in E; tauto|]. intros m d w' z F. exact (create_equation_refused _ _ _ _ _ _ F).
Qed.

(** ** Calls are their statements, one after the other *)

Lemma stmt_act w p i m d c w1 r : get_model w i = Some (m, d) -> run_cmd (mkW (pw_heap w) (pw_uids w) m) c = (w1, r) ->
  do_act (w, p) (AStmt i c) = ((mkPW (w_heap w1) (w_uids w1) (pw_puids w) (set_nth (pw_models w) i (w_mod w1, d)), p), r).
Proof. intros G E. unfold do_act, on_model. rewrite G, E. reflexivity. Qed.

Lemma set_nth_twice {A} (l : list A) : forall i x y, set_nth (set_nth l i x) i y = set_nth l i y.
Proof. induction l as [|z l IH]; intros [|i] x y; simpl; try reflexivity. now rewrite IH. Qed.

Lemma get_set (w : pworld) h u pu i m d m0 : get_model w i = Some (m0, d) ->
  get_model (mkPW h u pu (set_nth (pw_models w) i (m, d))) i = Some (m, d).
Proof. intros G. unfold get_model in *. simpl. apply set_nth_eq, nth_error_Some. congruence. Qed.

Lemma run_cons s a l : run_acts s (a :: l) = run_acts (fst (do_act s a)) l.
Proof. reflexivity. Qed.
Lemma ok_cons s a l : all_ok s (a :: l) = (snd (do_act s a) = Ok tt /\ all_ok (fst (do_act s a)) l).
Proof. reflexivity. Qed.

Lemma run_as_statements i d cs : forall w p m w1 r, get_model w i = Some (m, d) ->
  run_cmds (mkW (pw_heap w) (pw_uids w) m) cs = (w1, r) ->
  let s' := (mkPW (w_heap w1) (w_uids w1) (pw_puids w) (set_nth (pw_models w) i (w_mod w1, d)), p) in
  match r with
  | Ok _ => all_ok (w, p) (map (AStmt i) cs) /\ run_acts (w, p) (map (AStmt i) cs) = s'
  | Raise x => exists before c after, cs = before ++ c :: after /\
      all_ok (w, p) (map (AStmt i) before) /\
      do_act (run_acts (w, p) (map (AStmt i) before)) (AStmt i c) = (s', Raise x)
  end.
Proof.
  induction cs as [|c cs IH]; intros w p m w1 r G H; simpl in H.
  - injection H as <- <-. simpl. split; [exact I|]. destruct w as [h u pu ms]. simpl. unfold get_model in G. simpl in G. now rewrite (set_nth_same _ _ _ G).
  - destruct (run_cmd (mkW (pw_heap w) (pw_uids w) m) c) as [w2 r2] eqn:E.
    assert (A := stmt_act w p i m d c w2 r2 G E). destruct r2 as [[]|y].
    + set (w3 := mkPW (w_heap w2) (w_uids w2) (pw_puids w) (set_nth (pw_models w) i (w_mod w2, d))) in *.
      assert (G3 : get_model w3 i = Some (w_mod w2, d)) by (exact (get_set w _ _ _ i _ d m G)).
      assert (H' : run_cmds (mkW (pw_heap w3) (pw_uids w3) (w_mod w2)) cs = (w1, r)) by (unfold w3; simpl; destruct w2; exact H).
      specialize (IH w3 p (w_mod w2) w1 r G3 H'). cbv zeta in *.
      replace (set_nth (pw_models w3) i (w_mod w1, d)) with (set_nth (pw_models w) i (w_mod w1, d)) in IH by (unfold w3; simpl; now rewrite set_nth_twice).
      change (pw_puids w3) with (pw_puids w) in IH.
      destruct r as [[]|x].
      * destruct IH as [I1 I2]. rewrite map_cons, run_cons, ok_cons, A. simpl fst. simpl snd. split; [split; [reflexivity|exact I1]|exact I2].
      * destruct IH as (b & c' & af & -> & I1 & I2). exists (c :: b), c', af. split; [reflexivity|].
        rewrite map_cons, run_cons, ok_cons, A. simpl fst. simpl snd. split; [split; [reflexivity|exact I1]|exact I2].
    + injection H as <- <-. exists [], c, cs. split; [reflexivity|]. split; [exact I|]. simpl map. simpl run_acts. exact A.
Qed.

Lemma call_statements s i m d : get_model (fst s) i = Some (m, d) ->
  match do_act s (ACall i) with
  | (s', Ok _) => all_ok s (map (AStmt i) (statements d)) /\ run_acts s (map (AStmt i) (statements d)) = s'
  | (s', Raise x) => exists before c after, statements d = before ++ c :: after /\
      all_ok s (map (AStmt i) before) /\ do_act (run_acts s (map (AStmt i) before)) (AStmt i c) = (s', Raise x)
  end.
Proof.
  destruct s as [w p]. simpl fst. intros G. unfold do_act at 1, on_model. rewrite G.
  unfold model_call. fold (statements d). destruct (run_cmds _ (statements d)) as [w1 r] eqn:E.
  assert (X := run_as_statements i d (statements d) w p m w1 r G E). cbv zeta in X. destruct r; exact X.
Qed.

(** A resolve is the calls of the models, one after the other, and then succeeds. *)
Lemma reload_acts is : forall w p w1 r, reload w is = (w1, r) ->
  match r with
  | Ok _ => all_ok (w, p) (map ACall is) /\ run_acts (w, p) (map ACall is) = (w1, p)
  | Raise x => exists before i after, is = before ++ i :: after /\ all_ok (w, p) (map ACall before) /\
      do_act (run_acts (w, p) (map ACall before)) (ACall i) = ((w1, p), Raise x)
  end.
Proof.
  induction is as [|i is IH]; intros w p w1 r H; simpl in H.
  - injection H as <- <-. simpl. auto.
  - destruct (on_model w i model_call) as [w2 r2] eqn:E.
    assert (A : do_act (w, p) (ACall i) = ((w2, p), r2)) by (unfold do_act; rewrite E; reflexivity).
    destruct r2 as [[]|y].
    + specialize (IH w2 p w1 r H). destruct r as [[]|x].
      * destruct IH as [I1 I2]. rewrite map_cons, run_cons, ok_cons, A. simpl fst. simpl snd. auto.
      * destruct IH as (b & j & af & -> & I1 & I2). exists (i :: b), j, af. split; [reflexivity|].
        rewrite map_cons, run_cons, ok_cons, A. simpl fst. simpl snd. auto.
    + injection H as <- <-. exists [], i, is. split; [reflexivity|]. split; [exact I|]. exact A.
Qed.

Lemma resolve_refused acts s' x : do_act (run_acts start_session acts) AResolve = (s', Raise x) ->
  let s := run_acts start_session acts in
  snd s' = snd s /\
  exists before i after, dvals (pr_models (snd s)) = before ++ i :: after /\ all_ok s (map ACall before) /\
    do_act (run_acts s (map ACall before)) (ACall i) = (s', Raise x).
Proof.
  intros H s. assert (G : good s) by (apply run_good, start_good). fold s in H.
  destruct (resolve_outcome s G) as (w' & r & E & R). destruct r as [[]|y].
  - destruct R as (b & R & _). rewrite R in H. discriminate.
  - rewrite R in H. injection H as <- ->. split; [reflexivity|].
    apply (reload_acts _ _ (snd s)) in E. destruct s as [w p]. exact E.
Qed.

Lemma resolve_accepted acts : let s := run_acts start_session acts in
  all_ok s (map ACall (dvals (pr_models (snd s)))) -> snd (do_act s AResolve) = Ok tt.
Proof.
  intros s H. assert (G : good s) by (apply run_good, start_good).
  destruct (resolve_outcome s G) as (w' & r & E & R). destruct r as [[]|y].
  - destruct R as (b & R & _). now rewrite R.
  - exfalso. apply (reload_acts _ _ (snd s)) in E. destruct E as (b & i & af & Eq & O & D). rewrite Eq, map_app in H.
    assert (X : forall l1 l2 t, all_ok t (l1 ++ l2) -> all_ok (run_acts t l1) l2).
    { induction l1 as [|a l1 IH]; intros l2 t Ht; [exact Ht|]. apply IH. exact (proj2 Ht). }
    replace (fst s, snd s) with s in * by (now destruct s). apply X in H. simpl map in H. destruct H as [H _]. rewrite D in H. discriminate.
Qed.

(** ** Incorporation only adds *)
Definition adds (h : heap) (m : mstate) (h' : heap) (m' : mstate) : Prop :=
  (exists more, h' = h ++ more) /\ m_name m' = m_name m /\
  (forall x, In x (dkeys (m_vars m)) -> In x (dkeys (m_vars m'))) /\
  (forall x, In x (dkeys (m_pars m)) -> In x (dkeys (m_pars m'))) /\
  (forall x, In x (dkeys (m_cons m)) -> In x (dkeys (m_cons m'))) /\
  (forall x, In x (dkeys (m_eqs m)) -> In x (dkeys (m_eqs m'))) /\
  m_in m' = m_in m /\ m_out m' = m_out m.
Lemma adds_refl h m : adds h m h m.
Proof. split; [exists []; now rewrite app_nil_r|]. repeat split; auto. Qed.
Lemma adds_trans h m h1 m1 h2 m2 : adds h m h1 m1 -> adds h1 m1 h2 m2 -> adds h m h2 m2.
Proof.
  intros ((a & ->) & A1 & A2 & A3 & A4 & A5 & A6 & A7) ((b & ->) & B1 & B2 & B3 & B4 & B5 & B6 & B7).
  split; [exists (a ++ b); now rewrite app_assoc|]. repeat split; auto; congruence.
Qed.
Lemma in_dset {A} k (v : A) d x : In x (dkeys d) -> In x (dkeys (dset k v d)).
Proof. intros H. apply in_dkeys_dset. now right. Qed.

Section AddAll.
Variable add : heap -> mstate -> loc -> bool -> heap * mstate * res Datatypes.unit.
Hypothesis one : forall h m l rw h' m' r, add h m l rw = (h', m', r) -> adds h m h' m'.
Lemma add_all_adds ls : forall h m rw h' m' r, add_all add h m ls rw = (h', m', r) -> adds h m h' m'.
Proof.
  induction ls as [|l ls IH]; intros h m rw h' m' r H; simpl in H; [injection H as <- <- _; apply adds_refl|].
  destruct (add h m l rw) as [[h1 m1] [[]|x]] eqn:E.
  - exact (adds_trans _ _ _ _ _ _ (one _ _ _ _ _ _ _ E) (IH _ _ _ _ _ _ H)).
  - injection H as <- <- _. exact (one _ _ _ _ _ _ _ E).
Qed.
End AddAll.
Ltac adds_tac := split; [eexists; reflexivity|]; repeat split; simpl; auto using in_dset.
Lemma add_variable_adds h m l rw h' m' r : add_variable h m l rw = (h', m', r) -> adds h m h' m'.
Proof.
  unfold add_variable. destruct (hget h l) as [q|]; [|intros H; injection H as <- <- _; apply adds_refl].
  destruct (q_exposed q); intros H; injection H as <- <- _; adds_tac.
Qed.
Lemma add_parameter_adds h m l rw h' m' r : add_parameter h m l rw = (h', m', r) -> adds h m h' m'.
Proof.
  unfold add_parameter. destruct (hget h l) as [q|]; intros H; injection H as <- <- _; [adds_tac|apply adds_refl].
Qed.
Lemma add_constant_adds h m l rw h' m' r : add_constant h m l rw = (h', m', r) -> adds h m h' m'.
Proof.
  unfold add_constant. destruct (hget h l) as [q|]; intros H; injection H as <- <- _; [adds_tac|apply adds_refl].
Qed.
Lemma add_equations_adds h es : forall m ns os rw m' r, add_equations m es ns os rw = (m', r) -> adds h m h m'.
Proof.
  induction es as [|e es IH]; intros m ns os rw m' r H; simpl in H; [injection H as <- _; apply adds_refl|].
  unfold add_equation in H. destruct (convert_symbolic _ _ _) as [e2|y]; [|injection H as <- _; apply adds_refl].
  eapply adds_trans; [|exact (IH _ _ _ _ _ _ H)]. split; [exists []; now rewrite app_nil_r|]. repeat split; simpl; auto using in_dset.
Qed.
Lemma incorporate_adds h m donor f h' m' r : incorporate h m donor f = (h', m', r) -> adds h m h' m'.
Proof.
  unfold incorporate. intros H.
  destruct (if i_vars f then _ else _) as [[h1 m1] r1] eqn:E1 in H.
  assert (A1 : adds h m h1 m1).
  { destruct (i_vars f); [exact (add_all_adds _ add_variable_adds _ _ _ _ _ _ _ E1)|injection E1 as <- <- _; apply adds_refl]. }
  destruct r1 as [[]|x]; [|injection H as <- <- _; exact A1].
  destruct (if i_pars f then _ else _) as [[h2 m2] r2] eqn:E2 in H.
  assert (A2 : adds h m h2 m2).
  { apply (adds_trans _ _ _ _ _ _ A1). destruct (i_pars f); [exact (add_all_adds _ add_parameter_adds _ _ _ _ _ _ _ E2)|injection E2 as <- <- _; apply adds_refl]. }
  destruct r2 as [[]|x]; [|injection H as <- <- _; exact A2].
  destruct (if i_cons f then _ else _) as [[h3 m3] r3] eqn:E3 in H.
  assert (A3 : adds h m h3 m3).
  { apply (adds_trans _ _ _ _ _ _ A2). destruct (i_cons f); [exact (add_all_adds _ add_constant_adds _ _ _ _ _ _ _ E3)|injection E3 as <- <- _; apply adds_refl]. }
  destruct r3 as [[]|x]; [|injection H as <- <- _; exact A3].
  destruct (i_eqs f); [|injection H as <- <- _; exact A3].
  destruct (add_equations _ _ _ _ _) as [m4 r4] eqn:E4. injection H as <- <- _. exact (adds_trans _ _ _ _ _ _ A3 (add_equations_adds _ _ _ _ _ _ _ _ E4)).
Qed.

Lemma incorporation_adds s i j f s' r : do_act s (AInc i j f) = (s', r) -> only_added i s s'.
Proof.
  destruct s as [w p]. unfold do_act, only_added. intros H.
  assert (Same : only_added i (w, p) (w, p)).
  { split; [exists []; now rewrite app_nil_r|]. split; [auto|]. split; [|reflexivity]. intros m d G. exists m. split; [exact G|]. repeat split; auto. }
  destruct (get_model w j) as [[dm dd]|]; [|injection H as <- _; exact Same].
  destruct (on_model w i _) as [w1 r1] eqn:E. injection H as <- _. simpl fst. simpl snd.
  apply on_model_spec in E. destruct E as [(_ & -> & _)|(m & d & w2 & G & F & Hh & G2 & Go & L)]; [exact Same|].
  simpl in F. destruct (incorporate (pw_heap w) m dm f) as [[h3 m3] r3] eqn:I. injection F as <- _. simpl in Hh, G2.
  destruct (incorporate_adds _ _ _ _ _ _ _ I) as (A0 & A1). split; [now rewrite Hh|]. split; [exact Go|]. split; [|reflexivity].
  intros m' d' G'. assert (X : Some (m, d) = Some (m', d')) by congruence. injection X as <- <-. exists m3. split; [exact G2|]. exact A1.
Qed.
