(** Exposed variables are those declared so. *)
From Verif Require Import Base BaseFacts Num NumFacts UnitModel UnitFacts Sympy Node Build EquationModel ModelModel ProblemModel
  SpecUnits SpecExpr SpecModel SpecInc SpecCall SpecProblem SpecOwn QtyFacts ModelFacts IncFacts CallFacts ProblemFacts SessionFacts OwnFacts.

Definition face (q : qty) := (q_kind q, q_exposed q, q_type q, q_owner q).
Definition same_faces (h h' : heap) : Prop := forall l q, hget h l = Some q -> exists q', hget h' l = Some q' /\ face q' = face q.
Lemma faces_refl h : same_faces h h.
Proof. intros l q H. eauto. Qed.
Lemma faces_trans a b c : same_faces a b -> same_faces b c -> same_faces a c.
Proof. intros H1 H2 l q Hq. destruct (H1 l q Hq) as (q1 & G1 & E1). destruct (H2 l q1 G1) as (q2 & G2 & E2). exists q2. split; [exact G2|congruence]. Qed.
Lemma faces_snoc h q : same_faces h (h ++ [q]).
Proof. intros l p H. exists p. split; [now apply IncFacts.hget_app|reflexivity]. Qed.
Lemma faces_hset h l q q' : hget h l = Some q -> face q' = face q -> same_faces h (hset h l q').
Proof.
  intros G F l' p Hp. destruct (Nat.eq_dec l' l) as [->|N].
  - exists q'. rewrite hget_hset_eq by exact (hget_lt _ _ _ G). split; [reflexivity|congruence].
  - exists p. rewrite hget_hset_neq by exact N. auto.
Qed.

Record shown (h : heap) (m : mstate) : Prop := mkShown {
  sh_in : forall l, In l (m_in m) -> exposed_as h (m_name m) "input" l;
  sh_out : forall l, In l (m_out m) -> exposed_as h (m_name m) "output" l;
  sh_vars : forall k l, In (k, l) (m_vars m) -> exists q, hget h l = Some q /\
    (q_exposed q = true -> q_type q = "input" -> In l (m_in m)) /\ (q_exposed q = true -> q_type q = "output" -> In l (m_out m)) }.

Lemma exposed_kept h h' M ty l : same_faces h h' -> exposed_as h M ty l -> exposed_as h' M ty l.
Proof.
  intros F (q & G & K & X & T & O). destruct (F l q G) as (q' & G' & E). unfold face in E. injection E as E1 E2 E3 E4.
  exists q'. repeat split; congruence.
Qed.
Lemma shown_kept h h' m : same_faces h h' -> shown h m -> shown h' m.
Proof.
  intros F [A B C]. constructor.
  - intros l H. exact (exposed_kept _ _ _ _ _ F (A l H)).
  - intros l H. exact (exposed_kept _ _ _ _ _ F (B l H)).
  - intros k l H. destruct (C k l H) as (q & G & I & O). destruct (F l q G) as (q' & G' & E). unfold face in E. injection E as E1 E2 E3 E4.
    exists q'. split; [exact G'|]. rewrite E2, E3. auto.
Qed.
Lemma shown_same h m m' : m_name m' = m_name m -> m_in m' = m_in m -> m_out m' = m_out m -> m_vars m' = m_vars m -> shown h m -> shown h m'.
Proof. intros N I O V [A B C]. constructor; rewrite ?N, ?I, ?O, ?V; assumption. Qed.

Lemma set_value_face q a u q' : set_value q a u = Ok q' -> face q' = face q.
Proof.
  destruct a as [p|[z|f]|]; simpl.
  - destruct (isinstance_of p q); [|discriminate]. destruct u; [discriminate|].
    destruct (coherent (q_units p) (q_units q)) as [[]|]; simpl; try discriminate. intros H; injection H as <-. reflexivity.
  - destruct u as [v|].
    + destruct (coherent v (q_units q)) as [[]|]; simpl; try discriminate. intros H; injection H as <-. reflexivity.
    + intros H; injection H as <-. reflexivity.
  - intros H; injection H as <-. reflexivity.
  - discriminate.
Qed.

(** A new variable. *)
Lemma new_shown h m n u ex ty v h' m' r : create_variable h m n u ex ty v = (h', m', r) -> shown h m ->
  shown h' m' /\ same_faces h h' /\ m_name m' = m_name m.
Proof.
  unfold create_variable. set (q := mkQty _ _ _ _ _ _ _ _ _). intros H Sh.
  assert (Sh' := shown_kept _ _ _ (faces_snoc h q) Sh).
  assert (G : hget (h ++ [q]) (List.length h) = Some q) by apply hget_last.
  assert (F := faces_snoc h q).
  assert (V : forall m1 k l, m_vars m1 = dset (q_name q) (List.length h) (m_vars m) -> In (k, l) (m_vars m1) ->
    l = List.length h \/ In (k, l) (m_vars m)).
  { intros m1 k l E Hin. rewrite E in Hin. apply in_dset in Hin. destruct Hin as [[_ ->]|Hin]; auto. }
  destruct Sh' as [A B C]. cbv zeta in H. destruct ex.
  2: { injection H as <- <- _. split; [|split; [exact F|reflexivity]]. constructor; [exact A|exact B|].
       intros k l Hin. destruct (V (with_vars m (dset (q_name q) (List.length h) (m_vars m))) k l eq_refl Hin) as [->|Hm]; [|exact (C k l Hm)]. exists q. split; [exact G|]. split; discriminate. }
  destruct (String.eqb_spec ty "input") as [->|Ni].
  - injection H as <- <- _. split; [|split; [exact F|reflexivity]]. constructor; cbn [with_in with_vars m_name m_in m_out m_vars].
    + intros l Hl. apply in_app_iff in Hl. destruct Hl as [Hl|[<-|[]]]; [exact (A l Hl)|]. exists q. now repeat split.
    + exact B.
    + intros k l Hin. destruct (V (with_vars m (dset (q_name q) (List.length h) (m_vars m))) k l eq_refl Hin) as [->|Hm].
      * exists q. split; [exact G|]. split; [intros _ _; apply in_app_iff; right; now left|discriminate].
      * destruct (C k l Hm) as (p & Gp & I & O). exists p. split; [exact Gp|]. split; [intros X Y; apply in_app_iff; left; auto|exact O].
  - destruct (String.eqb_spec ty "output") as [->|No].
    + injection H as <- <- _. split; [|split; [exact F|reflexivity]]. constructor; cbn [with_out with_vars m_name m_in m_out m_vars].
      * exact A.
      * intros l Hl. apply in_app_iff in Hl. destruct Hl as [Hl|[<-|[]]]; [exact (B l Hl)|]. exists q. now repeat split.
      * intros k l Hin. destruct (V (with_vars m (dset (q_name q) (List.length h) (m_vars m))) k l eq_refl Hin) as [->|Hm].
        -- exists q. split; [exact G|]. split; [discriminate|intros _ _; apply in_app_iff; right; now left].
        -- destruct (C k l Hm) as (p & Gp & I & O). exists p. split; [exact Gp|]. split; [exact I|intros X Y; apply in_app_iff; left; auto].
    + injection H as <- <- _. split; [|split; [exact F|reflexivity]]. constructor; cbn [with_vars m_name m_in m_out m_vars].
      * exact A.
      * exact B.
      * intros k l Hin. destruct (V (with_vars m (dset (q_name q) (List.length h) (m_vars m))) k l eq_refl Hin) as [->|Hm].
        -- exists q. split; [exact G|]. cbn. split; intros _ Y; congruence.
        -- exact (C k l Hm).
Qed.

Definition et (h : heap) (m : mstate) (h' : heap) (m' : mstate) : Prop := shown h m -> shown h' m' /\ same_faces h h'.
Lemma et_trans h m h1 m1 h2 m2 : et h m h1 m1 -> et h1 m1 h2 m2 -> et h m h2 m2.
Proof. intros A B S. destruct (A S) as [S1 F1]. destruct (B S1) as [S2 F2]. split; [exact S2|exact (faces_trans _ _ _ F1 F2)]. Qed.
Lemma et_same h m m' : m_name m' = m_name m -> m_in m' = m_in m -> m_out m' = m_out m -> m_vars m' = m_vars m -> et h m h m'.
Proof. intros N I O V S. split; [exact (shown_same _ _ _ N I O V S)|apply faces_refl]. Qed.

Lemma create_keeps w n a check w' r : create_equation w n a check = (w', r) ->
  w_heap w' = w_heap w /\ m_name (w_mod w') = m_name (w_mod w) /\ m_in (w_mod w') = m_in (w_mod w) /\ m_out (w_mod w') = m_out (w_mod w) /\
  m_vars (w_mod w') = m_vars (w_mod w).
Proof.
  unfold create_equation. destruct (equation_init _ _ _ _ _) as [u' [e0|]]; [|intros H; injection H as <- _; auto].
  destruct (sweep_objects _) as [e2 [[]|]]; [|intros H; injection H as <- _; auto].
  destruct check; [destruct (check_equation _ _)|]; intros H; injection H as <- _; auto.
Qed.

Lemma cmd_et w c w' r : run_cmd w c = (w', r) -> et (w_heap w) (w_mod w) (w_heap w') (w_mod w').
Proof.
  destruct w as [h u m]. destruct c as [a n un ex ty v|a n un v|a n un v|a v un|a|a n q check]; cbn [run_cmd w_heap w_mod w_uids]; intros H.
  - destruct (create_variable h m n un ex ty v) as [[h' m'] r'] eqn:E. intros S. destruct (new_shown _ _ _ _ _ _ _ _ _ _ E S) as (S1 & F & N).
    destruct r'; injection H as <- _; cbn [w_heap w_mod]; (split; [|exact F]); [|exact S1]. now apply (shown_same h' m').
  - injection H as <- _. cbn [w_heap w_mod]. intros S. split; [|apply faces_snoc].
    apply (shown_same _ m); try reflexivity. exact (shown_kept _ _ _ (faces_snoc _ _) S).
  - injection H as <- _. cbn [w_heap w_mod]. intros S. split; [|apply faces_snoc].
    apply (shown_same _ m); try reflexivity. exact (shown_kept _ _ _ (faces_snoc _ _) S).
  - destruct (attr_qty m a) as [l|] eqn:A; [|injection H as <- _; now apply et_same].
    destruct (match v with SANum _ => _ | SAAttr _ => _ end) as [sv|]; [|injection H as <- _; now apply et_same].
    unfold heap_set_value in H. destruct (hget h l) as [q|] eqn:G; [|injection H as <- _; now apply et_same].
    destruct (set_value q sv un) as [q'|] eqn:V; injection H as <- _; [|now apply et_same]. intros S.
    assert (F := faces_hset h l q q' G (set_value_face _ _ _ _ V)). split; [exact (shown_kept _ _ _ F S)|exact F].
  - destruct (attr_qty m a) as [l|] eqn:A; [|injection H as <- _; now apply et_same].
    destruct (hget h l) as [q|] eqn:G; [|injection H as <- _; now apply et_same].
    destruct (qkind_eqb _ _); injection H as <- _; [|now apply et_same]. intros S.
    assert (F := faces_hset h l q (set_domain q) G eq_refl). split; [exact (shown_kept _ _ _ F S)|exact F].
  - destruct (rbind (resolve_eq (attr_qty m) q) _) as [arg|]; [|injection H as <- _; now apply et_same].
    destruct (create_equation (mkW h u m) n (Some arg) check) as [wx rx] eqn:E. destruct (create_keeps _ _ _ _ _ _ E) as (K1 & K2 & K3 & K4 & K5).
    cbn [w_heap w_mod] in *. destruct rx; injection H as <- _; cbn [w_heap w_mod]; rewrite K1; now apply et_same.
Qed.
Lemma cmds_et cs : forall w w' r, run_cmds w cs = (w', r) -> et (w_heap w) (w_mod w) (w_heap w') (w_mod w').
Proof.
  induction cs as [|c cs IH]; intros w w' r H; cbn [run_cmds] in H; [injection H as <- _; now apply et_same|].
  destruct (run_cmd w c) as [w1 [[]|x]] eqn:E.
  - exact (et_trans _ _ _ _ _ _ (cmd_et _ _ _ _ E) (IH _ _ _ H)).
  - injection H as <- _. exact (cmd_et _ _ _ _ E).
Qed.

Definition all_shown (w : pworld) : Prop := forall i m d, get_model w i = Some (m, d) -> shown (pw_heap w) m.

Lemma on_model_shown {A} w i (f : decls -> mworld -> mworld * res A) w2 r : all_shown w ->
  (forall m d w' r, get_model w i = Some (m, d) -> f d (mkW (pw_heap w) (pw_uids w) m) = (w', r) -> et (pw_heap w) m (w_heap w') (w_mod w')) ->
  on_model w i f = (w2, r) -> all_shown w2.
Proof.
  intros O HF H. apply on_model_spec in H. destruct H as [(_ & -> & _)|(m & d & w' & G & F & Hh & G2 & Go & L)]; [exact O|].
  destruct (HF m d w' r G F (O i m d G)) as [S1 F1]. intros j mj dj Gj. rewrite Hh. destruct (Nat.eq_dec j i) as [->|Hne].
  - assert (X : Some (mj, dj) = Some (w_mod w', d)) by congruence. injection X as -> ->. exact S1.
  - rewrite Go in Gj by exact Hne. exact (shown_kept _ _ _ F1 (O j mj dj Gj)).
Qed.
Lemma reload_shown is : forall w w' r, all_shown w -> reload w is = (w', r) -> all_shown w'.
Proof.
  induction is as [|i is IH]; intros w w' r O H; cbn [reload] in H; [now injection H as <- _|].
  destruct (on_model w i model_call) as [w1 r1] eqn:E.
  assert (C : all_shown w1).
  { apply (on_model_shown w i model_call w1 r1 O); [|exact E]. intros m d w2 r2 _ F. exact (cmds_et _ _ _ _ F). }
  destruct r1 as [[]|x]; [exact (IH _ _ _ C H)|now injection H as <- _].
Qed.

Lemma do_act_shown s a s' r : own_work a = true -> all_shown (fst s) -> do_act s a = (s', r) -> all_shown (fst s').
Proof.
  intros P O H. destruct s as [w p]. destruct a as [n dd|k c|k|k j f|k|m1 m2 outs ins e|m1 m2 out inp|names|c|];
    cbn [do_act own_work fst snd] in *; try discriminate P.
  - injection H as <- _. cbn [fst]. intros i m d G. unfold get_model in G. cbn in G. cbn [pw_heap].
    destruct (Nat.lt_ge_cases i (List.length (pw_models w))) as [L|L].
    + rewrite nth_error_app1 in G by exact L. exact (O i m d G).
    + rewrite nth_error_app2 in G by exact L. destruct (i - _)%nat as [|z]; [|destruct z; discriminate]. injection G as <- <-.
      constructor; [intros l []|intros l []|intros k l []].
  - destruct (on_model w k _) as [w1 r1] eqn:E. injection H as <- _. cbn [fst].
    apply (on_model_shown w k _ w1 r1 O) with (2 := E). intros m d w2 r2 _ F. exact (cmd_et _ _ _ _ F).
  - destruct (on_model w k _) as [w1 r1] eqn:E. injection H as <- _. cbn [fst].
    apply (on_model_shown w k _ w1 r1 O) with (2 := E). intros m d w2 r2 _ F. exact (cmds_et _ _ _ _ F).
  - destruct (get_model w k); injection H as <- _; exact O.
  - destruct (match e with None => _ | Some _ => _ end) as [x|]; [|injection H as <- _; exact O].
    unfold connect_vars in H. destruct (get_model w m2) as [[s2 d2]|]; [|injection H as <- _; exact O].
    destruct (match m1 with CMName _ => _ | CMModel i => _ end); [|injection H as <- _; exact O].
    destruct (forallb _ (cv_list ins) && forallb _ (cv_list outs)).
    2: { destruct ins, outs; injection H as <- _; exact O. }
    destruct (match x with Some _ => _ | None => _ end) as [ar|]; [|injection H as <- _; exact O].
    destruct (rbind (qty_names (pw_heap w) (cv_list outs)) _) as [[o i']|]; [|injection H as <- _; exact O].
    destruct (on_model w m2 _) as [w1 r1] eqn:E.
    assert (C : all_shown w1).
    { apply (on_model_shown w m2 _ w1 r1 O) with (2 := E). intros m d w2 r2 _ F. unfold model_connection in F. cbn [w_heap w_mod w_uids] in F.
      destruct (_ && _); [|injection F as <- _; now apply et_same]. destruct (rbind _ _); [|injection F as <- _; now apply et_same].
      destruct (connection_init _ _ _) as [? []]; injection F as <- _; now apply et_same. }
    destruct r1; injection H as <- _; exact C.
  - destruct (rbind (build (pw_heap w) out) _) as [[o i]|]; [|injection H as <- _; exact O].
    unfold connect_nodes in H. destruct (get_model w m2) as [[s2 d2]|]; [|injection H as <- _; exact O].
    destruct (match m1 with CMName _ => _ | CMModel _ => _ end) as [pu rr].
    assert (O' : all_shown (mkPW (pw_heap w) (pw_uids w) pu (pw_models w))) by exact O.
    destruct rr as [n1|]; [|injection H as <- _; exact O'].
    destruct (node_sub i (ONode o)) as [dn|]; [|injection H as <- _; exact O'].
    destruct (on_model _ m2 _) as [w1 r1] eqn:E.
    assert (C : all_shown w1).
    { apply (on_model_shown _ m2 _ w1 r1 O') with (2 := E). intros m d w2 r2 _ F. destruct (create_keeps _ _ _ _ _ _ F) as (K1 & K2 & K3 & K4 & K5).
      cbn [w_heap w_mod] in *. rewrite K1. now apply et_same. }
    destruct r1; injection H as <- _; exact C.
  - injection H as <- _. exact O.
  - injection H as <- _. exact O.
  - unfold presolve in H. destruct (reload w (dvals (pr_models p))) as [w1 r1] eqn:E.
    assert (C := reload_shown _ _ _ _ O E).
    destruct r1 as [[]|x]; [|injection H as <- _; exact C]. destruct (build_block w1 p); [|injection H as <- _; exact C].
    destruct (block_call _) as [b' r']. injection H as <- _. exact C.
Qed.
Lemma run_shown acts : forallb own_work acts = true -> all_shown (fst (run_acts start_session acts)).
Proof.
  induction acts as [|a acts IH] using rev_ind; intros P.
  - intros i m d H. unfold get_model in H; destruct i; discriminate.
  - rewrite forallb_app in P. apply andb_prop in P. destruct P as [P1 P2]. cbn [forallb] in P2. rewrite Bool.andb_true_r in P2.
    rewrite run_acts_app. cbn [run_acts]. destruct (do_act (run_acts start_session acts) a) as [s' r] eqn:E.
    exact (do_act_shown _ _ _ _ P2 (IH P1) E).
Qed.

Lemma exposed_only acts i m l : forallb own_work acts = true -> let s := run_acts start_session acts in model_of s i = Some m ->
  (In l (m_in m) -> exposed_as (pw_heap (fst s)) (m_name m) "input" l) /\
  (In l (m_out m) -> exposed_as (pw_heap (fst s)) (m_name m) "output" l).
Proof.
  intros P s H. unfold model_of in H. destruct (get_model (fst s) i) as [[m' d]|] eqn:G; [|discriminate H]. injection H as <-.
  destruct (run_shown acts P i m' d G) as [A B _]. split; auto.
Qed.
Lemma exposed_all acts i m k l q : forallb own_work acts = true -> let s := run_acts start_session acts in model_of s i = Some m ->
  In (k, l) (m_vars m) -> hget (pw_heap (fst s)) l = Some q -> q_exposed q = true ->
  (q_type q = "input" -> In l (m_in m)) /\ (q_type q = "output" -> In l (m_out m)).
Proof.
  intros P s H Hin Hq X. unfold model_of in H. destruct (get_model (fst s) i) as [[m' d]|] eqn:G; [|discriminate H]. injection H as <-.
  destruct (run_shown acts P i m' d G) as [_ _ C]. destruct (C k l Hin) as (q' & G' & I & O).
  assert (Y : Some q' = Some q) by exact (eq_trans (eq_sym G') Hq). injection Y as ->. auto.
Qed.
Lemma variable_created w a n u ex ty v w' : run_cmd w (CVar a n u ex ty v) = (w', Ok tt) ->
  exists l q, hget (w_heap w') l = Some q /\ In (q_name q, l) (m_vars (w_mod w')) /\ dget a (m_attrs (w_mod w')) = Some (AQty l) /\
    q_name q = full_name n (m_name (w_mod w)) /\ q_units q = u /\ q_value q = v /\ q_kind q = KVariable /\
    q_exposed q = ex /\ q_type q = ty /\ q_owner q = m_name (w_mod w) /\ q_spec q = false /\
    m_in (w_mod w') = (if ex && String.eqb ty "input" then m_in (w_mod w) ++ [l] else m_in (w_mod w)) /\
    m_out (w_mod w') = (if ex && String.eqb ty "output" then m_out (w_mod w) ++ [l] else m_out (w_mod w)) /\
    (ex = true -> ty = "input" \/ ty = "output").
Proof.
  destruct w as [h uu m]. cbn [run_cmd w_heap w_mod w_uids]. unfold create_variable. set (q := mkQty _ _ _ _ _ _ _ _ _). cbv zeta.
  assert (G : hget (h ++ [q]) (List.length h) = Some q) by apply hget_last.
  assert (D : forall k (x : loc) d, In (k, x) (dset k x d)) by (intros k x d; apply dget_some_in; now rewrite dget_dset, String.eqb_refl).
  intros H. exists (List.length h), q. destruct ex.
  2: { injection H as <-. cbn. rewrite dget_dset, String.eqb_refl. split; [exact G|]. split; [apply D|]. repeat split. discriminate. }
  destruct (String.eqb_spec ty "input") as [->|Ni].
  - injection H as <-. cbn. rewrite dget_dset, String.eqb_refl. split; [exact G|]. split; [apply D|]. repeat split. now left.
  - destruct (String.eqb_spec ty "output") as [->|No]; [|discriminate H].
    injection H as <-. cbn. rewrite dget_dset, String.eqb_refl. split; [exact G|]. split; [apply D|]. repeat split. now right.
Qed.
Lemma bad_exposure w a n u ty v : ty <> "input" -> ty <> "output" -> snd (run_cmd w (CVar a n u true ty v)) = Raise EKey.
Proof.
  intros Ni No. cbn [run_cmd]. unfold create_variable. destruct (String.eqb_spec ty "input"); [contradiction|]. destruct (String.eqb_spec ty "output"); [contradiction|]. reflexivity.
Qed.
