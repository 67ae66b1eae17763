(** Facts: setting a parameter of a problem (C71). *)
From Verif Require Import Base BaseFacts Num NumFacts UnitModel UnitFacts Sympy Node Build EquationModel ModelModel ProblemModel SimModel
  SpecUnits UnitThms SpecExpr SpecQty QtyFacts SpecModel BuildFacts EquationFacts ModelFacts SpecInc IncFacts SpecCall CallFacts
  SpecProblem ProblemFacts SessionFacts UsualFacts ConnFacts SolverModel SpecSolver SolverFacts SpecLookup LookupFacts SpecSymbols SymbolFacts
  SpecWritten WrittenFacts SpecExact ExactFacts SpecOwn OwnFacts SpecSession ViewFacts.
From Coq Require Import Reals Lra.
Notation num := Verif.Num.num.

(** ** How often a name is used *)
Definition used (x : string) (h : heap) : nat := count_occ string_dec (map q_name h) x.
Definition occ (x : string) (l : list string) : nat := count_occ string_dec l x.

Lemma occ_app x a b : occ x (a ++ b) = (occ x a + occ x b)%nat.
Proof. apply count_occ_app. Qed.
Lemma hset_names h : forall l q q', hget h l = Some q -> q_name q' = q_name q -> map q_name (hset h l q') = map q_name h.
Proof.
  induction h as [|p h IH]; intros [|l] q q' H N; try discriminate.
  - injection H as ->. cbn. now rewrite N.
  - cbn. f_equal. exact (IH l q q' H N).
Qed.
Lemma used_snoc x h q : used x (h ++ [q]) = (used x h + occ x [q_name q])%nat.
Proof. unfold used. rewrite map_app, count_occ_app. reflexivity. Qed.

Lemma equation_heap w n a check w' r : create_equation w n a check = (w', r) -> w_heap w' = w_heap w.
Proof.
  unfold create_equation. destruct (equation_init _ _ _ _ _) as [u' [e0|]]; [|intros H; now injection H as <- _].
  destruct (sweep_objects _) as [e2 [[]|]]; [|intros H; now injection H as <- _].
  destruct check; [destruct (check_equation _ _)|]; intros H; now injection H as <- _.
Qed.
Lemma connection_heap w outs ins a w' r : model_connection w outs ins a = (w', r) -> w_heap w' = w_heap w.
Proof.
  unfold model_connection. destruct (_ && _); [|intros H; now injection H as <- _].
  destruct (rbind _ _); [|intros H; now injection H as <- _].
  destruct (connection_init _ _ _) as [u []]; intros H; now injection H as <- _.
Qed.

Lemma cmd_used x w c w' r : run_cmd w c = (w', r) -> (used x (w_heap w') <= used x (w_heap w) + occ x (makes (m_name (w_mod w)) c))%nat.
Proof.
  destruct w as [h u m]. destruct c as [a n un ex ty v|a n un v|a n un v|a v un|a|a n q check]; cbn [run_cmd w_heap w_mod w_uids makes]; intros H.
  - assert (E : exists q, w_heap w' = h ++ [q] /\ q_name q = (n ++ "_" ++ m_name m)%string).
    { unfold create_variable in H. set (q := mkQty _ _ _ _ _ _ _ _ _) in H. exists q.
      destruct ex; [destruct (String.eqb ty "input"); [|destruct (String.eqb ty "output")]|]; injection H as <- _; split; reflexivity. }
    destruct E as (q & -> & N). rewrite used_snoc, N. lia.
  - injection H as <- _. cbn [w_heap]. rewrite used_snoc. cbn [q_name]. reflexivity.
  - injection H as <- _. cbn [w_heap]. rewrite used_snoc. cbn [q_name]. reflexivity.
  - destruct (attr_qty m a) as [l|e]; [|injection H as <- _; cbn [w_heap fst pw_heap]; lia].
    destruct (match v with SANum n => _ | SAAttr b => _ end) as [sv|e]; [|injection H as <- _; cbn [w_heap fst pw_heap]; lia].
    unfold heap_set_value in H. destruct (hget h l) as [q|] eqn:G; [|injection H as <- _; cbn [w_heap fst pw_heap]; lia].
    destruct (set_value q sv un) as [q'|e] eqn:Es; injection H as <- _; [|cbn [w_heap fst pw_heap]; lia]. cbn [w_heap].
    destruct (set_value_effect _ _ _ _ Es) as (_ & _ & _ & N & _). unfold used. rewrite (hset_names h l q q' G N). lia.
  - destruct (attr_qty m a) as [l|e]; [|injection H as <- _; cbn [w_heap fst pw_heap]; lia].
    destruct (hget h l) as [q|] eqn:G; [|injection H as <- _; cbn [w_heap fst pw_heap]; lia].
    destruct (qkind_eqb (q_kind q) KVariable); injection H as <- _; [|cbn [w_heap fst pw_heap]; lia]. cbn [w_heap].
    unfold used. rewrite (hset_names h l q (set_domain q) G eq_refl). lia.
  - destruct (rbind _ _) as [arg|e]; [|injection H as <- _; cbn [w_heap fst pw_heap]; lia].
    destruct (create_equation _ n (Some arg) check) as [w1 [e|x1]] eqn:Ec; injection H as <- _; cbn [w_heap]; rewrite (equation_heap _ _ _ _ _ _ Ec); cbn [w_heap fst pw_heap]; lia.
Qed.

Lemma cmds_used x cs : forall w w' r, run_cmds w cs = (w', r) ->
  (used x (w_heap w') <= used x (w_heap w) + occ x (flat_map (makes (m_name (w_mod w))) cs))%nat.
Proof.
  induction cs as [|c cs IH]; intros w w' r H; cbn [run_cmds flat_map] in *; [injection H as <- _; lia|].
  rewrite occ_app. destruct (run_cmd w c) as [w1 [[]|y]] eqn:E.
  - assert (A := cmd_used x _ _ _ _ E). assert (B := IH _ _ _ H). rewrite (run_cmd_name _ _ _ _ E) in B. lia.
  - injection H as <- _. assert (A := cmd_used x _ _ _ _ E). lia.
Qed.

Lemma call_used x w i w' r : (forall m d, get_model w i = Some (m, d) -> ~ In x (flat_map (makes (m_name m)) (script d))) ->
  on_model w i model_call = (w', r) -> (used x (pw_heap w') <= used x (pw_heap w))%nat.
Proof.
  intros N H. apply on_model_spec in H. destruct H as [(_ & -> & _)|(m & d & w1 & G & F & Hh & _)]; [lia|]. rewrite Hh.
  assert (A := cmds_used x _ _ _ _ F). cbn [w_heap w_mod] in A. assert (Z : occ x (flat_map (makes (m_name m)) (script d)) = 0%nat).
  { apply count_occ_not_In. exact (N m d G). }
  unfold script in Z. lia.
Qed.

Definition silent (x : string) (w : pworld) : Prop := forall i m d, get_model w i = Some (m, d) -> ~ In x (flat_map (makes (m_name m)) (script d)).
Lemma call_silent x w i w' r : silent x w -> on_model w i model_call = (w', r) -> silent x w'.
Proof.
  intros S H. apply on_model_spec in H. destruct H as [(_ & -> & _)|(m & d & w1 & G & F & Hh & G2 & Go & _)]; [exact S|].
  intros j mj dj Gj. destruct (Nat.eq_dec j i) as [->|Hn].
  - assert (X : Some (mj, dj) = Some (w_mod w1, d)) by congruence. injection X as -> ->.
    assert (T := run_cmds_tr _ _ _ _ F). rewrite (tr_name _ _ _ _ T). cbn [w_mod]. exact (S i m d G).
  - rewrite (Go j Hn) in Gj. exact (S j mj dj Gj).
Qed.
Lemma reload_used x is : forall w w' r, silent x w -> reload w is = (w', r) -> (used x (pw_heap w') <= used x (pw_heap w))%nat.
Proof.
  induction is as [|i is IH]; intros w w' r S H; cbn [reload] in H; [injection H as <- _; lia|].
  destruct (on_model w i model_call) as [w1 r1] eqn:E. assert (A := call_used x _ _ _ _ (S i) E).
  destruct r1 as [[]|y]; [|injection H as <- _; exact A]. assert (B := IH _ _ _ (call_silent _ _ _ _ _ S E) H). lia.
Qed.

Lemma act_used x s a s' r : silent x (fst s) -> (forall i j f, a <> AInc i j f) -> do_act s a = (s', r) ->
  (used x (pw_heap (fst s')) <= used x (pw_heap (fst s)) +
    occ x match a with AStmt i c => match get_model (fst s) i with Some (m, _) => makes (m_name m) c | None => [] end | _ => [] end)%nat.
Proof.
  intros S NI H. destruct s as [w p]. destruct a as [n dd|k c|k|k j f|k|m1 m2 outs ins e|m1 m2 out inp|names|c|];
    cbn [do_act fst snd] in *.
  - injection H as <- _. cbn [w_heap fst pw_heap]. lia.
  - destruct (on_model w k _) as [w1 r1] eqn:E. injection H as <- _. cbn [fst].
    apply on_model_spec in E. destruct E as [(_ & -> & _)|(m & d & w2 & G & F & Hh & _)]; [lia|]. rewrite Hh, G. exact (cmd_used x _ _ _ _ F).
  - destruct (on_model w k _) as [w1 r1] eqn:E. injection H as <- _. cbn [fst]. assert (A := call_used x _ _ _ _ (S k) E). lia.
  - now destruct (NI k j f).
  - destruct (get_model w k); injection H as <- _; cbn [w_heap fst pw_heap]; lia.
  - destruct (match e with None => _ | Some _ => _ end) as [y|]; [|injection H as <- _; cbn [w_heap fst pw_heap]; lia].
    unfold connect_vars in H. destruct (get_model w m2) as [[s2 d2]|]; [|injection H as <- _; cbn [w_heap fst pw_heap]; lia].
    destruct (match m1 with CMName _ => _ | CMModel i => _ end); [|injection H as <- _; cbn [w_heap fst pw_heap]; lia].
    destruct (forallb _ (cv_list ins) && forallb _ (cv_list outs)).
    2: { destruct ins, outs; injection H as <- _; cbn [w_heap fst pw_heap]; lia. }
    destruct (match y with Some _ => _ | None => _ end) as [ar|]; [|injection H as <- _; cbn [w_heap fst pw_heap]; lia].
    destruct (rbind (qty_names (pw_heap w) (cv_list outs)) _) as [[o i']|]; [|injection H as <- _; cbn [w_heap fst pw_heap]; lia].
    destruct (on_model w m2 _) as [w1 r1] eqn:E.
    assert (C : pw_heap w1 = pw_heap w).
    { apply on_model_spec in E. destruct E as [(_ & -> & _)|(m & d & w2 & G & F & Hh & _)]; [reflexivity|]. rewrite Hh. exact (connection_heap _ _ _ _ _ _ F). }
    destruct r1; injection H as <- _; cbn [fst]; rewrite C; lia.
  - destruct (rbind (build (pw_heap w) out) _) as [[o i]|]; [|injection H as <- _; cbn [w_heap fst pw_heap]; lia].
    unfold connect_nodes in H. destruct (get_model w m2) as [[s2 d2]|]; [|injection H as <- _; cbn [w_heap fst pw_heap]; lia].
    destruct (match m1 with CMName _ => _ | CMModel _ => _ end) as [pu rr].
    destruct rr as [n1|]; [|injection H as <- _; cbn [w_heap fst pw_heap]; lia].
    destruct (node_sub i (ONode o)) as [dn|]; [|injection H as <- _; cbn [w_heap fst pw_heap]; lia].
    destruct (on_model _ m2 _) as [w1 r1] eqn:E.
    assert (C : pw_heap w1 = pw_heap w).
    { apply on_model_spec in E. destruct E as [(_ & -> & _)|(m & d & w2 & G & F & Hh & _)]; [reflexivity|]. rewrite Hh. exact (equation_heap _ _ _ _ _ _ F). }
    destruct r1; injection H as <- _; cbn [fst]; rewrite C; lia.
  - injection H as <- _. cbn [w_heap fst pw_heap]. lia.
  - injection H as <- _. cbn [w_heap fst pw_heap]. lia.
  - unfold presolve in H. destruct (reload w (dvals (pr_models p))) as [w1 r1] eqn:E.
    assert (C := reload_used x _ _ _ _ S E).
    destruct r1 as [[]|y]; [|injection H as <- _; cbn [fst]; lia]. destruct (build_block w1 p); [|injection H as <- _; cbn [fst]; lia].
    destruct (block_call _) as [b' r']. injection H as <- _. cbn [fst]. lia.
Qed.

Lemma run_used x acts cr : (exists r, cr = created acts ++ r) -> (forall i j f, ~ In (AInc i j f) acts) -> ~ In x (declarations_make cr) ->
  (used x (pw_heap (fst (run_acts start_session acts))) <= occ x (flat_map (statement_makes cr) acts))%nat.
Proof.
  induction acts as [|a acts IH] using rev_ind; intros (r & Er) NI ND; [apply Nat.le_0_l|].
  rewrite run_acts_app, flat_map_app, occ_app. cbn [run_acts flat_map]. rewrite app_nil_r.
  assert (Er' : exists r', cr = created acts ++ r') by (rewrite Er, created_app, <- app_assoc; eauto).
  assert (B : (used x (pw_heap (fst (run_acts start_session acts))) <= occ x (flat_map (statement_makes cr) acts))%nat).
  { apply IH; auto. intros i j f Hin. apply (NI i j f), in_or_app. now left. }
  assert (Cr : forall i m d, get_model (fst (run_acts start_session acts)) i = Some (m, d) -> nth_error cr i = Some (m_name m, d)).
  { intros i m d G. apply model_created in G. destruct Er' as (r' & ->). rewrite nth_error_app1; [exact G|]. apply nth_error_Some. congruence. }
  destruct (do_act (run_acts start_session acts) a) as [s' rr] eqn:E. cbn [fst].
  assert (Si : silent x (fst (run_acts start_session acts))).
  { intros i m d G Hin. apply ND, in_flat_map. exists (m_name m, d). split; [exact (nth_error_In _ _ (Cr i m d G))|exact Hin]. }
  assert (Na : forall i j f, a <> AInc i j f).
  { intros i j f Ea. apply (NI i j f), in_or_app. right. now left. }
  assert (A := act_used x _ a _ _ Si Na E).
  assert (L : (occ x match a with AStmt i c => match get_model (fst (run_acts start_session acts)) i with Some (m, _) => makes (m_name m) c | None => [] end | _ => [] end
          <= occ x (statement_makes cr a))%nat).
  { destruct a; cbn [statement_makes]; try apply Nat.le_0_l. destruct (get_model _ i) as [[m d]|] eqn:G; [|apply Nat.le_0_l]. rewrite (Cr i m d G). lia. }
  lia.
Qed.

Lemma used_two x h : forall l1 l2 q1 q2, hget h l1 = Some q1 -> hget h l2 = Some q2 -> q_name q1 = x -> q_name q2 = x -> l1 <> l2 -> (2 <= used x h)%nat.
Proof.
  assert (One : forall h l q, hget h l = Some q -> q_name q = x -> (1 <= used x h)%nat).
  { intros h' l q H N. unfold used. apply (proj1 (count_occ_In string_dec _ _)). apply in_map_iff. exists q. split; [exact N|exact (nth_error_In _ _ H)]. }
  induction h as [|p h IH]; intros [|l1] [|l2] q1 q2 H1 H2 N1 N2 Ne; try discriminate; try congruence.
  - injection H1 as ->. unfold used. cbn [map count_occ]. destruct (string_dec (q_name q1) x); [|contradiction].
    assert (A := One h l2 q2 H2 N2). unfold used in A. lia.
  - injection H2 as ->. unfold used. cbn [map count_occ]. destruct (string_dec (q_name q2) x); [|contradiction].
    assert (A := One h l1 q1 H1 N1). unfold used in A. lia.
  - assert (A := IH l1 l2 q1 q2 H1 H2 N1 N2 (fun E => Ne (f_equal S E))). unfold used in *. cbn [map count_occ]. destruct (string_dec (q_name p) x); lia.
Qed.

Lemma one_object acts x l1 l2 q1 q2 : made_once acts x -> let h := pw_heap (fst (run_acts start_session acts)) in
  hget h l1 = Some q1 -> hget h l2 = Some q2 -> q_name q1 = x -> q_name q2 = x -> l1 = l2.
Proof.
  intros (NI & C & ND) h H1 H2 N1 N2. destruct (Nat.eq_dec l1 l2) as [E|E]; [exact E|exfalso].
  assert (A := run_used x acts (created acts) (ex_intro _ [] (eq_sym (app_nil_r _))) NI ND).
  assert (B := used_two x h l1 l2 q1 q2 H1 H2 N1 N2 E). unfold occ in A. fold h in A. lia.
Qed.

Lemma made_resolved acts x : made_once acts x -> made_once (acts ++ [AResolve]) x.
Proof.
  intros (A & B & C). unfold made_once. rewrite created_app. cbn [created flat_map]. rewrite app_nil_r. split; [|split; [|exact C]].
  - intros i j f H. apply in_app_or in H. destruct H as [H|[H|[]]]; [exact (A i j f H)|discriminate].
  - rewrite flat_map_app. cbn. now rewrite app_nil_r.
Qed.

Lemma after_resolve acts s b : resolved acts s b -> s = run_acts start_session (acts ++ [AResolve]).
Proof. intros R. rewrite run_acts_app. cbn [run_acts]. now rewrite (proj1 R). Qed.
Lemma resolved_ok acts s b : resolved acts s b -> all_ok start_session acts -> all_ok start_session (acts ++ [AResolve]).
Proof. intros R O. apply all_ok_app. split; [exact O|]. cbn. rewrite (proj1 R). auto. Qed.

(** What [sim[name]] gives is the object of the attribute. *)
Lemma lookup_attribute acts s b c o dm st i v a t l : resolved acts s b -> all_ok start_session acts -> distinct_models acts ->
  nth_error (views (acts ++ [AResolve])) i = Some v -> dget a (vw_things v) = Some t -> made_once acts (th_name t) ->
  sim_getitem (sim_over (snd s) c o dm st) (KStr (th_name t)) = Ok l ->
  exists m d, get_model (fst s) i = Some (m, d) /\ attr_qty m a = Ok l.
Proof.
  intros R O D Hv Ht M H. assert (Es := after_resolve _ _ _ R).
  assert (D2 : distinct_models (acts ++ [AResolve])).
  { intros j k mj mk Hj Hk Ej Ek N. assert (Ad : added (acts ++ [AResolve]) = added acts).
    { unfold added. rewrite added_app. cbn [added_from]. now rewrite !app_nil_r. }
    rewrite Ad in Hj, Hk. rewrite <- Es in Ej, Ek.
    destruct (viewed_model _ _ O D Hj) as [vj Hvj]. destruct (viewed_model _ _ O D Hk) as [vk Hvk].
    assert (X : forall i m, model_of s i = Some m -> model_of (run_acts start_session acts) i <> None -> exists m0, model_of (run_acts start_session acts) i = Some m0 /\ m_name m0 = m_name m).
    { intros i0 m E Nn. destruct (model_of (run_acts start_session acts) i0) as [m0|] eqn:E0; [|congruence]. exists m0. split; [reflexivity|].
      destruct (model_later acts AResolve i0 m0 E0) as (m1 & E1 & N1). rewrite <- Es in E1. congruence. }
    assert (Y : forall i v0, nth_error (views acts) i = Some v0 -> model_of (run_acts start_session acts) i <> None).
    { intros i0 v0 Hv0 E0. assert (L := vd_len _ _ (run_viewed _ O D)). unfold model_of, get_model in E0.
      assert (Lt : (i0 < List.length (views acts))%nat) by (apply nth_error_Some; congruence). rewrite L in Lt. apply nth_error_Some in Lt.
      destruct (nth_error (pw_models _) i0); [discriminate|congruence]. }
    destruct (X j mj Ej (Y j vj Hvj)) as (mj0 & Ej0 & Nj). destruct (X k mk Ek (Y k vk Hvk)) as (mk0 & Ek0 & Nk).
    apply (D j k mj0 mk0 Hj Hk Ej0 Ek0). congruence. }
  assert (V := run_viewed _ (resolved_ok _ _ _ R O) D2). rewrite <- Es in V.
  assert (G : exists m d, get_model (fst s) i = Some (m, d)).
  { assert (Lt : (i < List.length (views (acts ++ [AResolve])))%nat) by (apply nth_error_Some; congruence).
    rewrite (vd_len _ _ V) in Lt. apply nth_error_Some in Lt. unfold get_model. destruct (nth_error (pw_models (fst s)) i) as [[m d]|]; [eauto|congruence]. }
  destruct G as (m & d & G). exists m, d. split; [exact G|].
  destruct (vd_ok _ _ V i m d v G Hv) as (_ & _ & _ & St). destruct (st_obj _ _ (St (fun _ => 0%nat)) a t Ht) as (l' & q' & A & Hq & Nq & _).
  cbn [w_mod w_heap] in A, Hq. destruct (lookup_found _ _ _ _ _ _ _ _ _ R H) as [(q & Hl & Nl & _) _].
  assert (l = l').
  { apply (one_object (acts ++ [AResolve]) (th_name t) l l' q q'); [now apply made_resolved|..]; rewrite <- ?Es; auto. }
  now subst l'.
Qed.

Lemma set_nth_same {A} (l : list A) : forall i x, nth_error l i = Some x -> set_nth l i x = l.
Proof. induction l as [|y l IH]; intros [|i] x H; try discriminate; cbn in *; [now injection H as ->|]. f_equal. now apply IH. Qed.
Lemma set_attribute s i m d a l k u : get_model (fst s) i = Some (m, d) -> attr_qty m a = Ok l ->
  set_at s l k u = do_act s (AStmt i (CSet a (SANum k) u)).
Proof.
  intros G A. destruct s as [[h us pu ms] p]. unfold set_at. cbn [do_act fst snd pw_heap pw_uids pw_puids pw_models] in *. unfold on_model. rewrite G.
  cbn [run_cmd w_mod w_heap w_uids pw_heap pw_uids pw_puids pw_models]. rewrite A. destruct (heap_set_value h l (SVNum k) u) as [h' r].
  cbn [w_mod w_heap w_uids]. unfold get_model in G. cbn [pw_models] in G. now rewrite (set_nth_same ms i (m, d) G).
Qed.

Lemma lookup_sets acts s b c o dm st i v a t l : resolved acts s b -> all_ok start_session acts -> distinct_models acts ->
  nth_error (views (acts ++ [AResolve])) i = Some v -> dget a (vw_things v) = Some t -> made_once acts (th_name t) ->
  sim_getitem (sim_over (snd s) c o dm st) (KStr (th_name t)) = Ok l ->
  forall k u, set_at s l k u = do_act s (AStmt i (CSet a (SANum k) u)).
Proof.
  intros R O D Hv Ht M H k u. destruct (lookup_attribute acts s b c o dm st i v a t l) as (m & d & G & A); auto. exact (set_attribute s i m d a l k u G A).
Qed.

(** ** Setting and resolving again *)
Definition study (acts : list act) (i : nat) (a : string) (k : num) (u : option UnitModel.unit) : list act :=
  acts ++ [AResolve; AStmt i (CSet a (SANum k) u)].
Lemma study_split acts i a k u : study acts i a k u = (acts ++ [AResolve]) ++ [AStmt i (CSet a (SANum k) u)].
Proof. unfold study. now rewrite <- app_assoc. Qed.

Lemma study_added acts i a k u : added (study acts i a k u) = added acts.
Proof. unfold added, study. rewrite added_app. cbn [added_from]. now rewrite !app_nil_r. Qed.
Lemma connected_snoc acts x j os is : (forall m j outs ins e, x <> AConn m j outs ins e) -> connected (acts ++ [x]) j os is <-> connected acts j os is.
Proof.
  intros Nx. split; intros (a1 & i & outs & ins & a2 & s1 & E & R).
  - exists a1, i, outs, ins. destruct (@exists_last _ (AConn (CMModel i) j outs ins None :: a2)) as (l & y & El); [discriminate|].
    rewrite El, app_assoc in E. apply app_inj_tail in E. destruct E as [-> <-].
    destruct l as [|z l]; [injection El as El _; now destruct (Nx _ _ _ _ _ (eq_sym El))|]. injection El as <- ->. exists l, s1. split; [reflexivity|exact R].
  - exists a1, i, outs, ins, (a2 ++ [x]), s1. split; [rewrite E, <- app_assoc; reflexivity|exact R].
Qed.
Lemma study_connected acts i a k u j os is : connected (study acts i a k u) j os is <-> connected acts j os is.
Proof. rewrite study_split, !connected_snoc by discriminate. reflexivity. Qed.

Lemma told_value v a t k u : dget a (vw_things v) = Some t -> told (CSet a (SANum k) u) v = valued v a k.
Proof. intros H. unfold told, valued. cbn [note handed]. rewrite H. reflexivity. Qed.
Lemma study_views acts i a k u v t : nth_error (views (acts ++ [AResolve])) i = Some v -> dget a (vw_things v) = Some t ->
  nth_error (views (study acts i a k u)) i = Some (valued v a k) /\
  forall j, j <> i -> nth_error (views (study acts i a k u)) j = nth_error (views (acts ++ [AResolve])) j.
Proof.
  intros Hv Ht. rewrite study_split, views_snoc. cbn [read_act]. split; [|intros j Hj; now apply change_neq].
  rewrite <- (told_value v a t k u Ht). revert Hv. generalize (views (acts ++ [AResolve])) as vs. revert i.
  induction i as [|i IH]; intros [|y vs] H; try discriminate; cbn in *; [now injection H as ->|]. now apply IH.
Qed.

Lemma study_exact acts i a k u s b v t en : let acts2 := study acts i a k u in
  resolved acts2 s b -> all_ok start_session acts2 -> distinct_models acts2 -> readable_program acts2 ->
  forallb by_declaration acts2 = true -> joins_unknowns acts2 ->
  In i (added acts) -> nth_error (views (acts ++ [AResolve])) i = Some v -> dget a (vw_things v) = Some t ->
  (solved en b <->
   (forall x, In x (view_writes (valued v a k)) -> asks x en) /\
   (forall j vj x, j <> i -> In j (added acts) -> nth_error (views (acts ++ [AResolve])) j = Some vj -> In x (view_writes vj) -> asks x en) /\
   (forall j os is, In j (added acts) -> connected acts j os is -> sum_named en is = sum_named en os)).
Proof.
  intros acts2 R O D L P J Hi Hv Ht. rewrite (system_viewed _ _ _ en R O D L P J). subst acts2.
  destruct (study_views acts i a k u v t Hv Ht) as [V1 V2]. unfold program_writes, written_in. rewrite study_added. split.
  - intros [H1 H2]. split; [|split].
    + intros x Hx. apply H1. exists (valued v a k), i. auto.
    + intros j vj x Hj Ha Hvj Hx. apply H1. exists vj, j. rewrite V2 by exact Hj. auto.
    + intros j os is Hj Cn. apply (H2 j os is Hj). now apply study_connected.
  - intros (H1 & H2 & H3). split.
    + intros x (vj & j & Hj & Hvj & Hx). destruct (Nat.eq_dec j i) as [->|Hn].
      * assert (vj = valued v a k) by congruence. subst vj. now apply H1.
      * rewrite V2 in Hvj by exact Hn. now apply (H2 j vj).
    + intros j os is Hj Cn. apply (H3 j os is Hj). exact (proj1 (study_connected acts i a k u j os is) Cn).
Qed.

(** A numeric solver's answer after the setting. *)
Lemma study_answer acts i a k u s b v t eng out x : let acts2 := study acts i a k u in
  resolved acts2 s b -> all_ok start_session acts2 -> distinct_models acts2 -> readable_program acts2 ->
  In i (added acts) -> nth_error (views (acts ++ [AResolve])) i = Some v -> dget a (vw_things v) = Some t ->
  honest eng -> answer eng b out -> In x (view_writes (valued v a k)) -> asks x (bind_env out).
Proof.
  intros acts2 R O D L Hi Hv Ht Hh A Hx. apply (answer_viewed _ _ _ _ _ x R O D L Hh A). subst acts2.
  destruct (study_views acts i a k u v t Hv Ht) as [V1 _]. exists (valued v a k), i. rewrite study_added. auto.
Qed.

Lemma study_block acts i a k u s b v t : let acts2 := study acts i a k u in
  resolved acts2 s b -> all_ok start_session acts2 -> distinct_models acts2 -> readable_program acts2 ->
  In i (added acts) -> nth_error (views (acts ++ [AResolve])) i = Some v -> dget a (vw_things v) = Some t ->
  (forall x, In x (view_writes (valued v a k)) -> exists e, In e (b_eqs b) /\ eq_name e = full_name (wr_name x) (vw_name v) /\ says x e) /\
  (forall j vj x, j <> i -> In j (added acts) -> nth_error (views (acts ++ [AResolve])) j = Some vj -> In x (view_writes vj) ->
     exists e, In e (b_eqs b) /\ eq_name e = full_name (wr_name x) (vw_name vj) /\ says x e).
Proof.
  intros acts2 R O D L Hi Hv Ht. subst acts2. destruct (study_views acts i a k u v t Hv Ht) as [V1 V2]. split.
  - intros x Hx. destruct (block_view _ _ _ (valued v a k) x R O D L) as (e & He & Ne & Se).
    + exists i. rewrite study_added. auto.
    + exists e. split; [exact He|]. split; [|exact Se]. rewrite Ne. f_equal. unfold valued. rewrite Ht. reflexivity.
  - intros j vj x Hj Ha Hvj Hx. apply (block_view _ _ _ vj x R O D L). exists j. rewrite study_added, V2 by exact Hj. auto.
Qed.

(** ** Checking a given program *)
Fixpoint runs_ok (s : session) (acts : list act) : bool :=
  match acts with
  | [] => true
  | a :: r => match snd (do_act s a) with Ok _ => runs_ok (fst (do_act s a)) r | Raise _ => false end
  end.
Lemma runs_all acts : forall s, runs_ok s acts = true -> all_ok s acts.
Proof.
  induction acts as [|a acts IH]; intros s H; cbn [runs_ok all_ok] in *; [exact I|].
  destruct (snd (do_act s a)) as [[]|]; [|discriminate]. split; [reflexivity|now apply IH].
Qed.
Fixpoint joins_ok (s : session) (acts : list act) : bool :=
  match acts with
  | [] => true
  | a :: r => match a with
              | AConn _ _ outs ins None =>
                  forallb (fun l => match hget (pw_heap (fst s)) l with Some q => negb (q_spec q) | None => true end) (cv_list outs ++ cv_list ins)
              | _ => true
              end && joins_ok (fst (do_act s a)) r
  end.
Lemma joins_by acts : joins_ok start_session acts = true -> joins_unknowns acts.
Proof.
  intros H a1 m j outs ins a2 l q E Hl Hq. subst acts. revert H Hq. generalize start_session. induction a1 as [|x a1 IH]; intros s H Hq.
  - cbn [app joins_ok run_acts] in *. apply andb_prop in H. destruct H as [H _]. rewrite forallb_forall in H. specialize (H l Hl). rewrite Hq in H.
    now apply negb_true_iff in H.
  - cbn [app joins_ok run_acts] in *. apply andb_prop in H. destruct H as [_ H]. exact (IH _ H Hq).
Qed.
Fixpoint distinct_strings (l : list string) : bool := match l with [] => true | x :: r => negb (mem_str x r) && distinct_strings r end.
Lemma distinct_nodup l : distinct_strings l = true -> NoDup l.
Proof.
  induction l as [|x l IH]; intros H; constructor; cbn in H; apply andb_prop in H; destruct H as [A B]; [|now apply IH].
  intros I. apply mem_str_spec in I. rewrite I in A. discriminate.
Qed.
Definition readable_ok (acts : list act) : bool :=
  forallb (fun i => match nth_error (views acts) i with
                    | Some v => self_contained (vw_name v) (vw_things v) (script (vw_decls v)) && distinct_strings (map wr_name (view_writes v))
                    | None => true
                    end) (added acts).
Lemma readable_by acts : readable_ok acts = true -> readable_program acts.
Proof.
  intros H i v Hi Hv. unfold readable_ok in H. rewrite forallb_forall in H. specialize (H i Hi). rewrite Hv in H. apply andb_prop in H.
  destruct H as [A B]. split; [exact A|now apply distinct_nodup].
Qed.
Definition once_ok (acts : list act) (x : string) : bool :=
  forallb (fun a => match a with AInc _ _ _ => false | _ => true end) acts &&
  Nat.eqb (occ x (flat_map (statement_makes (created acts)) acts)) 1 && negb (mem_str x (declarations_make (created acts))).
Lemma once_by acts x : once_ok acts x = true -> made_once acts x.
Proof.
  unfold once_ok. intros H. apply andb_prop in H. destruct H as [H C]. apply andb_prop in H. destruct H as [A B]. split; [|split].
  - intros i j f I. rewrite forallb_forall in A. specialize (A _ I). discriminate.
  - now apply Nat.eqb_eq in B.
  - intros I. apply mem_str_spec in I. rewrite I in C. discriminate.
Qed.
