(** Proofs about numbers with units (C54, C55) and looking up parameters (C56). *)
From Verif Require Import Base BaseFacts Num NumFacts UnitModel UnitFacts Sympy Node Build EquationModel ModelModel ProblemModel SimModel
  SpecUnits UnitThms SpecExpr SpecQty QtyFacts SpecModel BuildFacts EquationFacts ModelFacts SpecInc IncFacts SpecCall CallFacts
  SpecProblem ProblemFacts SessionFacts SpecLookup.
From Coq Require Import Reals.
Notation num := Verif.Num.num.

(** ** C56 *)
Definition pars_ok (s : SpecProblem.session) : Prop :=
  forall x l, In (x, l) (pr_pars (snd s)) -> exists q, hget (pw_heap (fst s)) l = Some q /\ q_name q = x /\ q_kind q = KParameter.

Lemma do_act_pars s a : good s -> pars_ok s -> pars_ok (fst (do_act s a)).
Proof.
  intros G P. destruct s as [w p]. destruct (do_act (w, p) a) as [[w' p'] r] eqn:E. simpl.
  destruct (do_act_step _ _ _ _ _ _ (g_ok _ G) E) as [S [(i & -> & -> & -> & Gi)|((E1 & E2 & E3) & _)]].
  - intros x l. simpl in *. unfold add_model. destruct (get_model w i) as [[m d]|] eqn:Gm; [|congruence]. simpl.
    intros Hin. apply in_dupdate in Hin. destruct Hin as [Hin|Hin]; [now apply P|].
    destruct (proj1 (g_ok _ G) i m d Gm) as (_ & [_ Hp] & _). exact (Hp x l Hin).
  - intros x l. simpl. rewrite E3. intros Hin. destruct (P x l Hin) as (q & Hq & Nq & Kq). simpl in Hq.
    destruct (as_grows _ _ S l q Hq) as (q' & Hq' & N' & K'). exists q'. split; [exact Hq'|]. split; congruence.
Qed.
Lemma run_pars acts : forall s, good s -> pars_ok s -> pars_ok (run_acts s acts).
Proof.
  induction acts as [|a acts IH]; intros s G P; simpl; [exact P|]. apply IH; [now apply do_act_good|now apply do_act_pars].
Qed.
Lemma pars_nodup_act s a : good s -> NoDup (dkeys (pr_pars (snd s))) -> NoDup (dkeys (pr_pars (snd (fst (do_act s a))))).
Proof.
  intros G N. destruct s as [w p]. destruct (do_act (w, p) a) as [[w' p'] r] eqn:E. simpl in *.
  destruct (do_act_step _ _ _ _ _ _ (g_ok _ G) E) as [S [(i & -> & -> & -> & Gi)|((E1 & E2 & E3) & _)]].
  - simpl in *. unfold add_model. destruct (get_model w i) as [[m d]|]; [|exact N]. simpl. now apply nodup_dupdate.
  - now rewrite E3.
Qed.
Lemma pars_nodup acts : forall s, good s -> NoDup (dkeys (pr_pars (snd s))) -> NoDup (dkeys (pr_pars (snd (run_acts s acts)))).
Proof.
  induction acts as [|a acts IH]; intros s G N; simpl; [exact N|]. apply IH; [now apply do_act_good|now apply pars_nodup_act].
Qed.

Lemma block_pars_nodup acts s b : resolved acts s b -> NoDup (dkeys (b_pars b)).
Proof.
  intros [H Hb]. set (s0 := run_acts start_session acts) in *.
  assert (N : NoDup (dkeys (pr_pars (snd s0)))) by (apply pars_nodup; [apply start_good|constructor]).
  destruct s0 as [w p]. cbn [do_act] in H. unfold presolve in H.
  destruct (reload w (dvals (pr_models p))) as [w' [[]|x]]; [|discriminate].
  destruct (build_block w' p) as [b0|x] eqn:Eb; [|discriminate]. unfold build_block in Eb. binv.
  destruct (block_call _) as [b' r] eqn:Ec in H. injection H as <- ->. simpl in Hb. injection Hb as <-.
  unfold block_call in Ec. destruct (equation_list _ _ _) as [es|e]; [|discriminate]. injection Ec as <-.
  unfold assign_groups. simpl. now apply restrict_nodup.
Qed.

Lemma lookup_found acts s b c o d st x l : resolved acts s b ->
  sim_getitem (sim_over (snd s) c o d st) (KStr x) = Ok l ->
  (exists q, hget (pw_heap (fst s)) l = Some q /\ q_name q = x /\ q_kind q = KParameter) /\
  exists e, In e (b_eqs b) /\ uses_parameter (pw_heap (fst s)) x e.
Proof.
  intros R H. destruct (resolved_block _ _ _ R) as (G & B & _ & _). destruct R as [R Hb].
  unfold sim_getitem, sim_over in H. simpl in H. rewrite Hb in H.
  destruct (dget x (b_pars b)) as [l'|] eqn:E; [|discriminate]. injection H as ->.
  apply dget_some_in in E. apply (bf_pars _ _ B) in E. destruct E as [E1 E2]. split; [|exact E2].
  assert (P : pars_ok s).
  { replace s with (fst (do_act (run_acts start_session acts) AResolve)) by now rewrite R.
    apply do_act_pars; [apply run_good, start_good|]. apply run_pars; [apply start_good|]. intros y k []. }
  exact (P x l E1).
Qed.

Lemma lookup_collected acts s b c o d st x : resolved acts s b ->
  (exists l, sim_getitem (sim_over (snd s) c o d st) (KStr x) = Ok l) <->
  In x (dkeys (pr_pars (snd s))) /\ exists e, In e (b_eqs b) /\ uses_parameter (pw_heap (fst s)) x e.
Proof.
  intros R. destruct (resolved_block _ _ _ R) as (G & B & _ & _).
  unfold sim_getitem, sim_over. simpl. rewrite (proj2 R). split.
  - intros [l H]. destruct (dget x (b_pars b)) as [l'|] eqn:E; [|discriminate].
    apply dget_some_in in E. apply (bf_pars _ _ B) in E. destruct E as [E1 E2]. split; [|exact E2].
    apply in_map_iff. now exists (x, l').
  - intros [H E]. apply in_map_iff in H. destruct H as [[y l] [Ey H]]. simpl in Ey. subst y.
    assert (I : In (x, l) (b_pars b)) by (apply (bf_pars _ _ B); split; [exact H|exact E]).
    rewrite (in_dget_nodup _ _ _ (block_pars_nodup _ _ _ R) I). eauto.
Qed.

(** Which parameters a problem has collected. *)
Lemma pr_pars_trace acts x : In x (dkeys (pr_pars (snd (run_acts start_session acts)))) <-> parameter_when_added acts x.
Proof.
  induction acts as [|a acts IH] using rev_ind.
  - simpl. split; [intros []|]. intros (b & i & c & m & E & _). destruct b; discriminate.
  - rewrite run_acts_app. simpl. destruct (run_acts start_session acts) as [w p] eqn:Es.
    assert (G : good (w, p)) by (rewrite <- Es; apply run_good, start_good).
    destruct (do_act (w, p) a) as [[w' p'] r] eqn:E. simpl in *.
    assert (Ext : parameter_when_added acts x -> parameter_when_added (acts ++ [a]) x).
    { intros (b & i & c & m & Eq & Hm). exists b, i, (c ++ [a]), m. split; [rewrite Eq, <- app_assoc; reflexivity|exact Hm]. }
    assert (Inv : parameter_when_added (acts ++ [a]) x -> parameter_when_added acts x \/
              exists i m, a = AAdd i /\ model_of (w, p) i = Some m /\ In x (dkeys (m_pars m))).
    { intros (b & i & c & m & Eq & Hm). destruct c as [|y c] using rev_ind.
      - right. apply app_inj_tail in Eq. destruct Eq as [-> ->]. rewrite Es in Hm. exists i, m. tauto.
      - clear IHc. left. rewrite app_comm_cons, app_assoc in Eq. apply app_inj_tail in Eq. destruct Eq as [-> _].
        exists b, i, c, m. auto. }
    destruct (do_act_step w p a w' p' r (g_ok _ G) E) as [S [(i & -> & -> & -> & Gi)|((E1 & E2 & E3) & No)]].
    + unfold add_model. destruct (get_model w i) as [[m d]|] eqn:Gm; [|congruence]. simpl. rewrite in_dkeys_dupdate, IH. split.
      * intros [H|H]; [now apply Ext|]. exists acts, i, [], m. split; [reflexivity|]. rewrite Es. unfold model_of. simpl. rewrite Gm. auto.
      * intros H. apply Inv in H. destruct H as [H|(j & m' & Ej & Hm & Hin)]; [now left|right]. injection Ej as <-.
        unfold model_of in Hm. simpl in Hm. rewrite Gm in Hm. injection Hm as <-. exact Hin.
    + rewrite E3, IH. split; [exact Ext|]. intros H. apply Inv in H. destruct H as [H|(j & m' & -> & Hm & Hin)]; [exact H|].
      exfalso. unfold model_of in Hm. simpl in Hm. now rewrite (No j eq_refl) in Hm.
Qed.

Lemma lookup_decided acts s b c o d st x : resolved acts s b ->
  ((exists l, sim_getitem (sim_over (snd s) c o d st) (KStr x) = Ok l) <->
   parameter_when_added acts x /\ exists e, In e (b_eqs b) /\ uses_parameter (pw_heap (fst s)) x e) /\
  (forall y, sim_getitem (sim_over (snd s) c o d st) (KStr x) = Raise y -> y = EKey).
Proof.
  intros R. split.
  - rewrite (lookup_collected acts s b c o d st x R). destruct (resolved_block _ _ _ R) as (_ & _ & (_ & _ & E3) & _).
    rewrite E3, (pr_pars_trace acts x). reflexivity.
  - unfold sim_getitem, sim_over. simpl. rewrite (proj2 R). destruct (dget x (b_pars b)); congruence.
Qed.

Lemma grows_length h h' : grows h h' -> (List.length h <= List.length h')%nat.
Proof.
  intros G. destruct (Nat.le_gt_cases (List.length h) (List.length h')) as [H|H]; [exact H|exfalso].
  destruct (hget h (List.length h')) as [q|] eqn:E.
  - destruct (G _ _ E) as (q' & E' & _). unfold hget in E'. assert (nth_error h' (List.length h') <> None) by congruence.
    apply nth_error_Some in H0. lia.
  - unfold hget in E. apply nth_error_None in E. lia.
Qed.

Lemma reload_other is : forall w w' i, reload w is = (w', Ok tt) -> ~ In i is -> get_model w' i = get_model w i.
Proof.
  induction is as [|j is IH]; intros w w' i H N; simpl in H; [now injection H as <-|].
  destruct (on_model w j model_call) as [w1 [[]|x]] eqn:E; [|discriminate].
  rewrite (IH _ _ _ H) by (intros I; apply N; now right).
  apply on_model_spec in E. destruct E as [(_ & _ & E)|(m & d & w2 & _ & _ & _ & _ & Go & _)]; [discriminate|].
  apply Go. intros ->. apply N. now left.
Qed.

Lemma reload_fresh is : forall w w' i m d k e, wok w -> reload w is = (w', Ok tt) -> In i is ->
  get_model w' i = Some (m, d) -> named d = true -> runs (m_name m) d -> declares (m_name m) d k ->
  dget k (m_eqs m) = Some e -> ein (fun l => (List.length (pw_heap w) <= l)%nat) e.
Proof.
  induction is as [|j is IH]; intros w w' i m d k e O H I G Nm Rn Dk Ek; [destruct I|]. simpl in H.
  destruct (on_model w j model_call) as [w1 [[]|x]] eqn:E; [|discriminate].
  assert (S : wstep w w1).
  { apply (on_model_step w j model_call w1 _ O) with (2 := E). intros m0 d0 w2 r2 _ F. exact (run_cmds_tr _ _ _ _ F). }
  destruct (in_dec Nat.eq_dec i is) as [I2|I2].
  - assert (X := IH _ _ _ _ _ _ _ (ws_ok _ _ S) H I2 G Nm Rn Dk Ek).
    assert (L := grows_length _ _ (ws_grows _ _ S)). apply ein_le with (2 := X). simpl. lia.
  - destruct I as [->|I]; [|contradiction]. rewrite (reload_other _ _ _ _ H I2) in G.
    apply on_model_spec in E. destruct E as [(_ & _ & E)|(m0 & d0 & w2 & G0 & F & Hh & G2 & Go & L)]; [discriminate|].
    rewrite G2 in G. injection G as <- <-.
    destruct (ws_models _ _ S i m0 d0 G0) as (m' & G' & N' & _). rewrite G2 in G'. injection G' as <-.
    unfold runs in Rn. unfold declares in Dk.
    destruct (model_call d0 (mkW [] (fun _ => 0%nat) (new_model (m_name (w_mod w2))))) as [A r] eqn:EA. simpl in Rn, Dk. subst r.
    set (B := mkW (pw_heap w) (pw_uids w) m0) in *.
    assert (NB : m_name (w_mod B) = m_name (w_mod w2)) by (unfold B; simpl; congruence).
    destruct (run_cmds_sim [] (w_heap B) _ [] _ _ B Nm EA (sim_start [] _ _ B NB)) as (B' & c & R & Sm & _).
    unfold model_call in F. rewrite R in F. injection F as <-.
    apply in_keys_dget in Dk. destruct Dk as [e0 E0]. destruct (s_eqs _ _ _ _ _ Sm _ _ E0) as [_ D]. rewrite D in Ek. injection Ek as <-.
    unfold ein. simpl. assert (Q : forall n, nin (fun l => (List.length (pw_heap w) <= l)%nat) (nmap (sh [] (w_heap B)) n)).
    { intros n. split; intros y l Hin; simpl in Hin; unfold dmap in Hin; apply in_map_iff in Hin; destruct Hin as [[y' l'] [X _]]; injection X as <- <-; unfold sh, B; simpl; lia. }
    destruct (eq_expr e0), (eq_elem e0) as [[a b]|]; simpl; auto.
Qed.

Lemma lookup_stale acts s b c o dm st x l i m d k e : resolved acts s b ->
  sim_getitem (sim_over (snd s) c o dm st) (KStr x) = Ok l ->
  In i (dvals (pr_models (snd s))) -> get_model (fst s) i = Some (m, d) -> named d = true -> runs (m_name m) d ->
  declares (m_name m) d k -> dget k (m_eqs m) = Some e -> ~ refers e l.
Proof.
  intros R H I G Nm Rn Dk Ek (n & y & En & Hin). destruct (resolved_block _ _ _ R) as (_ & B & (C1 & _ & C3) & _).
  unfold sim_getitem, sim_over in H. simpl in H. rewrite (proj2 R) in H.
  destruct (dget x (b_pars b)) as [l'|] eqn:E; [|discriminate]. injection H as ->.
  apply dget_some_in in E. apply (bf_pars _ _ B) in E. destruct E as [E1 _].
  assert (G0 : good (run_acts start_session acts)) by (apply run_good, start_good).
  destruct (run_acts start_session acts) as [w p] eqn:Es. simpl in C1, C3. rewrite C3 in E1. rewrite C1 in I.
  destruct R as [R _]. rewrite Es in R. cbn [do_act] in R. unfold presolve in R.
  destruct (reload w (dvals (pr_models p))) as [w' [[]|z]] eqn:Er; [|discriminate].
  assert (Ew : fst s = w').
  { destruct (build_block w' p) as [b0|z]; [|discriminate]. destruct (block_call b0) as [b' r]. now injection R as <- _. }
  rewrite Ew in G. destruct (reload_fresh _ _ _ _ _ _ _ _ (g_ok _ G0) Er I G Nm Rn Dk Ek) as [F _]. rewrite En in F.
  assert (Q : (List.length (pw_heap w) <= l)%nat) by (destruct F as [F1 F2]; destruct Hin as [Hin|Hin]; eauto).
  assert (X := g_pars _ G0 x l E1). simpl in X. apply nth_error_Some in X. lia.
Qed.

Lemma lookup_object sm q : sim_getitem sm (KQty q) = sim_getitem sm (KStr (q_name q)).
Proof. unfold sim_getitem. destruct (sm_problem sm) as [p|]; [|reflexivity]. destruct (pr_block p); reflexivity. Qed.

(** Anything but a name or a quantity is refused; before a problem is resolved there
    is nothing to look in. *)
Lemma lookup_refused sm :
  sim_getitem sm KOther = Raise EUnexpectedValue /\
  (forall x, (sm_problem sm = None \/ exists p, sm_problem sm = Some p /\ pr_block p = None) ->
     sim_getitem sm (KStr x) = Raise EAttribute).
Proof.
  unfold sim_getitem. split.
  - destruct (sm_problem sm) as [p|]; [|reflexivity]. destruct (pr_block p); reflexivity.
  - intros x [->|(p & -> & ->)]; reflexivity.
Qed.

(** A resolve run inside the kernel. *)
Definition after (acts : list act) : SpecProblem.session := fst (do_act (run_acts start_session acts) AResolve).
Definition block_after (acts : list act) : block := match pr_block (snd (after acts)) with Some b => b | None => block_init [] [] [] end.
Definition well (acts : list act) : bool :=
  match snd (do_act (run_acts start_session acts) AResolve), pr_block (snd (after acts)) with Ok _, Some _ => true | _, _ => false end.
Lemma run_after acts : well acts = true -> resolved acts (after acts) (block_after acts).
Proof.
  unfold well, block_after, resolved. intros H. destruct (snd (do_act (run_acts start_session acts) AResolve)) as [[]|] eqn:E; [|discriminate].
  destruct (pr_block (snd (after acts))) eqn:B; [|discriminate]. split; [|reflexivity].
  unfold after. destruct (do_act (run_acts start_session acts) AResolve). simpl in *. now subst.
Qed.
