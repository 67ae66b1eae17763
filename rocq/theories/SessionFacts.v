(** Facts about sessions of user actions (C24, C25, C26). *)
From Verif Require Import Base BaseFacts Num NumFacts UnitModel UnitFacts Sympy Node Build EquationModel ModelModel ProblemModel
  SpecUnits UnitThms SpecExpr SpecQty QtyFacts SpecModel BuildFacts EquationFacts ModelFacts SpecInc IncFacts SpecCall CallFacts
  SpecProblem ProblemFacts.
From Coq Require Import Reals Permutation.
Notation num := Verif.Num.num.

Record astep (w w' : pworld) : Prop := mkAS {
  as_grows : grows (pw_heap w) (pw_heap w');
  as_models : forall i m d, get_model w i = Some (m, d) ->
     exists m', get_model w' i = Some (m', d) /\ m_name m' = m_name m /\ kincl m m';
  as_ok : wok w' }.
Lemma ws_as w w' : wstep w w' -> astep w w'.
Proof. intros []. now constructor. Qed.
Lemma astep_refl w : wok w -> astep w w.
Proof. intros. now apply ws_as, wstep_refl. Qed.
Lemma astep_trans a b c : astep a b -> astep b c -> astep a c.
Proof.
  intros A B. constructor.
  - exact (grows_trans _ _ _ (as_grows _ _ A) (as_grows _ _ B)).
  - intros i m d G. destruct (as_models _ _ A i m d G) as (m1 & G1 & N1 & K1).
    destruct (as_models _ _ B i m1 d G1) as (m2 & G2 & N2 & K2). exists m2. split; [exact G2|].
    split; [congruence|exact (kincl_trans _ _ _ K1 K2)].
  - exact (as_ok _ _ B).
Qed.

(** What an action does to the problem. *)
Definition same_collected (p p' : problem) : Prop :=
  pr_models p' = pr_models p /\ pr_vars p' = pr_vars p /\ pr_pars p' = pr_pars p.

Lemma new_model_ok h n : model_ok h (new_model n).
Proof. repeat split; simpl; try constructor; intros ? ? []. Qed.

Lemma set_puids_ok w pu : wok w -> wok (mkPW (pw_heap w) (pw_uids w) pu (pw_models w)).
Proof. exact (fun H => H). Qed.

Lemma connect_vars_step w p m1 m2 outs ins x w' p' r : wok w ->
  (forall a, x = Some a -> a = EAOther \/ exists q, build_eq (pw_heap w) q = Ok a) ->
  connect_vars w p m1 m2 outs ins x = (w', p', r) -> astep w w' /\ same_collected p p'.
Proof.
  intros O Hx H. unfold connect_vars in H.
  assert (Z : astep w w /\ same_collected p p) by (split; [now apply astep_refl|now repeat split]).
  destruct (get_model w m2) as [[s2 d2]|]; [|injection H as <- <- _; exact Z].
  destruct (match m1 with CMName _ => _ | CMModel i => _ end) as [s1|e]; [|injection H as <- <- _; exact Z].
  destruct (forallb _ (cv_list ins) && forallb _ (cv_list outs)).
  2: { destruct ins, outs; injection H as <- <- _; exact Z. }
  destruct (match x with Some a => Ok a | None => balance _ _ _ end) as [a|e] eqn:Ea; [|injection H as <- <- _; exact Z].
  assert (Ha : a = EAOther \/ exists q, build_eq (pw_heap w) q = Ok a).
  { destruct x as [a'|]; [injection Ea as ->; now apply Hx|].
    apply balance_built in Ea. destruct Ea as [(-> & _)|(e & _ & Hb)]; [now left|right; eauto]. }
  destruct (rbind (qty_names (pw_heap w) (cv_list outs)) _) as [[o i]|e]; [|injection H as <- <- _; exact Z].
  destruct (on_model w m2 _) as [w2 r2] eqn:E.
  assert (S : wstep w w2).
  { apply (on_model_step _ _ _ _ _ O) with (2 := E). intros m d w3 r3 _ F.
    exact (model_connection_tr (mkW (pw_heap w) (pw_uids w) m) _ _ _ _ _ Ha F). }
  destruct r2 as [e|e]; injection H as <- <- _; (split; [now apply ws_as|now repeat split]).
Qed.

Lemma connect_nodes_step w p m1 m2 out inp o i w' p' r : wok w ->
  build (pw_heap w) out = Ok o -> build (pw_heap w) inp = Ok i ->
  connect_nodes w p m1 m2 o i = (w', p', r) -> astep w w' /\ same_collected p p'.
Proof.
  intros O Ho Hi H. unfold connect_nodes in H.
  destruct (get_model w m2) as [[s2 d2]|]; [|injection H as <- <- _; split; [now apply astep_refl|now repeat split]].
  destruct (match m1 with CMName _ => _ | CMModel i => _ end) as [pu r0].
  set (w0 := mkPW (pw_heap w) (pw_uids w) pu (pw_models w)) in *.
  assert (O0 : wok w0) by now apply set_puids_ok.
  assert (Z : astep w w0 /\ same_collected p p).
  { split; [|now repeat split]. constructor; [apply grows_refl| |exact O0].
    intros j m d G. exists m. split; [exact G|]. split; [reflexivity|apply kincl_refl]. }
  destruct r0 as [n1|e]; [|injection H as <- <- _; exact Z].
  destruct (node_sub i (ONode o)) as [d|e] eqn:Ed; [|injection H as <- <- _; exact Z].
  assert (Hb : build_eq (pw_heap w) (UResid (UBin BSub inp out)) = Ok (EANode d)).
  { cbn [build_eq build]. rewrite Hi, Ho. cbn [rbind node_op]. now rewrite Ed. }
  destruct (on_model w0 m2 _) as [w2 r2] eqn:E.
  assert (S : wstep w0 w2).
  { apply (on_model_step _ _ _ _ _ O0) with (2 := E). intros m dd w3 r3 _ F.
    exact (tr_create (mkW (pw_heap w) (pw_uids w) m) _ _ _ _ _ _ Hb F). }
  assert (Z2 : astep w w2 /\ same_collected p p) by (split; [exact (astep_trans _ _ _ (proj1 Z) (ws_as _ _ S))|now repeat split]).
  destruct r2 as [e|e]; injection H as <- <- _; exact Z2.
Qed.

Lemma do_act_step w p a w' p' r : wok w -> do_act (w, p) a = ((w', p'), r) ->
  astep w w' /\ ((exists i, a = AAdd i /\ w' = w /\ p' = add_model w p i /\ get_model w i <> None) \/
                 (same_collected p p' /\ (forall i, a = AAdd i -> get_model w i = None))).
Proof.
  intros O H. destruct a as [n d|i c|i|i j f|i|m1 m2 outs ins e|m1 m2 out inp|names|c|]; simpl in H.
  - injection H as <- <- _. split; [|right; split; [now repeat split|discriminate]]. constructor; [apply grows_refl| |].
    + intros i m dd G. exists m. split; [|split; [reflexivity|apply kincl_refl]].
      unfold get_model in *. simpl. rewrite nth_error_app1; [exact G|]. apply nth_error_Some. congruence.
    + destruct O as [O1 O2]. split.
      * intros i m dd G. unfold get_model in *. simpl in *.
        destruct (Nat.lt_ge_cases i (List.length (pw_models w))) as [L|L].
        -- rewrite nth_error_app1 in G by exact L. exact (O1 i m dd G).
        -- rewrite nth_error_app2 in G by exact L. destruct (i - _)%nat as [|k]; [|destruct k; discriminate].
           injection G as <- <-. apply new_model_ok.
      * intros l q G K. destruct (O2 l q G K) as (i & m & dd & Gm & Hin). exists i, m, dd. split; [|exact Hin].
        unfold get_model in *. simpl. rewrite nth_error_app1; [exact Gm|]. apply nth_error_Some. congruence.
  - destruct (on_model w i _) as [w1 r1] eqn:E. injection H as <- <- _.
    split; [|right; split; [now repeat split|discriminate]]. apply ws_as, (on_model_step _ _ _ _ _ O) with (2 := E).
    intros m d w3 r3 _ F. exact (run_cmd_tr _ _ _ _ F).
  - destruct (on_model w i _) as [w1 r1] eqn:E. injection H as <- <- _.
    split; [|right; split; [now repeat split|discriminate]]. apply ws_as, (on_model_step _ _ _ _ _ O) with (2 := E).
    intros m d w3 r3 _ F. exact (run_cmds_tr _ _ _ _ F).
  - destruct (get_model w j) as [[dm dd]|] eqn:Gj.
    2: { injection H as <- <- _. split; [now apply astep_refl|]. right; split; [now repeat split|discriminate]. }
    destruct (on_model w i _) as [w1 r1] eqn:E. injection H as <- <- _.
    split; [|right; split; [now repeat split|discriminate]]. apply ws_as, (on_model_step _ _ _ _ _ O) with (2 := E).
    intros m d w3 r3 Gi F. simpl in F. destruct (incorporate (pw_heap w) m dm f) as [[h3 m3] r4] eqn:Ei.
    injection F as <- _. simpl. exact (incorporate_tr _ _ _ _ _ _ _ (proj1 O i m d Gi) (proj1 O j dm dd Gj) Ei).
  - destruct (get_model w i) as [md|] eqn:G; injection H as <- <- _; (split; [now apply astep_refl|]).
    + left. exists i. repeat split. congruence.
    + right. split; [now repeat split|]. intros i' E. injection E as <-. exact G.
  - destruct (match e with None => Ok None | Some q => _ end) as [x|x] eqn:Ex.
    2: { injection H as <- <- _. split; [now apply astep_refl|]. right; split; [now repeat split|discriminate]. }
    destruct (connect_vars_step w p m1 m2 outs ins x w' p' r O) as [A B]; [|exact H|].
    + intros a ->. destruct e as [q|]; [|discriminate]. binv. right. exists q. rewrite Hb. congruence.
    + split; [exact A|]. right. split; [exact B|discriminate].
  - destruct (rbind (build (pw_heap w) out) _) as [[o i]|x] eqn:Ex.
    2: { injection H as <- <- _. split; [now apply astep_refl|]. right; split; [now repeat split|discriminate]. }
    binv. destruct (connect_nodes_step w p m1 m2 out inp o i w' p' r O Hb Hb0 H) as [A B].
    split; [exact A|]. right. split; [exact B|discriminate].
  - injection H as <- <- _. split; [now apply astep_refl|]. right; split; [now repeat split|discriminate].
  - injection H as <- <- _. split; [now apply astep_refl|]. right; split; [now repeat split|discriminate].
  - unfold presolve in H. destruct (reload w (dvals (pr_models p))) as [w1 r1] eqn:E.
    assert (S := ws_as _ _ (reload_step _ _ _ _ O E)). destruct r1 as [[]|x].
    + destruct (build_block w1 p) as [b|x].
      * destruct (block_call b) as [b' r']. injection H as <- <- _. split; [exact S|]. right; split; [now repeat split|discriminate].
      * injection H as <- <- _. split; [exact S|]. right; split; [now repeat split|discriminate].
    + injection H as <- <- _. split; [exact S|]. right; split; [now repeat split|discriminate].
Qed.

(** ** Invariant of all sessions *)
Record good (s : session) : Prop := mkGood {
  g_ok : wok (fst s);
  g_keys : NoDup (dkeys (pr_models (snd s)));
  g_vars : NoDup (dkeys (pr_vars (snd s)));
  g_named : forall k i, In (k, i) (pr_models (snd s)) ->
              exists m d, get_model (fst s) i = Some (m, d) /\ m_name m = k;
  g_pars : forall x l, In (x, l) (pr_pars (snd s)) -> hget (pw_heap (fst s)) l <> None }.

Lemma in_dupdate {V} k (v : V) d e : In (k, v) (dupdate d e) -> In (k, v) d \/ In (k, v) e.
Proof.
  revert d. induction e as [|[k' v'] e IH]; intros d; [now left|]. rewrite dupdate_cons. intros H. apply IH in H.
  destruct H as [H|H]; [|right; now right]. apply in_dset in H. destruct H as [[-> ->]|H]; [right; now left|now left].
Qed.

Lemma start_good : good start_session.
Proof.
  constructor; [split| | | |].
  - intros i m d G. unfold get_model in G. destruct i; discriminate.
  - intros l q G. destruct l; discriminate.
  - constructor.
  - constructor.
  - intros k i [].
  - intros x l [].
Qed.

Lemma do_act_good s a : good s -> good (fst (do_act s a)).
Proof.
  intros [O K V N Pa]. destruct s as [w p]. destruct (do_act (w, p) a) as [[w' p'] r] eqn:E. simpl in *.
  destruct (do_act_step _ _ _ _ _ _ O E) as [S [(i & -> & -> & -> & G)|((E1 & E2 & E3) & _)]].
  - unfold add_model. destruct (get_model w i) as [[m d]|] eqn:Gi; [|congruence]. constructor; simpl; auto.
    + now apply nodup_dset.
    + now apply nodup_dupdate.
    + intros k j Hin. apply in_dset in Hin. destruct Hin as [[-> ->]|Hin]; [eauto|now apply N].
    + intros x l Hin. apply in_dupdate in Hin. destruct Hin as [Hin|Hin]; [now apply (Pa x)|].
      destruct (proj1 O i m d Gi) as (_ & [_ Hp] & _). destruct (Hp x l Hin) as (q & Hq & _). congruence.
  - constructor; simpl; rewrite ?E1, ?E2, ?E3; auto.
    + exact (as_ok _ _ S).
    + intros k i Hin. destruct (N k i Hin) as (m & d & G & Nm). destruct (as_models _ _ S i m d G) as (m' & G' & N' & _).
      exists m', d. split; [exact G'|congruence].
    + intros x l Hin. specialize (Pa x l Hin). destruct (hget (pw_heap w) l) as [q|] eqn:Hq; [|congruence].
      destruct (as_grows _ _ S l q Hq) as (q' & Hq' & _). congruence.
Qed.

Lemma run_acts_app a b : forall s, run_acts s (a ++ b) = run_acts (run_acts s a) b.
Proof. induction a as [|x a IH]; intros s; simpl; auto. Qed.
Lemma run_good acts : forall s, good s -> good (run_acts s acts).
Proof. induction acts as [|a acts IH]; intros s G; simpl; [exact G|]. apply IH, do_act_good, G. Qed.
Lemma run_step acts : forall s, good s -> astep (fst s) (fst (run_acts s acts)).
Proof.
  induction acts as [|a acts IH]; intros s G; simpl; [apply astep_refl, (g_ok _ G)|].
  destruct s as [w p]. destruct (do_act (w, p) a) as [[w' p'] r] eqn:E.
  destruct (do_act_step _ _ _ _ _ _ (g_ok _ G) E) as [S _]. eapply astep_trans; [exact S|].
  apply (IH (w', p')). replace (w', p') with (fst (do_act (w, p) a)) by now rewrite E. now apply do_act_good.
Qed.

(** ** Which models a problem has *)
Lemma added_app a b : forall s, added_from s (a ++ b) = added_from s a ++ added_from (run_acts s a) b.
Proof. induction a as [|x a IH]; intros s; simpl; [reflexivity|]. now rewrite IH, app_assoc. Qed.

Lemma filter_filter_ne x y (l : list nat) :
  filter (fun z => negb (Nat.eqb y z)) (filter (fun z => negb (Nat.eqb x z)) l) =
  filter (fun z => negb (Nat.eqb x z)) (filter (fun z => negb (Nat.eqb y z)) l).
Proof. induction l as [|z l IH]; simpl; [reflexivity|]. destruct (Nat.eqb x z) eqn:A, (Nat.eqb y z) eqn:B; simpl; rewrite ?A, ?B; simpl; now rewrite ?IH. Qed.
Lemma firsts_in x l : In x (firsts l) <-> In x l.
Proof.
  induction l as [|y l IH]; simpl; [tauto|]. rewrite filter_In, IH.
  destruct (Nat.eqb_spec y x) as [->|Hne]; simpl; intuition.
Qed.
Lemma firsts_snoc l x : firsts (l ++ [x]) = if existsb (Nat.eqb x) l then firsts l else firsts l ++ [x].
Proof.
  induction l as [|y l IH]; simpl; [reflexivity|]. rewrite IH. destruct (Nat.eqb_spec x y) as [->|Hne]; simpl.
  - f_equal. destruct (existsb (Nat.eqb y) l); [reflexivity|]. rewrite filter_app. simpl. rewrite Nat.eqb_refl. simpl. now rewrite app_nil_r.
  - destruct (existsb (Nat.eqb x) l); [reflexivity|]. rewrite filter_app. simpl.
    destruct (Nat.eqb_spec y x) as [->|_]; [congruence|]. reflexivity.
Qed.
Lemma firsts_nodup l : NoDup (firsts l).
Proof.
  induction l as [|x l IH]; simpl; constructor.
  - rewrite filter_In. intros [_ H]. now rewrite Nat.eqb_refl in H.
  - now apply NoDup_filter.
Qed.

Lemma dset_same {V} k (v : V) d : dget k d = Some v -> dset k v d = d.
Proof.
  induction d as [|[k' v'] r IH]; simpl; [discriminate|]. destruct (String.eqb_spec k k') as [->|Hne].
  - intros H. injection H as <-. reflexivity.
  - intros H. now rewrite IH.
Qed.

Definition name_of (s : session) (i : nat) : option string := option_map m_name (model_of s i).

Lemma name_stable acts s i n : good s -> name_of s i = Some n -> name_of (run_acts s acts) i = Some n.
Proof.
  intros G. unfold name_of, model_of. destruct (get_model (fst s) i) as [[m d]|] eqn:E; [|discriminate]. simpl. intros H. injection H as <-.
  destruct (as_models _ _ (run_step acts s G) i m d E) as (m' & G' & N & _). rewrite G'. simpl. congruence.
Qed.

Lemma added_exist acts : forall s, good s -> forall i, In i (added_from s acts) -> exists n, name_of (run_acts s acts) i = Some n.
Proof.
  induction acts as [|a acts IH]; intros s G i Hin; simpl in Hin; [destruct Hin|].
  apply in_app_iff in Hin. destruct Hin as [Hin|Hin].
  - destruct a; try contradiction. destruct (get_model (fst s) i0) as [[m d]|] eqn:E; [|destruct Hin].
    destruct Hin as [<-|[]]. exists (m_name m). apply name_stable; [exact G|].
    unfold name_of, model_of. now rewrite E.
  - apply (IH _ (do_act_good _ _ G) _ Hin).
Qed.

Lemma added_models acts :
  (forall i j n, In i (added acts) -> In j (added acts) -> name_of (run_acts start_session acts) i = Some n ->
     name_of (run_acts start_session acts) j = Some n -> i = j) ->
  dvals (pr_models (snd (run_acts start_session acts))) = added acts.
Proof.
  induction acts as [|a acts IH] using rev_ind; intros D; [reflexivity|].
  unfold added in *. rewrite added_app in *. rewrite run_acts_app in *. simpl run_acts in *. simpl added_from in *.
  set (s := run_acts start_session acts) in *. assert (G : good s) by (apply run_good, start_good).
  rewrite app_nil_r in *.
  assert (IH' : dvals (pr_models (snd s)) = firsts (added_from start_session acts)).
  { apply IH. intros i j n Hi Hj Ni Nj. apply (D i j n).
    - rewrite firsts_in in *. apply in_app_iff. now left.
    - rewrite firsts_in in *. apply in_app_iff. now left.
    - exact (name_stable [a] s i n G Ni).
    - exact (name_stable [a] s j n G Nj). }
  destruct s as [w p] eqn:Es. destruct (do_act (w, p) a) as [[w' p'] r] eqn:E. simpl in *.
  destruct (do_act_step w p a w' p' r (g_ok _ G) E) as [S [(i & -> & -> & -> & Gi)|((E1 & E2 & E3) & No)]].
  2: { rewrite E1, IH'. destruct a; rewrite ?app_nil_r; try reflexivity. rewrite (No i eq_refl), app_nil_r. reflexivity. }
  destruct (get_model w i) as [[m d]|] eqn:Em; [|congruence]. rewrite firsts_snoc.
  assert (Ni : name_of (w, p) i = Some (m_name m)) by (unfold name_of, model_of; simpl; now rewrite Em).
  assert (Hsame : forall j, In (m_name m, j) (pr_models p) -> In i (firsts (added_from start_session acts ++ [i])) /\
                            In j (firsts (added_from start_session acts ++ [i])) -> j = i).
  { intros j Hj [Hi Hj']. destruct (g_named _ G _ _ Hj) as (mj & dj & Gj & Nj). simpl in Gj.
    apply (D j i (m_name m) Hj' Hi); unfold name_of, model_of; simpl; [rewrite Gj; simpl; congruence|now rewrite Em]. }
  assert (Hin : forall j k, In (k, j) (pr_models p) -> In j (added_from start_session acts)).
  { intros j k Hj. apply (proj1 (firsts_in j _)). rewrite <- IH'. apply in_map_iff. exists (k, j). auto. }
  unfold add_model. rewrite Em. simpl.
  destruct (existsb (Nat.eqb i) (added_from start_session acts)) eqn:Ex.
  - apply existsb_exists in Ex. destruct Ex as [j [Hj Eij]]. apply Nat.eqb_eq in Eij. subst j.
    assert (Hv : In i (dvals (pr_models p))) by (rewrite IH'; now apply firsts_in).
    apply in_map_iff in Hv. destruct Hv as [[k i'] [Ei Hk]]. simpl in Ei. subst i'.
    destruct (g_named _ G _ _ Hk) as (m' & d' & G' & N'). simpl in G'. assert (m' = m) by congruence. subst m'. subst k.
    rewrite dset_same; [exact IH'|]. apply in_dget_nodup; [exact (g_keys _ G)|exact Hk].
  - rewrite dset_notin.
    + unfold dvals in *. rewrite map_app. simpl. now rewrite IH'.
    + intros Hk. apply in_map_iff in Hk. destruct Hk as [[k j] [Ek Hk]]. simpl in Ek. subst k.
      assert (j = i).
      { apply Hsame; [exact Hk|]. rewrite !firsts_in, !in_app_iff. split; [right; now left|left; exact (Hin _ _ Hk)]. }
      subst j. apply Hin in Hk. assert (existsb (Nat.eqb i) (added_from start_session acts) = true).
      { apply existsb_exists. exists i. split; [exact Hk|apply Nat.eqb_refl]. }
      congruence.
Qed.

(** ** The block *)
Lemma all_equations_ok w is es : all_equations w is = Ok es -> es = equations_of (w, new_problem) is.
Proof.
  revert es. induction is as [|i is IH]; intros es H; simpl in H; [now injection H as <-|].
  unfold equations_of. simpl. unfold model_of. simpl. destruct (get_model w i) as [[m d]|] eqn:G; [|discriminate].
  binv. simpl. f_equal. now apply IH.
Qed.
Lemma equations_of_world w p p' is : equations_of (w, p) is = equations_of (w, p') is.
Proof. reflexivity. Qed.

Lemma all_equations_total w is : (forall i, In i is -> get_model w i <> None) -> exists es, all_equations w is = Ok es.
Proof.
  induction is as [|i is IH]; intros H; simpl; [eauto|].
  destruct (get_model w i) as [[m d]|] eqn:G; [|now destruct (H i (or_introl eq_refl))].
  destruct IH as [es E]; [intros j Hj; apply H; now right|]. rewrite E. simpl. eauto.
Qed.

Lemma equations_ok_all w is e : wok w -> In e (equations_of (w, new_problem) is) -> eqn_ok (pw_heap w) e.
Proof.
  intros O H. apply in_flat_map in H. destruct H as [i [_ H]]. unfold model_of in H. simpl in H.
  destruct (get_model w i) as [[m d]|] eqn:G; simpl in H; [|destruct H].
  apply in_map_iff in H. destruct H as [[k e'] [<- Hin]].
  destruct (proj1 O i m d G) as (_ & _ & _ & _ & Q). exact (Q k e' Hin).
Qed.

Lemma names_of_spec h k ls ns : names_of h k ls = Ok ns ->
  forall x, In x ns <-> exists l q, In l ls /\ hget h l = Some q /\ q_kind q = k /\ q_name q = x.
Proof.
  revert ns. induction ls as [|l ls IH]; intros ns H x; simpl in H.
  - injection H as <-. split; [intros []|intros (l & q & [] & _)].
  - destruct (hget h l) as [q|] eqn:G; [|discriminate]. binv.
    assert (IH' := IH x0 Hb x). destruct (qkind_eqb (q_kind q) k) eqn:K.
    + simpl. rewrite IH'. split.
      * intros [<-|(l' & q' & A & B)]; [|exists l', q'; split; [now right|exact B]]. exists l, q. repeat split; auto.
        destruct (q_kind q), k; simpl in K; congruence.
      * intros (l' & q' & [<-|A] & B & C & D); [left; congruence|right; eauto 10].
    + rewrite IH'. split.
      * intros (l' & q' & A & B). exists l', q'. split; [now right|exact B].
      * intros (l' & q' & [<-|A] & B & C & D); [|eauto 10]. exfalso. assert (q' = q) by congruence. subst.
        destruct (q_kind q); discriminate.
Qed.
Lemma names_of_total h k ls : (forall l, In l ls -> hget h l <> None) -> exists ns, names_of h k ls = Ok ns.
Proof.
  induction ls as [|l ls IH]; intros H; simpl; [eauto|].
  destruct (hget h l) as [q|] eqn:G; [|now destruct (H l (or_introl eq_refl))].
  destruct IH as [ns E]; [intros i Hi; apply H; now right|]. rewrite E. simpl. eauto.
Qed.

Definition uses_kind (k : qkind) (h : heap) (x : string) (e : eqn) : Prop :=
  exists d y l q, eq_objs e = Some d /\ In (y, l) d /\ hget h l = Some q /\ q_kind q = k /\ q_name q = x.

Lemma used_names_spec h k es ns : used_names h k es = Ok ns ->
  forall x, In x ns <-> exists e, In e es /\ uses_kind k h x e.
Proof.
  revert ns. induction es as [|e es IH]; intros ns H x; simpl in H.
  - injection H as <-. split; [intros []|intros (e & [] & _)].
  - binv. rewrite in_app_iff, (IH _ Hb0 x). unfold eq_names in Hb. destruct (eq_objs e) as [d|] eqn:Eo; [|discriminate].
    rewrite (names_of_spec _ _ _ _ Hb x). split.
    + intros [(l & q & A & B & C & D)|(e' & A & B)].
      * exists e. split; [now left|]. apply in_map_iff in A. destruct A as [[y l'] [<- A]]. exists d, y, l', q. auto.
      * exists e'. split; [now right|exact B].
    + intros (e' & [<-|A] & B); [|right; eauto]. left. destruct B as (d' & y & l & q & B1 & B2 & B3).
      assert (d' = d) by congruence. subst d'. exists l, q. split; [|exact B3]. apply in_map_iff. exists (y, l). auto.
Qed.
Lemma used_names_total h k es : (forall e, In e es -> eqn_ok h e) -> exists ns, used_names h k es = Ok ns.
Proof.
  induction es as [|e es IH]; intros H; simpl; [eauto|].
  destruct (H e (or_introl eq_refl)) as (n & d & _ & Eo & [_ Od] & _). unfold eq_names. rewrite Eo.
  destruct (names_of_total h k (dvals d)) as [ns E].
  { intros l Hl. apply in_map_iff in Hl. destruct Hl as [[y l'] [<- Hin]]. destruct (Od y l' Hin) as (q & G & _). simpl. congruence. }
  destruct IH as [ms F]; [intros e' He'; apply H; now right|]. rewrite E. simpl. rewrite F. simpl. eauto.
Qed.

Lemma symbolic_total h e : eqn_ok h e -> exists s, get_symbolic e None SRhs = Ok s.
Proof.
  intros (n & d & En & _ & _ & _ & El). unfold get_symbolic. destruct (eq_elementary e).
  - destruct (eq_elem e) as [[a b]|]; [eauto|now destruct (El eq_refl)].
  - rewrite En. eauto.
Qed.
Lemma map_res_total {A B} (f : A -> res B) l : (forall x, In x l -> exists y, f x = Ok y) ->
  exists ys, map_res f l = Ok ys /\ List.length ys = List.length l.
Proof.
  induction l as [|x l IH]; intros H; simpl; [exists []; auto|].
  destruct (H x (or_introl eq_refl)) as [y E]. destruct IH as (ys & F & L); [intros z Hz; apply H; now right|].
  rewrite E. simpl. rewrite F. simpl. exists (y :: ys). split; [reflexivity|]. simpl. lia.
Qed.

(** Everything about the block a resolve leaves. *)
Record block_for (s : session) (b : block) : Prop := mkBF {
  bf_eqs : b_eqs b = equations_of s (dvals (pr_models (snd s)));
  bf_ok : forall e, In e (b_eqs b) -> eqn_ok (pw_heap (fst s)) e;
  bf_groups : b_lin b = filter (has_type CLinear) (b_eqs b) /\ b_nonlin b = filter (has_type CNonlinear) (b_eqs b) /\
              b_diff b = filter (has_type CDifferential) (b_eqs b);
  bf_varlist : b_varlist b = dkeys (b_vars b);
  bf_vars : forall x, In x (b_varlist b) <-> In x (dkeys (pr_vars (snd s))) /\ exists e, In e (b_eqs b) /\ uses_variable (pw_heap (fst s)) x e;
  bf_nodup : NoDup (b_varlist b);
  bf_pars : forall x l, In (x, l) (b_pars b) <-> In (x, l) (pr_pars (snd s)) /\ exists e, In e (b_eqs b) /\ uses_kind KParameter (pw_heap (fst s)) x e;
  bf_exprs : List.length (b_exprs b) = List.length (b_eqs b);
  bf_vardict : exists vs, b_vars b = restrict (pr_vars (snd s)) vs;
  bf_list : map_res (fun e => get_symbolic e None SRhs) (b_eqs b) = Ok (b_exprs b)
}.

Lemma restrict_keys d ns x : In x (dkeys (restrict d ns)) <-> In x (dkeys d) /\ In x ns.
Proof.
  unfold restrict, dkeys. rewrite !in_map_iff. split.
  - intros [[k l] [<- H]]. apply filter_In in H. destruct H as [H M]. apply mem_str_spec in M. split; [eauto|exact M].
  - intros [[[k l] [<- H]] M]. exists (k, l). split; [reflexivity|]. apply filter_In. split; [exact H|now apply mem_str_spec].
Qed.
Lemma restrict_nodup d ns : NoDup (dkeys d) -> NoDup (dkeys (restrict d ns)).
Proof.
  unfold restrict, dkeys. induction d as [|[k l] d IH]; simpl; intros H; [constructor|]. inversion H as [|? ? H1 H2]; subst.
  destruct (mem_str k ns); simpl; [|now apply IH]. constructor; [|now apply IH].
  intros Hin. apply H1. apply in_map_iff in Hin. destruct Hin as [[k' l'] [<- Hin]]. apply filter_In in Hin. apply in_map_iff. exists (k', l'). tauto.
Qed.

Lemma resolve_outcome s : good s ->
  exists w' r, reload (fst s) (dvals (pr_models (snd s))) = (w', r) /\
    match r with
    | Raise x => do_act s AResolve = ((w', snd s), Raise x)
    | Ok _ => exists b, do_act s AResolve = ((w', with_block (snd s) b), Ok tt) /\ block_for (w', with_block (snd s) b) b
    end.
Proof.
  intros [O K V N]. destruct s as [w p]. simpl in *. unfold presolve.
  destruct (reload w (dvals (pr_models p))) as [w' r] eqn:E. exists w', r. split; [reflexivity|].
  destruct r as [[]|x]; [|reflexivity]. assert (S := reload_step _ _ _ _ O E). assert (O' := ws_ok _ _ S).
  unfold build_block.
  destruct (all_equations_total w' (dvals (pr_models p))) as [es Ees].
  { intros i Hi. apply in_map_iff in Hi. destruct Hi as [[k i'] [<- Hin]]. destruct (N k i' Hin) as (m & d & G & _).
    destruct (ws_models _ _ S i' m d G) as (m' & G' & _). simpl. congruence. }
  rewrite Ees. assert (Ees' := all_equations_ok _ _ _ Ees).
  assert (Ok_es : forall e, In e es -> eqn_ok (pw_heap w') e) by (intros e He; rewrite Ees' in He; now apply (equations_ok_all _ _ _ O' He)).
  destruct (used_names_total (pw_heap w') KVariable es Ok_es) as [vs Evs].
  destruct (used_names_total (pw_heap w') KParameter es Ok_es) as [ps Eps].
  cbn [rbind]. rewrite Evs. cbn [rbind]. rewrite Eps. cbn [rbind].
  unfold block_call, block_init, equation_list, assign_groups. cbn [b_eqs b_vars b_pars b_varlist b_parlist b_exprs b_lin b_nonlin b_diff].
  destruct (map_res_total (fun e => get_symbolic e None SRhs) es) as (xs & Exs & Lxs).
  { intros e He. apply (symbolic_total (pw_heap w')). now apply Ok_es. }
  rewrite Exs. eexists. split; [reflexivity|]. constructor; simpl.
  - rewrite Ees'. reflexivity.
  - exact Ok_es.
  - auto.
  - reflexivity.
  - intros x. rewrite restrict_keys, (used_names_spec _ _ _ _ Evs x). reflexivity.
  - now apply restrict_nodup.
  - intros x l. unfold restrict. rewrite filter_In. simpl. rewrite mem_str_spec, (used_names_spec _ _ _ _ Eps x). reflexivity.
  - exact Lxs.
  - exists vs. reflexivity.
  - exact Exs.
Qed.

Lemma resolved_block acts s b : resolved acts s b -> good s /\ block_for s b /\
  same_collected (snd (run_acts start_session acts)) (snd s) /\ astep (fst (run_acts start_session acts)) (fst s).
Proof.
  intros [H Hb]. set (s0 := run_acts start_session acts) in *.
  assert (G : good s0) by (apply run_good, start_good).
  assert (Gs : good s) by (replace s with (fst (do_act s0 AResolve)) by (now rewrite H); now apply do_act_good).
  split; [exact Gs|].
  destruct (resolve_outcome s0 G) as (w' & r & E & R). destruct r as [[]|x]; [|congruence].
  destruct R as (b' & R & B). rewrite H in R. injection R as ->. simpl in Hb. injection Hb as <-. split; [exact B|].
  split; [now repeat split|]. simpl. exact (ws_as _ _ (reload_step _ _ _ _ (g_ok _ G) E)).
Qed.

(** Groups. *)
Lemma groups_permutation (es : list eqn) : (forall e, In e es -> eq_type e <> None) ->
  Permutation (filter (has_type CLinear) es ++ filter (has_type CNonlinear) es ++ filter (has_type CDifferential) es) es.
Proof.
  induction es as [|e es IH]; intros H; simpl; [constructor|].
  assert (He := H e (or_introl eq_refl)). assert (P := IH (fun x Hx => H x (or_intror Hx))).
  assert (T : forall t, has_type t e = match eq_type e, t with
    | Some CLinear, CLinear | Some CNonlinear, CNonlinear | Some CDifferential, CDifferential => true | _, _ => false end) by reflexivity.
  rewrite !T. clear T. destruct (eq_type e) as [[]|]; [| | |congruence].
  - exact (perm_skip e P).
  - apply Permutation_trans with (2 := perm_skip e P). symmetry. apply Permutation_middle.
  - apply Permutation_trans with (2 := perm_skip e P). rewrite !app_assoc. symmetry. apply Permutation_middle.
Qed.
Lemma has_type_spec t e : has_type t e = true <-> eq_type e = Some t.
Proof. unfold has_type. destruct (eq_type e) as [[]|], t; split; intros H; try reflexivity; discriminate. Qed.

Lemma block_equations acts s b : resolved acts s b ->
  NoDup (dvals (pr_models (snd s))) /\ b_eqs b = equations_of s (dvals (pr_models (snd s))) /\
  (forall i m, model_of s i = Some m -> NoDup (dkeys (m_eqs m))) /\
  Permutation (b_lin b ++ b_nonlin b ++ b_diff b) (b_eqs b) /\
  (forall e, In e (b_lin b) <-> In e (b_eqs b) /\ eq_type e = Some CLinear) /\
  (forall e, In e (b_nonlin b) <-> In e (b_eqs b) /\ eq_type e = Some CNonlinear) /\
  (forall e, In e (b_diff b) <-> In e (b_eqs b) /\ eq_type e = Some CDifferential).
Proof.
  intros H. destruct (resolved_block _ _ _ H) as (G & B & _ & _).
  split.
  { assert (K := g_keys _ G). assert (N := g_named _ G). clear -K N. revert K N. generalize (pr_models (snd s)). intros d.
    induction d as [|[k i] d IH]; simpl; intros K N; [constructor|]. inversion K as [|? ? K1 K2]; subst. constructor.
    - intros Hin. apply in_map_iff in Hin. destruct Hin as [[k' i'] [Ei Hin]]. simpl in Ei. subst i'.
      destruct (N k i (or_introl eq_refl)) as (m & dd & G1 & N1). destruct (N k' i (or_intror Hin)) as (m' & dd' & G2 & N2).
      assert (m' = m) by congruence. subst m'. apply K1. apply in_map_iff. exists (k', i). split; [simpl; congruence|exact Hin].
    - apply IH; [exact K2|]. intros k' i' Hin. apply N. now right. }
  split; [exact (bf_eqs _ _ B)|]. split.
  { intros i m Hm. unfold model_of in Hm. destruct (get_model (fst s) i) as [[m' d]|] eqn:E; [|discriminate]. injection Hm as <-.
    exact (proj1 (proj2 (proj2 (proj2 (proj1 (g_ok _ G) i m' d E))))). }
  destruct (bf_groups _ _ B) as (L1 & L2 & L3). rewrite L1, L2, L3. split.
  { apply groups_permutation. intros e He. destruct (bf_ok _ _ B e He) as (_ & _ & _ & _ & _ & T & _). exact T. }
  assert (F : forall t e, In e (filter (has_type t) (b_eqs b)) <-> In e (b_eqs b) /\ eq_type e = Some t)
    by (intros t e; now rewrite filter_In, has_type_spec).
  auto.
Qed.

Lemma block_added acts s b : resolved acts s b -> distinct_models acts -> b_eqs b = equations_of s (added acts).
Proof.
  intros H D. destruct (resolved_block _ _ _ H) as (G & B & (E1 & _) & _). rewrite (bf_eqs _ _ B), E1.
  f_equal. apply added_models. intros i j n Hi Hj Ni Nj. unfold name_of in *.
  destruct (model_of _ i) as [mi|] eqn:Ei; [|discriminate]. destruct (model_of _ j) as [mj|] eqn:Ej; [|discriminate].
  simpl in Ni, Nj. apply (D i j mi mj Hi Hj Ei Ej). congruence.
Qed.

(** ** Unknowns *)
Lemma pr_vars_trace acts x : In x (dkeys (pr_vars (snd (run_acts start_session acts)))) <-> declared_when_added acts x.
Proof.
  induction acts as [|a acts IH] using rev_ind.
  - simpl. split; [intros []|]. intros (b & i & c & m & E & _). destruct b; discriminate.
  - rewrite run_acts_app. simpl. destruct (run_acts start_session acts) as [w p] eqn:Es.
    assert (G : good (w, p)) by (rewrite <- Es; apply run_good, start_good).
    destruct (do_act (w, p) a) as [[w' p'] r] eqn:E. simpl in *.
    assert (Ext : declared_when_added acts x -> declared_when_added (acts ++ [a]) x).
    { intros (b & i & c & m & Eq & Hm). exists b, i, (c ++ [a]), m. split; [rewrite Eq, <- app_assoc; reflexivity|exact Hm]. }
    assert (Inv : declared_when_added (acts ++ [a]) x -> declared_when_added acts x \/
              exists i m, a = AAdd i /\ model_of (w, p) i = Some m /\ In x (dkeys (m_vars m))).
    { intros (b & i & c & m & Eq & Hm). destruct c as [|y c] using rev_ind.
      - right. apply app_inj_tail in Eq. destruct Eq as [-> ->]. rewrite Es in Hm. exists i, m. tauto.
      - clear IHc. left. rewrite app_comm_cons, app_assoc in Eq. apply app_inj_tail in Eq. destruct Eq as [-> _].
        exists b, i, c, m. auto. }
    destruct (do_act_step w p a w' p' r (g_ok _ G) E) as [S [(i & -> & -> & -> & Gi)|((E1 & E2 & E3) & No)]].
    + unfold add_model. destruct (get_model w i) as [[m d]|] eqn:Gm; [|congruence]. simpl. rewrite in_dkeys_dupdate, IH. split.
      * intros [H|H]; [now apply Ext|]. exists acts, i, [], m. split; [reflexivity|]. rewrite Es. unfold model_of. simpl. rewrite Gm. auto.
      * intros H. apply Inv in H. destruct H as [H|(j & m' & Ej & Hm & Hin)]; [now left|right]. injection Ej as <-.
        unfold model_of in Hm. simpl in Hm. rewrite Gm in Hm. injection Hm as <-. exact Hin.
    + rewrite E2, IH. split; [exact Ext|]. intros H. apply Inv in H. destruct H as [H|(j & m' & -> & Hm & Hin)]; [exact H|].
      exfalso. unfold model_of in Hm. simpl in Hm. now rewrite (No j eq_refl) in Hm.
Qed.

Lemma block_unknowns acts s b : resolved acts s b ->
  NoDup (b_varlist b) /\
  forall x, In x (b_varlist b) <->
    declared_when_added acts x /\ exists e, In e (b_eqs b) /\ uses_variable (pw_heap (fst s)) x e.
Proof.
  intros H. destruct (resolved_block _ _ _ H) as (G & B & (_ & E2 & _) & _). split; [exact (bf_nodup _ _ B)|].
  intros x. rewrite (bf_vars _ _ B), E2. now rewrite (pr_vars_trace acts x).
Qed.

(** Every variable used somewhere is a variable of some model. *)
Lemma used_declared s b x e : good s -> block_for s b -> In e (b_eqs b) -> uses_variable (pw_heap (fst s)) x e ->
  exists i m, model_of s i = Some m /\ In x (dkeys (m_vars m)).
Proof.
  intros G B He (d & k & l & q & _ & _ & Gl & K & <-).
  destruct (proj2 (g_ok _ G) l q Gl K) as (i & m & dd & Gm & Hin). exists i, m. split; [|exact Hin]. unfold model_of. now rewrite Gm.
Qed.

Lemma block_unknowns_complete acts s b : resolved acts s b ->
  (forall i m x, model_of s i = Some m -> In x (dkeys (m_vars m)) -> declared_when_added acts x) ->
  NoDup (b_varlist b) /\
  forall x, In x (b_varlist b) <-> exists e, In e (b_eqs b) /\ uses_variable (pw_heap (fst s)) x e.
Proof.
  intros H C. destruct (block_unknowns _ _ _ H) as [N V]. split; [exact N|]. intros x. rewrite V. split; [now intros [_ U]|].
  intros (e & He & U). destruct (resolved_block _ _ _ H) as (G & B & _ & _).
  destruct (used_declared s b x e G B He U) as (i & m & Hm & Hin). split; [exact (C i m x Hm Hin)|eauto].
Qed.
