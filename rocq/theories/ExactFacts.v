(** Facts: a problem says what was written and nothing else (C68). *)
From Verif Require Import Base BaseFacts Num NumFacts UnitModel UnitFacts Sympy Node Build EquationModel ModelModel ProblemModel
  SpecUnits UnitThms SpecExpr SpecQty QtyFacts SpecModel BuildFacts EquationFacts ModelFacts SpecInc IncFacts SpecCall CallFacts
  SpecProblem ProblemFacts SessionFacts UsualFacts ConnFacts SolverModel SpecSolver SolverFacts OdeFacts DaeFacts SpecSymbols SymbolFacts SpecWritten WrittenFacts SpecExact.
From Coq Require Import Reals Lra.
Notation num := Verif.Num.num.

Lemma cmd_failed w c w' x : run_cmd w c = (w', Raise x) -> m_eqs (w_mod w') = m_eqs (w_mod w).
Proof.
  destruct w as [h u m]. intros H. destruct c as [a n un ex ty v|a n un v|a n un v|a v un|a|a n q check]; cbn [run_cmd w_heap w_mod w_uids] in *.
  - unfold create_variable in H. destruct ex; [destruct (String.eqb ty "input"); [|destruct (String.eqb ty "output")]|]; injection H as <- _; try discriminate; reflexivity.
  - discriminate.
  - discriminate.
  - destruct (attr_qty m a); [|now injection H as <- _]. destruct (match v with SANum _ => _ | SAAttr _ => _ end); [|now injection H as <- _].
    destruct (heap_set_value _ _ _ _) as [h' r']. now injection H as <- _.
  - destruct (attr_qty m a); [|now injection H as <- _]. destruct (hget h _); [|now injection H as <- _]. destruct (qkind_eqb _ _); [discriminate|now injection H as <- _].
  - destruct (rbind (resolve_eq (attr_qty m) q) _) as [arg|]; [|now injection H as <- _].
    destruct (create_outcome (mkW h u m) n arg check) as [u' E]. rewrite E in H.
    destruct (set_residual _ arg) as [e [[]|]]; [|now injection H as <- _]. destruct (eq_expr e) as [nn|]; [|now injection H as <- _]. cbv zeta in H.
    destruct check; [destruct (forallb _ _)|]; try discriminate; now injection H as <- _.
Qed.

Definition said (M : string) (xs : list written) (k : string) (e : eqn) : Prop :=
  exists x, In x xs /\ k = full_name (wr_name x) M /\ eq_name e = full_name (wr_name x) M /\ says x e.

Lemma cmds_only cs : forall D w w' r, run_cmds w cs = (w', r) -> stands w D -> self_contained (m_name (w_mod w)) D cs = true ->
  forall k e, In (k, e) (m_eqs (w_mod w')) -> In (k, e) (m_eqs (w_mod w)) \/ said (m_name (w_mod w)) (equations_written (m_name (w_mod w)) D cs) k e.
Proof.
  induction cs as [|c cs IH]; intros D w w' r H S K k e Hin.
  - cbn [run_cmds] in H. injection H as <- _. now left.
  - cbn [run_cmds] in H.
    assert (K' : step_known D c = true /\ self_contained (m_name (w_mod w)) (note (m_name (w_mod w)) D c) cs = true)
      by (apply andb_prop; exact K).
    destruct K' as [K1 K2]. destruct (run_cmd w c) as [w1 [[]|]] eqn:E.
    2: { injection H as <- _. apply cmd_failed in E. rewrite E in Hin. now left. }
    destruct (cmd_written D w c w1 E S K1) as [S1 W1]. assert (Nm := run_cmd_name _ _ _ _ E). rewrite <- Nm in *.
    set (M := m_name (w_mod w1)) in *.
    destruct (IH _ _ _ _ H S1 K2 k e Hin) as [Ho|(x & Hx & R)].
    2: { right. exists x. split; [|exact R]. destruct c; try exact Hx. right. exact Hx. }
    destruct c as [a n u ex ty v|a n u v|a n u v|a x u|a|a n q check]; try (rewrite W1 in Ho; now left).
    destruct W1 as (e' & W1 & Ne & Se). rewrite W1 in Ho. apply in_dset in Ho. destruct Ho as [[-> ->]|Ho]; [|now left].
    right. exists (read_eq D n q). rewrite read_eq_name. split; [now left|auto].
Qed.

Lemma call_only d w w' r : model_call d w = (w', r) -> legible (m_name (w_mod w)) d ->
  forall k e, In (k, e) (m_eqs (w_mod w')) -> In (k, e) (m_eqs (w_mod w)) \/ said (m_name (w_mod w)) (written_by (m_name (w_mod w)) d) k e.
Proof. intros H [L _]. exact (cmds_only (script d) [] w w' r H (stands_nil w) L). Qed.

(** The equation of a connection. *)
Lemma connection_only w outs ins a w' r : balance (w_heap w) ins outs = Ok a -> free_vars (w_heap w) ->
  model_connection w outs ins a = (w', r) ->
  (forall k e, In (k, e) (m_eqs (w_mod w')) -> In (k, e) (m_eqs (w_mod w)) \/
    ((exists e', r = Ok e') /\ balances (var_names (w_heap w) outs) (var_names (w_heap w) ins) e)).
Proof.
  intros Ba Fv H. unfold model_connection in H.
  destruct (forallb (is_variable (w_heap w)) ins && forallb (is_variable (w_heap w)) outs) eqn:Ev; [|injection H as <- _; auto].
  destruct (rbind (qty_names (w_heap w) outs) _) as [name|x] eqn:En; [|injection H as <- _; auto].
  assert (Ne : name <> "") by (binv; apply append_ne).
  destruct (connection_init (w_uids w) name a) as [u [e|x]] eqn:Ec; injection H as <- <-; [|auto].
  cbn [w_mod with_eqs m_eqs]. intros k e' Hk. apply in_dset in Hk. destruct Hk as [[-> ->]|Hk]; [right|now left]. split; [eauto|].
  apply andb_prop in Ev. destruct Ev as [V1 V2].
  apply balance_built in Ba. destruct Ba as [(-> & _)|(q & Eq & Hb)].
  { exfalso. unfold connection_init, equation_init in Ec. destruct (String.eqb name ""); simpl in Ec; discriminate. }
  destruct (connection_data _ _ _ _ _ _ _ Ne Hb Ec) as (_ & _ & n & Hn & _ & _ & Hd). split.
  - unfold connection_init in Ec. destruct (init_outcome (w_uids w) main_thread name a "") as [u1 E]. rewrite E in Ec. clear E.
    apply String.eqb_neq in Ne. rewrite Ne in Ec.
    destruct (set_residual (blank_eqn name) a) as [e1 [[]|x]] eqn:Er; [|discriminate].
    assert (P := eq_parts _ _ _ _ _ Hb Er). cbn in P.
    destruct (residual_again a _ _ (with_eowner e1 "") (built_not_other _ _ _ Hb) Er) as (e2 & E2 & X & T & N2 & _ & El & Ef).
    rewrite E2 in Ec. unfold sweep_objects in Ec. destruct (eq_expr e2); [|discriminate]. injection Ec as _ <-. cbn.
    rewrite (Ef eq_refl). exact P.
  - exists n. split; [exact Hn|]. intros en. rewrite (Hd _ _ (named_env (w_heap w) en)). cbn [residual_meaning].
    rewrite (balance_meaning _ _ _ _ _ Eq).
    assert (Fr : forall ls, forallb (is_variable (w_heap w)) ls = true -> forall l, In l ls -> exists q, hget (w_heap w) l = Some q /\ q_spec q = false).
    { intros ls V l Hl. rewrite forallb_forall in V. specialize (V l Hl). unfold is_variable in V.
      destruct (hget (w_heap w) l) as [o|] eqn:G; [|discriminate]. exists o. split; [reflexivity|]. apply (Fv l o G). destruct (q_kind o); try discriminate V; reflexivity. }
    rewrite (sum_free _ en _ (Fr _ V1)), (sum_free _ en _ (Fr _ V2)). reflexivity.
Qed.

(** Where the equations of model [i] come from; [conn]: its connections. *)
Definition origin (conn : nat -> eqn -> Prop) (i : nat) (m : mstate) (d : decls) : Prop :=
  forall k e, In (k, e) (m_eqs m) -> said (m_name m) (written_by (m_name m) d) k e \/ conn i e.
Definition origins (conn : nat -> eqn -> Prop) (w : pworld) : Prop :=
  forall i m d, get_model w i = Some (m, d) -> legible (m_name m) d /\ origin conn i m d.

Lemma on_model_origins {A} conn w i (f : decls -> mworld -> mworld * res A) w2 r : origins conn w ->
  (forall m d w' r', get_model w i = Some (m, d) -> f d (mkW (pw_heap w) (pw_uids w) m) = (w', r') -> on_model w i f = (w2, r') ->
     m_name (w_mod w') = m_name m /\
     forall k e, In (k, e) (m_eqs (w_mod w')) -> In (k, e) (m_eqs m) \/ said (m_name m) (written_by (m_name m) d) k e \/ conn i e) ->
  on_model w i f = (w2, r) -> origins conn w2.
Proof.
  intros O HF H0. assert (H := H0). apply on_model_spec in H. destruct H as [(_ & -> & _)|(m & d & w' & G & F & Hh & G2 & Go & L)]; [exact O|].
  destruct (HF m d w' r G F H0) as (Nm & K). intros j mj dj Gj. destruct (Nat.eq_dec j i) as [->|Hne].
  - assert (X : Some (mj, dj) = Some (w_mod w', d)) by congruence. injection X as -> ->. destruct (O i m d G) as [L1 L2]. unfold origin. rewrite Nm.
    split; [exact L1|]. intros k e Hin. destruct (K k e Hin) as [Hm|C]; [exact (L2 k e Hm)|exact C].
  - rewrite Go in Gj by exact Hne. exact (O j mj dj Gj).
Qed.

Lemma call_origins conn w i w2 r : origins conn w -> on_model w i model_call = (w2, r) -> origins conn w2.
Proof.
  intros O. apply (on_model_origins conn _ _ _ _ _ O). intros m d w' r' G F _. split; [exact (tr_name _ _ _ _ (run_cmds_tr _ _ _ _ F))|].
  intros k e Hk. destruct (call_only d (mkW (pw_heap w) (pw_uids w) m) w' r' F (proj1 (O i m d G)) k e Hk) as [H|H]; auto.
Qed.
Lemma reload_origins conn is : forall w w' r, origins conn w -> reload w is = (w', r) -> origins conn w'.
Proof.
  induction is as [|i is IH]; intros w w' r O H; cbn [reload] in H; [now injection H as <- _|].
  destruct (on_model w i model_call) as [w1 [[]|x]] eqn:E.
  - exact (IH _ _ _ (call_origins _ _ _ _ _ O E) H).
  - injection H as <- _. exact (call_origins _ _ _ _ _ O E).
Qed.

Definition from_connection (acts : list act) (j : nat) (e : eqn) : Prop := exists os is, connected acts j os is /\ balances os is e.

Lemma connected_more acts a j e : from_connection acts j e -> from_connection (acts ++ [a]) j e.
Proof.
  intros (os & is & (a1 & i & outs & ins & a2 & s1 & -> & R) & B). exists os, is. split; [|exact B].
  exists a1, i, outs, ins, (a2 ++ [a]), s1. split; [now rewrite <- app_assoc|exact R].
Qed.

Lemma do_act_origins acts a : let s := run_acts start_session acts in holds false (fst s) -> ordinary false a = true ->
  (forall M d, In (M, d) (created [a]) -> legible M d) -> origins (from_connection (acts ++ [a])) (fst s) ->
  origins (from_connection (acts ++ [a])) (fst (fst (do_act s a))).
Proof.
  intros s Hs P Ca O. destruct (do_act s a) as [[w' p'] r] eqn:E. cbn [fst].
  assert (Es : s = (fst s, snd s)) by (destruct s; reflexivity). set (w := fst s) in *. set (p := snd s) in *. rewrite Es in E.
  destruct a as [n dd|k c|k|k j f|k|m1 m2 outs ins e|m1 m2 out inp|names|c|]; cbn [ordinary] in P; try discriminate P; cbn [do_act] in E.
  - injection E as <- _ _. intros i m d H. unfold get_model in *. cbn [pw_models] in H. destruct (Nat.lt_ge_cases i (List.length (pw_models w))) as [L|L].
    + rewrite nth_error_app1 in H by exact L. exact (O i m d H).
    + rewrite nth_error_app2 in H by exact L. destruct (i - _)%nat as [|z]; [|destruct z; discriminate]. injection H as <- <-.
      split; [apply Ca; now left|]. intros k e [].
  - destruct (on_model w k _) as [w1 r1] eqn:E1. injection E as <- _ _.
    apply (on_model_origins _ _ _ _ _ _ O) with (2 := E1). intros m d w2 r2 G F _. split; [exact (run_cmd_name _ _ _ _ F)|].
    intros k' e' Hk. left. destruct r2 as [[]|x].
    + destruct c; try discriminate P. cbn [run_cmd w_heap w_mod w_uids] in F. destruct (attr_qty m _); [|discriminate].
      destruct (hget (pw_heap w) _); [|discriminate]. destruct (qkind_eqb _ _); [|discriminate]. injection F as <-. exact Hk.
    + apply cmd_failed in F. cbn [w_mod] in F. now rewrite F in Hk.
  - destruct (on_model w k _) as [w1 r1] eqn:E1. injection E as <- _ _. exact (call_origins _ _ _ _ _ O E1).
  - destruct (get_model w k); injection E as <- _ _; exact O.
  - destruct e as [q|]; [discriminate P|]. assert (E0 := E).
    unfold connect_vars in E. destruct (get_model w m2) as [[s2 d2]|]; [|injection E as <- _ _; exact O].
    destruct m1 as [i|]; [|injection E as <- _ _; exact O].
    destruct (match get_model w i with Some _ => _ | None => _ end); [|injection E as <- _ _; exact O].
    destruct (forallb _ (cv_list ins) && forallb _ (cv_list outs)).
    2: { destruct ins, outs; injection E as <- _ _; exact O. }
    destruct (balance (pw_heap w) (cv_list ins) (cv_list outs)) as [ar|] eqn:Ba; [|injection E as <- _ _; exact O].
    destruct (rbind (qty_names (pw_heap w) (cv_list outs)) _) as [[o i']|]; [|injection E as <- _ _; exact O].
    destruct (on_model w m2 _) as [w1 r1] eqn:E1.
    assert (Q : origins (from_connection (acts ++ [AConn (CMModel i) m2 outs ins None])) w1).
    { apply (on_model_origins _ _ _ _ _ _ O) with (2 := E1). intros m d w2 r2 _ F E2.
      assert (T : m_name (w_mod w2) = m_name m).
      { unfold model_connection in F. cbn [w_heap w_mod w_uids] in F. destruct (_ && _); [|now injection F as <- _].
        destruct (rbind _ _); [|now injection F as <- _]. destruct (connection_init _ _ _) as [? []]; now injection F as <- _. }
      split; [exact T|]. intros k e Hk.
      destruct (connection_only (mkW (pw_heap w) (pw_uids w) m) _ _ _ _ _ Ba (h_free _ _ Hs eq_refl) F k e Hk) as [Hm|((e' & ->) & B)]; [now left|].
      right. right. exists (var_names (pw_heap w) (cv_list outs)), (var_names (pw_heap w) (cv_list ins)). split; [|exact B].
      rewrite E2 in E1. injection E1 as <-. exists acts, i, outs, ins, [], (w', p').
      split; [reflexivity|]. split; [|auto]. fold s. rewrite Es. cbn [do_act]. rewrite E0. injection E as _ _ <-. reflexivity. }
    destruct r1; injection E as <- _ _; exact Q.
  - injection E as <- _ _. exact O.
  - injection E as <- _ _. exact O.
  - unfold presolve in E. destruct (reload w (dvals (pr_models p))) as [w1 r1] eqn:E1.
    assert (Q := reload_origins _ _ _ _ _ O E1).
    destruct r1 as [[]|x]; [|injection E as <- _ _; exact Q]. destruct (build_block w1 p); [|injection E as <- _ _; exact Q].
    destruct (block_call _) as [b' r']. injection E as <- _ _. exact Q.
Qed.

Lemma run_origins acts : forallb (ordinary false) acts = true -> all_legible acts -> origins (from_connection acts) (fst (run_acts start_session acts)).
Proof.
  induction acts as [|a acts IH] using rev_ind; intros P C.
  - intros i m d H. unfold get_model in H; destruct i; discriminate.
  - rewrite forallb_app in P. apply andb_prop in P. destruct P as [P1 P2]. cbn [forallb] in P2. rewrite Bool.andb_true_r in P2.
    rewrite run_acts_app. cbn [run_acts]. apply do_act_origins; [now apply run_holds|exact P2| |].
    + intros M d H. apply C. rewrite created_app. apply in_or_app. now right.
    + assert (O : origins (from_connection acts) (fst (run_acts start_session acts))).
      { apply IH; [exact P1|]. intros M d H. apply C. rewrite created_app. apply in_or_app. now left. }
      intros i m d G. destruct (O i m d G) as [L K]. split; [exact L|]. intros k e Hin.
      destruct (K k e Hin) as [H|H]; [now left|right; now apply connected_more].
Qed.

Lemma connected_resolved acts j os is : connected (acts ++ [AResolve]) j os is -> connected acts j os is.
Proof.
  intros (a1 & i & outs & ins & a2 & s1 & E & R). exists a1, i, outs, ins.
  destruct (@exists_last _ (AConn (CMModel i) j outs ins None :: a2)) as (l & x & El); [discriminate|].
  rewrite El, app_assoc in E. apply app_inj_tail in E. destruct E as [-> <-].
  destruct l as [|y l]; [discriminate El|]. injection El as <- ->. exists l, s1. split; [reflexivity|exact R].
Qed.

Lemma added_member acts s b i : resolved acts s b -> distinct_models acts -> In i (dvals (pr_models (snd s))) -> In i (added acts).
Proof.
  intros R D Hi. destruct (resolved_block _ _ _ R) as (_ & _ & (E1 & _) & _). rewrite E1 in Hi.
  replace (added acts) with (dvals (pr_models (snd (run_acts start_session acts)))); [exact Hi|]. apply added_models.
  intros j k n Hj Hk Nj Nk. unfold name_of in *.
  destruct (model_of _ j) as [mj|] eqn:Ej; [|discriminate]. destruct (model_of _ k) as [mk|] eqn:Ek; [|discriminate].
  simpl in Nj, Nk. apply (D j k mj mk Hj Hk Ej Ek). congruence.
Qed.

Lemma model_created acts i m d : get_model (fst (run_acts start_session acts)) i = Some (m, d) -> nth_error (created acts) i = Some (m_name m, d).
Proof.
  intros G. destruct (nth_error (created acts) i) as [[M d']|] eqn:E.
  - destruct (created_model _ _ _ _ E) as (m' & G' & N). assert (X : Some (m, d) = Some (m', d')) by congruence. injection X as <- <-. now rewrite N.
  - apply nth_error_None in E. rewrite <- created_count in E. unfold get_model in G. apply nth_error_None in E. congruence.
Qed.

(** Every equation of the block was written or is a connection. *)
Lemma block_only acts s b e : resolved acts s b -> distinct_models acts -> forallb (ordinary false) acts = true -> all_legible acts ->
  In e (b_eqs b) ->
  (exists i M d x, In i (added acts) /\ nth_error (created acts) i = Some (M, d) /\ In x (written_by M d) /\
     eq_name e = full_name (wr_name x) M /\ says x e) \/
  (exists j os is, In j (added acts) /\ connected acts j os is /\ balances os is e).
Proof.
  intros R D P L He. destruct (block_equations _ _ _ R) as (_ & E & _). rewrite E in He. unfold equations_of in He. apply in_flat_map in He.
  destruct He as (i & Hi & He). unfold model_of in He. destruct (get_model (fst s) i) as [[m d]|] eqn:G; [|destruct He]. cbn [option_map fst] in He.
  apply in_map_iff in He. destruct He as ([k e'] & <- & Hin). cbn [snd].
  assert (Es : s = run_acts start_session (acts ++ [AResolve])) by (rewrite run_acts_app; cbn [run_acts]; now rewrite (proj1 R)).
  assert (O : origins (from_connection (acts ++ [AResolve])) (fst s)).
  { rewrite Es. apply run_origins; [rewrite forallb_app, P; reflexivity|].
    intros M d' H. rewrite created_app in H. apply in_app_or in H. destruct H as [H|[]]. exact (L M d' H). }
  assert (C : nth_error (created acts) i = Some (m_name m, d)).
  { rewrite Es in G. apply model_created in G. rewrite created_app in G. cbn [created flat_map] in G. now rewrite app_nil_r in G. }
  assert (Ad := added_member _ _ _ _ R D Hi).
  destruct (proj2 (O i m d G) k e' Hin) as [(x & Hx & _ & Ne & Se)|(os & is & Cn & B)].
  - left. exists i, (m_name m), d, x. auto.
  - right. exists i, os, is. split; [exact Ad|]. split; [now apply connected_resolved|exact B].
Qed.

(** The system asks exactly what was written. *)
Lemma system_written acts s b en : resolved acts s b -> distinct_models acts -> forallb (ordinary false) acts = true -> forallb clean_act acts = true ->
  all_legible acts ->
  (solved en b <->
   (forall i M d x, In i (added acts) -> nth_error (created acts) i = Some (M, d) -> In x (written_by M d) -> asks x en) /\
   (forall j os is, In j (added acts) -> connected acts j os is -> sum_named en is = sum_named en os)).
Proof.
  intros R D P C L. rewrite (system_exact _ _ _ en R). split.
  - intros H. split.
    + intros i M d x Hi Ci Hx. assert (Lg : legible M d) by exact (L M d (nth_error_In _ _ Ci)).
      destruct (block_written _ _ _ _ _ _ _ R D Ci Hi Lg Hx) as (e & He & _ & (n & En & Dn) & Sd). specialize (H e He). unfold asks.
      destruct (wr_sides x) as [[f g]|].
      * destruct Sd as (El & a & c & Ee & _ & Dc). rewrite El in H. destruct H as (a' & c' & E' & Z). rewrite Ee in E'. injection E' as <- <-. now rewrite <- Dc.
      * rewrite Sd in H. destruct H as (n' & En' & Z). assert (n' = n) by congruence. subst n'. now rewrite <- Dn.
    + intros j os is Hj (a1 & i & outs & ins & a2 & s1 & Ea & Ed & -> & ->).
      destruct (block_connection _ _ _ _ _ _ _ _ _ _ R D P C Ea Ed Hj) as (e & He & El & n & En & Dn).
      specialize (H e He). rewrite El in H. destruct H as (n' & En' & Z). assert (n' = n) by congruence. subst n'.
      rewrite Dn in Z. injection Z as Z. lra.
  - intros [H1 H2] e He. destruct (block_only _ _ _ _ R D P L He) as [(i & M & d & x & Hi & Ci & Hx & _ & (n & En & Dn) & Sd)|(j & os & is & Hj & Cn & El & n & En & Dn)].
    + specialize (H1 i M d x Hi Ci Hx). unfold asks in H1. destruct (wr_sides x) as [[f g]|].
      * destruct Sd as (El & a & c & Ee & _ & Dc). rewrite El. exists a, c. split; [exact Ee|]. now rewrite Dc.
      * rewrite Sd. exists n. split; [exact En|]. now rewrite Dn.
    + rewrite El. exists n. split; [exact En|]. rewrite Dn, (H2 j os is Hj Cn). f_equal. lra.
Qed.

(** ** Differential equations *)
Lemma explicit_rate acts s b t e x r : resolved acts s b -> distinct_models acts -> forallb (ordinary false) acts = true -> all_legible acts ->
  In e (b_eqs b) -> explicit t e (x, r) -> exists w g, part_of acts w /\ rate w x t g /\ forall en, g en = den r en.
Proof.
  intros R D P L He (a & c & n & El & Ee & Ea & _ & Ec & _).
  destruct (block_only _ _ _ _ R D P L He) as [(i & M & d & w & Hi & Ci & Hw & _ & _ & Sd)|(j & os & is & _ & _ & El' & _)]; [|congruence].
  destruct (wr_sides w) as [[f g]|] eqn:Es; [|congruence]. destruct Sd as (_ & a' & c' & Ee' & Df & Dg).
  rewrite Ee in Ee'. injection Ee' as <- <-. exists w, g. split; [exists i, M, d; auto|]. split.
  - exists f. split; [exact Es|]. intros en. rewrite <- Df, Ea. reflexivity.
  - intros en. rewrite <- Dg, Ec. reflexivity.
Qed.

Definition only_der (x : string) : env := mkEnv (fun _ => 0%R) (fun y _ => if String.eqb x y then 1%R else 0%R).

Lemma rates_written acts s b t pn init tn compile ds ode Y tau en : resolved acts s b -> distinct_models acts ->
  forallb (ordinary false) acts = true -> all_legible acts ->
  prints_numbers pn -> one_word t = true -> str_contains "_" t = true -> pr_time (snd s) = Some [t] ->
  Forall2 (explicit t) (b_diff b) ode -> closed_system t ode -> b_eqs b = b_diff b -> ode_unknowns t ode (b_varlist b) -> ode <> [] ->
  dsolver_init b init tn compile = Ok ds -> state_of t ode Y tau en ->
  exists vs, ode_interface pn (snd s) b ds Y tau = (b, Ok vs) /\
    (forall j x r, nth_error ode j = Some (x, r) -> exists w g, part_of acts w /\ rate w x t g /\ nth_error vs j = Some (g en)) /\
    (forall w x g, part_of acts w -> rate w x t g -> exists j r, nth_error ode j = Some (x, r) /\ nth_error vs j = Some (g en)).
Proof.
  intros R D P L Pn W U T F C Eb Un Ne I St. exists (map (fun xr => den (snd xr) en) ode).
  split; [apply (OdeFacts.ode_rhs t pn (snd s) b init tn compile ds ode Y tau en); auto|].
  assert (Df : forall e, In e (b_diff b) -> In e (b_eqs b)) by (intros e He; now rewrite Eb). split.
  - intros j x r Hj. assert (X : exists e, In e (b_diff b) /\ explicit t e (x, r)).
    { apply nth_error_In in Hj. clear -F Hj. induction F as [|e y es ys H F IH]; [destruct Hj|]. destruct Hj as [->|Hj].
      - exists e. split; [now left|exact H].
      - destruct (IH Hj) as (e' & A & B). exists e'. split; [now right|exact B]. }
    destruct X as (e & He & Ex). destruct (explicit_rate _ _ _ _ _ _ _ R D P L (Df e He) Ex) as (w & g & Pw & Rw & Dg).
    exists w, g. split; [exact Pw|]. split; [exact Rw|]. rewrite (map_nth_error (fun xr => den (snd xr) en) j ode Hj). cbn [snd]. now rewrite Dg.
  - intros w x g (i & M & d & Hi & Ci & Hw) (f & Es & Hf).
    destruct (block_written _ _ _ _ _ _ _ R D Ci Hi (L M d (nth_error_In _ _ Ci)) Hw) as (e & He & _ & _ & Sd).
    rewrite Es in Sd. destruct Sd as (El & a & c & Ee & Da & Dc). rewrite Eb in He.
    assert (X : exists j xr, nth_error ode j = Some xr /\ explicit t e xr).
    { clear -F He. induction F as [|e' y es ys H F IH]; [destruct He|]. destruct He as [->|He].
      - exists 0%nat, y. split; [reflexivity|exact H].
      - destruct (IH He) as (j & xr & A & B). exists (S j), xr. split; [exact A|exact B]. }
    destruct X as (j & [x' r] & Hj & (a' & c' & n & _ & Ee' & Ea & _ & Ec & _)). rewrite Ee in Ee'. injection Ee' as <- <-. cbn [fst snd] in *.
    assert (x' = x).
    { pose proof (Hf (only_der x')) as H1. rewrite <- Da, Ea in H1. cbn in H1. injection H1 as H1. rewrite String.eqb_refl in H1.
      destruct (String.eqb_spec x' x) as [->|]; [reflexivity|]. exfalso. lra. }
    subst x'. exists j, r. split; [exact Hj|]. rewrite (map_nth_error (fun xr => den (snd xr) en) j ode Hj). cbn [snd]. now rewrite <- Dc, Ec.
Qed.

Lemma residuals_written acts s b pn dae y yd en : resolved acts s b -> distinct_models acts ->
  forallb (ordinary false) acts = true -> all_legible acts ->
  Forall2 (residual_ode pn) (b_diff b) dae -> dae <> [] -> closed_dae b dae -> by_equation (b_varlist b) dae y yd en ->
  exists vs, dae_function pn b y yd = Ok vs /\ Forall2 (written_value acts en) (b_eqs b) vs.
Proof.
  intros R D P L F Ne C B. destruct (DaeFacts.dae_exact pn b dae y yd en F Ne C B) as (vs & Ev & Rv). exists vs. split; [exact Ev|].
  unfold residual_values in Rv. assert (Al : incl (b_eqs b) (b_eqs b)) by apply incl_refl. revert Al.
  assert (G : forall es vs, Forall2 (fun e v => exists n, eq_expr e = Some n /\ v = den (nd_sym n) en) es vs -> incl es (b_eqs b) ->
    Forall2 (written_value acts en) es vs).
  { clear -R D P L. induction 1 as [|e v es vs (n & En & ->) F IH]; intros Al; constructor; [|apply IH; intros x Hx; apply Al; now right].
    destruct (block_only _ _ _ _ R D P L (Al e (or_introl eq_refl))) as
      [(i & M & d & w & Hi & Ci & Hw & _ & Sw)|(j & os & is & Hj & Cn & _ & n' & En' & Dn)].
    - left. exists w. split; [exists i, M, d; auto|]. split; [exact Sw|]. destruct Sw as [(n' & En' & Dn) _]. assert (n' = n) by congruence. subst n'. apply Dn.
    - right. exists j, os, is. split; [exact Hj|]. split; [exact Cn|]. assert (n' = n) by congruence. subst n'. apply Dn. }
  exact (G _ _ Rv).
Qed.
