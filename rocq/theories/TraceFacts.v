(** The equations of a problem come from written ones. *)
From Verif Require Import Base BaseFacts Num NumFacts UnitModel UnitFacts Sympy Node Build EquationModel ModelModel ProblemModel
  SpecUnits UnitThms SpecExpr SpecQty QtyFacts SpecModel BuildFacts EquationFacts ModelFacts SpecInc IncFacts SpecCall CallFacts
  SpecProblem ProblemFacts SessionFacts SpecTrace EqInvFacts SolverModel SpecSolver SolverFacts MatrixFacts SpecWritten WrittenFacts SaidFacts UsualFacts.
From Coq Require Import Reals.
Notation num := Verif.Num.num.

Lemma den_pull f e en : den (rename f e) en = den e (pull f en).
Proof. apply den_rename; reflexivity. Qed.
Lemma den_subs m e en : den (subs m e) en = den e (pull (chain m) en).
Proof. rewrite <- (rename_id e) at 1. rewrite subs_rename. apply den_pull. Qed.
Lemma den_obj names e e' en : subs_obj names e = Ok e' -> den e' en = den e (pull (chain (sort_items names)) en).
Proof. unfold subs_obj. destruct (is_raw e); [discriminate|]. intros H. injection H as <-. apply den_subs. Qed.
Lemma den_try names e en : den (subs_try names e) en = den e (pull (chain (sort_items names)) en).
Proof.
  unfold subs_try, subs_obj. destruct (is_raw e) eqn:E; [|apply den_subs].
  rewrite <- (raw_rename (chain (sort_items names)) e E) at 1. apply den_pull.
Qed.

Lemma chain_turn new m : (forall k v, In (k, v) m -> v = new k) -> forall x, chain m x = in_turn new (map fst m) x.
Proof.
  induction m as [|[k v] m IH]; intros H x; [reflexivity|]. cbn [map fst].
  change (chain ((k, v) :: m) x) with (chain m (ren1 k v x)). change (in_turn new (k :: map fst m) x) with (in_turn new (map fst m) (if String.eqb x k then new k else x)).
  rewrite IH by (intros k' v' Hk; apply H; now right). rewrite (H k v (or_introl eq_refl)). reflexivity.
Qed.
Lemma names_carried dm host : carried dm host (chain (sort_items (names_map dm host))).
Proof.
  exists (map fst (sort_items (names_map dm host))). split; [|split].
  - apply sort_items_nodup, names_map_nodup.
  - intros k. change (map fst (sort_items (names_map dm host))) with (dkeys (sort_items (names_map dm host))). rewrite sort_items_keys. split; intros H.
    + apply in_keys_dget in H. destruct H as [v H]. rewrite names_map_get in H. destruct (mem_str k (declared dm)) eqn:E; [|discriminate]. now apply mem_str_spec.
    + apply mem_str_spec in H. assert (X := names_map_get dm host k). rewrite H in X. apply dget_some_in in X. apply in_map_iff. now exists (k, full_name (strip_name k (m_name dm)) host).
  - apply chain_turn. intros k v H. rewrite sort_items_in in H. apply in_dget_nodup in H; [|apply names_map_nodup].
    rewrite names_map_get in H. unfold new_name. destruct (mem_str k (declared dm)); [congruence|discriminate].
Qed.
Lemma carried_clean h dm host g : donor_ok h dm -> no_capture dm host -> carried dm host g -> forall x, g x = new_name dm host x.
Proof.
  intros [Hne [O1 [O2 [O3 _]]]] HC (ks & ND & Hk & Hg) x. rewrite Hg.
  set (m := map (fun k => (k, new_name dm host k)) ks).
  assert (F : map fst m = ks) by (unfold m; rewrite map_map; apply map_id).
  rewrite <- F at 1. rewrite <- chain_turn.
  2: { intros k v H. unfold m in H. apply in_map_iff in H. destruct H as (y & E & _). now injection E as <- <-. }
  rewrite chain_lookup.
  - destruct (dget x m) as [v|] eqn:E.
    + apply dget_some_in in E. unfold m in E. apply in_map_iff in E. destruct E as (y & E & _). now injection E as <- <-.
    + unfold new_name. destruct (mem_str x (declared dm)) eqn:Mx; [|reflexivity]. apply mem_str_spec in Mx. apply Hk in Mx.
      apply dget_none_iff in E. exfalso. apply E. change (dkeys m) with (map fst m). now rewrite F.
  - now rewrite F.
  - intros k v Hkv Hv. rewrite F in Hv. apply Hk in Hv. unfold m in Hkv. apply in_map_iff in Hkv. destruct Hkv as (y & E & Hy). injection E as <- <-.
    apply Hk in Hy. assert (My := Hy). apply mem_str_spec in My. unfold new_name in *. rewrite My in *.
    destruct (declared_suffix h dm y O1 O2 O3 Hy) as [a ->]. rewrite strip_full in *.
    destruct (declared_suffix h dm _ O1 O2 O3 Hv) as [c Ec]. rewrite Ec in *. f_equal. symmetry. exact (HC a c Hy Hv Ec).
Qed.

Definition says_so (h : heap) (q : ueq loc) (f : string -> string) : epred := fun x el fl _ =>
  (exists n, x = Some n /\ forall v en, env_for h v (pull f en) -> den (nd_sym n) en = residual_meaning h v q) /\
  match q with
  | UResid _ => fl = false
  | UElem l r => fl = true /\ exists a c, el = Some (a, c) /\
      forall v en, env_for h v (pull f en) -> den (nd_sym a) en = meaning h v l /\ den (nd_sym c) en = meaning h v r
  | UElemN l k => fl = true /\ exists a c, el = Some (a, c) /\
      forall v en, env_for h v (pull f en) -> den (nd_sym a) en = meaning h v l /\ den (nd_sym c) en = num_value k
  end.

Lemma env_for_same h v en : env_for h v (pull (fun x => x) en) <-> env_for h v en.
Proof. unfold env_for, pull. cbn [e_sym e_der]. reflexivity. Qed.

Lemma says_made h q arg name e : build_eq h q = Ok arg -> set_residual (blank_eqn name) arg = (e, Ok tt) ->
  made_so (says_so h q (fun x => x)) e.
Proof.
  intros Hb Hr. destruct (eq_data _ _ _ _ _ Hb Hr) as (n & En & _ & _ & _ & _ & _ & _ & D & _).
  split; [exists n; split; [exact En|]; intros v en H; apply D; now apply env_for_same|].
  destruct q as [x|l r|l k]; simpl in Hb; binv.
  - unfold set_residual, finish_residual in Hr. cbv beta iota zeta delta [with_form with_expr with_elem with_type with_objs eq_expr] in Hr.
    injection Hr as <-. reflexivity.
  - unfold set_residual in Hr. destruct (node_sub x (ONode x0)) as [d|] eqn:Es; [|discriminate].
    unfold finish_residual in Hr. cbv beta iota zeta delta [with_form with_expr with_elem with_type with_objs eq_expr] in Hr.
    injection Hr as <-. split; [reflexivity|]. exists x, x0. split; [reflexivity|]. intros v en H. apply (proj1 (env_for_same _ _ _)) in H.
    split; now apply build_meaning.
  - unfold set_residual in Hr. destruct (node_sub x (ONode (number_node k (nd_unit x)))) as [d|] eqn:Es; [|discriminate].
    unfold finish_residual in Hr. cbv beta iota zeta delta [with_form with_expr with_elem with_type with_objs eq_expr] in Hr.
    injection Hr as <-. split; [reflexivity|]. exists x, (number_node k (nd_unit x)). split; [reflexivity|]. intros v en H. apply (proj1 (env_for_same _ _ _)) in H.
    split; [now apply build_meaning|reflexivity].
Qed.

Lemma says_renamed h q f names w e e2 : made_so (says_so h q f) e -> convert_symbolic names w e = Ok e2 ->
  made_so (says_so h q (fun x => chain (sort_items names) (f x))) e2.
Proof.
  intros [(n & En & D) Sd] H. unfold convert_symbolic in H. rewrite En in H. binv. split.
  - eexists. split; [reflexivity|]. cbn [node_with nd_sym]. intros v en He. rewrite (den_obj _ _ _ _ Hb0). apply D. exact He.
  - cbn [eq_elementary eq_elem]. destruct q as [y|l r|l k]; [exact Sd|destruct Sd as (F & a & c & Ec & Ds)..].
    + split; [exact F|]. rewrite Ec in Hb1. unfold convert_sides in Hb1. cbn [rbind] in Hb1.
      destruct (subs_obj names (nd_repr a)); [|discriminate Hb1]. cbn [rbind] in Hb1.
      destruct (subs_obj names (nd_repr c)); [|discriminate Hb1]. cbn [rbind] in Hb1.
      destruct (pick_all w _); [|discriminate Hb1]. cbn [rbind] in Hb1.
      destruct (pick_all w _); [|discriminate Hb1]. cbn [rbind] in Hb1. injection Hb1 as <-.
      eexists _, _. split; [reflexivity|]. cbn [node_with nd_sym]. intros v en He. rewrite !den_try. now apply Ds.
    + split; [exact F|]. rewrite Ec in Hb1. unfold convert_sides in Hb1. cbn [rbind] in Hb1.
      destruct (subs_obj names (nd_repr a)); [|discriminate Hb1]. cbn [rbind] in Hb1.
      destruct (subs_obj names (nd_repr c)); [|discriminate Hb1]. cbn [rbind] in Hb1.
      destruct (pick_all w _); [|discriminate Hb1]. cbn [rbind] in Hb1.
      destruct (pick_all w _); [|discriminate Hb1]. cbn [rbind] in Hb1. injection Hb1 as <-.
      eexists _, _. split; [reflexivity|]. cbn [node_with nd_sym]. intros v en He. rewrite !den_try. now apply Ds.
Qed.

Lemma equation_trace acts i m d k e : get_model (fst (run_acts start_session acts)) i = Some (m, d) -> In (k, e) (m_eqs m) ->
  exists h q f, arrives acts i h q f /\ conveys h q f e.
Proof.
  intros G Hin.
  refine (run_trace (fun past i x el fl t => exists h q f, arrives past i h q f /\ says_so h q f x el fl t) _ _ _ acts i m d G k e Hin).
  - intros past a j x el fl t (h & q & f & A & S). exists h, q, f. split; [now apply arrives_stays|exact S].
  - intros past a j h q arg name e0 Hw Hb Hr. exists h, q, (fun x => x). split; [now apply arrives_written|exact (says_made _ _ _ _ _ Hb Hr)].
  - intros past j1 j fl m1 d1 dm dd w e1 e2 Gi Gj Hf (h & q & f & A & S) Hc. exists h, q. eexists.
    split; [exact (arrives_copied _ _ _ _ _ _ _ _ _ _ _ _ Gi Gj Hf A (names_carried dm (m_name m1)))|].
    exact (says_renamed h q f _ _ _ _ S Hc).
Qed.

Lemma block_trace acts s b e : resolved acts s b -> In e (b_eqs b) ->
  exists i h q f, In i (dvals (pr_models (snd s))) /\ arrives (acts ++ [AResolve]) i h q f /\ conveys h q f e.
Proof.
  intros R He. destruct (block_equations _ _ _ R) as (_ & Eq & _). rewrite Eq in He. apply in_equations_of in He.
  destruct He as (i & m & k & Hi & Hm & Hk). destruct R as [R _]. unfold model_of in Hm.
  destruct (get_model (fst s) i) as [[m' d]|] eqn:Gm; [|discriminate]. injection Hm as ->.
  destruct (equation_trace (acts ++ [AResolve]) i m d k e) as (h & q & f & A & S); [|exact Hk|].
  { rewrite run_acts_app. cbn [run_acts fold_left]. rewrite R. exact Gm. }
  exists i, h, q, f. split; [exact Hi|]. split; [exact A|exact S].
Qed.

(** Without incorporation names stay. *)
Lemma arrives_plain acts i h q f : (forall k j fl, ~ In (AInc k j fl) acts) -> arrives acts i h q f -> forall x, f x = x.
Proof.
  intros N A. induction A as [past a i h q W|past i j fl m d dm dd h q f g Gi Gj Hf A IH C|past a i h q f A IH]; intros x.
  - reflexivity.
  - exfalso. apply (N i j fl). apply in_or_app. right. now left.
  - apply IH. intros k j fl Hin. apply (N k j fl). apply in_or_app. now left.
Qed.

(** Models of a problem were added to it. *)
Lemma model_added acts : forall k i, In (k, i) (pr_models (snd (run_acts start_session acts))) -> In (AAdd i) acts.
Proof.
  induction acts as [|a acts IH] using rev_ind; intros k i H; [destruct H|].
  rewrite run_acts_app in H. simpl in H. set (s := run_acts start_session acts) in *.
  assert (G : good s) by (apply run_good, start_good). destruct s as [w p] eqn:Es.
  destruct (do_act (w, p) a) as [[w' p'] r] eqn:E. cbn [fst snd] in *. apply in_or_app.
  destruct (do_act_step w p a w' p' r (g_ok _ G) E) as [S [(j & -> & -> & -> & Gi)|((E1 & E2 & E3) & No)]].
  - unfold add_model in H. destruct (get_model w j) as [[m d]|]; [|left; exact (IH k i H)]. cbn [pr_models] in H.
    apply in_dset in H. destruct H as [[_ ->]|H]; [right; now left|left; exact (IH k i H)].
  - left. rewrite E1 in H. exact (IH k i H).
Qed.
Lemma resolved_added acts s b i : resolved acts s b -> In i (dvals (pr_models (snd s))) -> In (AAdd i) acts.
Proof.
  intros R H. destruct (resolved_block _ _ _ R) as (_ & _ & (E & _ & _) & _). rewrite E in H. apply in_map_iff in H.
  destruct H as ([k j] & <- & H). exact (model_added _ _ _ H).
Qed.

Lemma problem_written acts s b e : resolved acts s b -> In e (b_eqs b) ->
  exists i h q f, In (AAdd i) acts /\ arrives (acts ++ [AResolve]) i h q f /\ conveys h q f e.
Proof.
  intros R He. destruct (block_trace _ _ _ _ R He) as (i & h & q & f & Hi & A & S). exists i, h, q, f.
  split; [exact (resolved_added _ _ _ _ R Hi)|]. now split.
Qed.
Lemma problem_written_plain acts s b e : resolved acts s b -> (forall k j fl, ~ In (AInc k j fl) acts) -> In e (b_eqs b) ->
  exists i h q, In (AAdd i) acts /\ arrives (acts ++ [AResolve]) i h q (fun x => x) /\ conveys h q (fun x => x) e.
Proof.
  intros R N He. destruct (problem_written _ _ _ _ R He) as (i & h & q & f & Hi & A & S).
  assert (F : f = (fun x => x)).
  { apply FunctionalExtensionality.functional_extensionality. apply (arrives_plain (acts ++ [AResolve]) i h q); [|exact A].
    intros k j fl Hin. apply in_app_or in Hin. destruct Hin as [Hin|[Hin|[]]]; [exact (N k j fl Hin)|discriminate]. }
  subst f. exists i, h, q. split; [exact Hi|]. now split.
Qed.

(** ** Copied equations stay *)
Lemma full_other n n' M : n' <> n -> full_name n M <> full_name n' M.
Proof. intros H E. apply H. symmetry. exact (full_inj_same _ _ _ E). Qed.
Lemma cmd_leaves w c w' r n : run_cmd w c = (w', r) -> (forall x n' q check, c = CEq x n' q check -> n' <> "" /\ n' <> n) ->
  dget (full_name n (m_name (w_mod w))) (m_eqs (w_mod w')) = dget (full_name n (m_name (w_mod w))) (m_eqs (w_mod w)).
Proof.
  intros H L. apply (cmd_dget _ _ _ _ _ H). intros a n' q ch E. destruct (L _ _ _ _ E) as [Ne Nn]. unfold stored_name.
  apply String.eqb_neq in Ne. rewrite Ne. now apply full_other.
Qed.
Lemma cmds_leaves cs n : forall w w' r, run_cmds w cs = (w', r) -> (forall x n' q check, In (CEq x n' q check) cs -> n' <> "" /\ n' <> n) ->
  dget (full_name n (m_name (w_mod w))) (m_eqs (w_mod w')) = dget (full_name n (m_name (w_mod w))) (m_eqs (w_mod w)).
Proof.
  induction cs as [|c cs IH]; intros w w' r H L; cbn [run_cmds] in H; [now injection H as <- _|].
  destruct (run_cmd w c) as [w1 r1] eqn:E.
  assert (A := cmd_leaves w c w1 r1 n E (fun x n' q check Ec => L x n' q check (or_introl Ec))).
  assert (N : m_name (w_mod w1) = m_name (w_mod w)) by exact (run_cmd_name _ _ _ _ E).
  destruct r1 as [[]|x]; [|injection H as <- _; exact A].
  assert (B := IH _ _ _ H (fun x n' q check Hc => L x n' q check (or_intror Hc))). rewrite N in B. now rewrite B.
Qed.

Lemma inc_leaves h m dm f h' m' r : i_eqs f = false -> incorporate h m dm f = (h', m', r) -> m_eqs m' = m_eqs m.
Proof.
  intros Hf H. unfold incorporate in H. rewrite Hf in H.
  destruct (if i_vars f then _ else _) as [[h1 m1] r1] eqn:E1.
  assert (N1 : m_eqs m1 = m_eqs m).
  { destruct (i_vars f); [exact (add_all_eqs _ add_variable_eqs _ _ _ _ _ _ _ E1)|now injection E1 as _ <- _]. }
  destruct r1 as [[]|x]; [|injection H as _ <- _; exact N1].
  destruct (if i_pars f then _ else _) as [[h2 m2] r2] eqn:E2.
  assert (N2 : m_eqs m2 = m_eqs m1).
  { destruct (i_pars f); [exact (add_all_eqs _ add_parameter_eqs _ _ _ _ _ _ _ E2)|now injection E2 as _ <- _]. }
  destruct r2 as [[]|x]; [|injection H as _ <- _; congruence].
  destruct (if i_cons f then _ else _) as [[h3 m3] r3] eqn:E3.
  assert (N3 : m_eqs m3 = m_eqs m2).
  { destruct (i_cons f); [exact (add_all_eqs _ add_constant_eqs _ _ _ _ _ _ _ E3)|now injection E3 as _ <- _]. }
  destruct r3 as [[]|x]; injection H as _ <- _; congruence.
Qed.

Lemma run_cmds_name cs : forall w w' r, run_cmds w cs = (w', r) -> m_name (w_mod w') = m_name (w_mod w).
Proof.
  induction cs as [|c cs IH]; intros w w' r H; cbn [run_cmds] in H; [now injection H as <- _|].
  destruct (run_cmd w c) as [w1 r1] eqn:E. apply run_cmd_name in E. destruct r1; [rewrite <- E; exact (IH _ _ _ H)|now injection H as <- _].
Qed.
Lemma add_equations_name names wo rw es : forall m m' r, add_equations m es names wo rw = (m', r) -> m_name m' = m_name m.
Proof.
  induction es as [|e es IH]; intros m m' r H; cbn [add_equations] in H; [now injection H as <- _|].
  unfold add_equation in H. destruct (convert_symbolic names wo _) as [e2|x]; [|now injection H as <- _]. exact (IH _ _ _ H).
Qed.
Lemma incorporate_name h m dm f h' m' r : incorporate h m dm f = (h', m', r) -> m_name m' = m_name m.
Proof.
  intros H. unfold incorporate in H.
  destruct (if i_vars f then _ else _) as [[h1 m1] r1] eqn:E1.
  assert (N1 : m_name m1 = m_name m).
  { destruct (i_vars f); [exact (add_all_name _ add_variable_name _ _ _ _ _ _ _ E1)|now injection E1 as _ <- _]. }
  destruct r1 as [[]|x]; [|injection H as _ <- _; exact N1].
  destruct (if i_pars f then _ else _) as [[h2 m2] r2] eqn:E2.
  assert (N2 : m_name m2 = m_name m1).
  { destruct (i_pars f); [exact (add_all_name _ add_parameter_name _ _ _ _ _ _ _ E2)|now injection E2 as _ <- _]. }
  destruct r2 as [[]|x]; [|injection H as _ <- _; congruence].
  destruct (if i_cons f then _ else _) as [[h3 m3] r3] eqn:E3.
  assert (N3 : m_name m3 = m_name m2).
  { destruct (i_cons f); [exact (add_all_name _ add_constant_name _ _ _ _ _ _ _ E3)|now injection E3 as _ <- _]. }
  destruct r3 as [[]|x]; [|injection H as _ <- _; congruence].
  destruct (i_eqs f); [|injection H as _ <- _; congruence].
  destruct (add_equations m3 _ _ _ _) as [m4 r4] eqn:E4. injection H as _ <- _. apply add_equations_name in E4. congruence.
Qed.

(** The equation of local name [n] in model [i]. *)
Definition kept_eq (n : string) (m m' : mstate) : Prop :=
  m_name m' = m_name m /\ dget (full_name n (m_name m)) (m_eqs m') = dget (full_name n (m_name m)) (m_eqs m).
Definition kept_at (i : nat) (n : string) (w w' : pworld) : Prop :=
  forall m d, get_model w i = Some (m, d) -> exists m', get_model w' i = Some (m', d) /\ kept_eq n m m'.
Lemma kept_refl i n w : kept_at i n w w.
Proof. intros m d G. exists m. split; [exact G|]. split; reflexivity. Qed.
Lemma kept_trans i n w1 w2 w3 : kept_at i n w1 w2 -> kept_at i n w2 w3 -> kept_at i n w1 w3.
Proof.
  intros A B m d G. destruct (A m d G) as (m2 & G2 & N2 & E2). destruct (B m2 d G2) as (m3 & G3 & N3 & E3).
  exists m3. split; [exact G3|]. split; [congruence|]. rewrite N2 in E3. congruence.
Qed.
Lemma on_model_kept {A} w k (f : decls -> mworld -> mworld * res A) w2 r i n : on_model w k f = (w2, r) ->
  (forall m d w', k = i -> get_model w i = Some (m, d) -> f d (mkW (pw_heap w) (pw_uids w) m) = (w', r) -> kept_eq n m (w_mod w')) ->
  kept_at i n w w2.
Proof.
  intros H HF. apply on_model_spec in H. destruct H as [(_ & -> & _)|(m & d & w' & G & F & Hh & G2 & Go & L)]; [apply kept_refl|].
  intros m0 d0 G0. destruct (Nat.eq_dec i k) as [->|Hne].
  - assert (X : Some (m0, d0) = Some (m, d)) by congruence. injection X as -> ->. exists (w_mod w'). split; [exact G2|]. exact (HF m d w' eq_refl G0 F).
  - exists m0. split; [now rewrite Go|]. split; reflexivity.
Qed.
Lemma call_kept w k w2 r i n : (forall m d, get_model w i = Some (m, d) -> declares_no d n) -> on_model w k model_call = (w2, r) -> kept_at i n w w2.
Proof.
  intros Dn H. apply (on_model_kept _ _ _ _ _ _ _ H). intros m d w' -> G F. split.
  - exact (run_cmds_name _ (mkW (pw_heap w) (pw_uids w) m) _ _ F).
  - exact (cmds_leaves _ n (mkW (pw_heap w) (pw_uids w) m) _ _ F (Dn m d G)).
Qed.
Lemma reload_kept is i n : forall w w' r, (forall m d, get_model w i = Some (m, d) -> declares_no d n) -> reload w is = (w', r) -> kept_at i n w w'.
Proof.
  induction is as [|k is IH]; intros w w' r Dn H; simpl in H; [injection H as <- _; apply kept_refl|].
  destruct (on_model w k model_call) as [w1 r1] eqn:E. assert (K := call_kept _ _ _ _ _ _ Dn E).
  destruct r1 as [[]|x]; [|injection H as <- _; exact K]. apply (kept_trans _ _ _ w1 _ K). refine (IH _ _ _ _ H).
  intros m d G. destruct (get_model w i) as [[m0 d0]|] eqn:G0.
  - destruct (K m0 d0 G0) as (m' & G' & _). assert (X : Some (m, d) = Some (m', d0)) by congruence. injection X as -> ->. exact (Dn m0 d0 eq_refl).
  - exfalso. apply on_model_spec in E. destruct E as [(_ & -> & _)|(mk & dk & wk & Gk & F & Hh & G2 & Go & L)]; [congruence|].
    destruct (Nat.eq_dec i k) as [->|Hne]; [congruence|]. rewrite Go in G by exact Hne. congruence.
Qed.
Lemma act_kept s a i n : leaves i n a -> (forall m d, get_model (fst s) i = Some (m, d) -> declares_no d n) ->
  kept_at i n (fst s) (fst (fst (do_act s a))).
Proof.
  intros L Dn. destruct s as [w p]. destruct (do_act (w, p) a) as [[w' p'] r] eqn:E. cbn [fst snd] in *.
  destruct a as [nm dd|k c|k|k j f|k|m1 m2 outs ins e|m1 m2 out inp|names|c|]; simpl in E; cbn [leaves] in L.
  - injection E as <- _ _. intros m d G. exists m. split; [|split; reflexivity]. unfold get_model in *. cbn [pw_models].
    rewrite nth_error_app1; [exact G|]. apply nth_error_Some. congruence.
  - destruct (on_model w k _) as [w1 r1] eqn:E1. injection E as <- _ _. apply (on_model_kept _ _ _ _ _ _ _ E1). intros m d w' Hk G F. split.
    + exact (run_cmd_name _ (mkW (pw_heap w) (pw_uids w) m) _ _ F).
    + exact (cmd_leaves (mkW (pw_heap w) (pw_uids w) m) _ _ _ n F (L Hk)).
  - destruct (on_model w k _) as [w1 r1] eqn:E1. injection E as <- _ _. exact (call_kept _ _ _ _ _ _ Dn E1).
  - destruct (get_model w j) as [[dm dd]|] eqn:Gj; [|injection E as <- _ _; apply kept_refl].
    destruct (on_model w k _) as [w1 r1] eqn:E1. injection E as <- _ _. apply (on_model_kept _ _ _ _ _ _ _ E1). intros m d w' Hk G F.
    simpl in F. destruct (incorporate (pw_heap w) m dm f) as [[h3 m3] r4] eqn:Ei. injection F as <- _. cbn [w_mod]. split.
    + exact (incorporate_name _ _ _ _ _ _ _ Ei).
    + now rewrite (inc_leaves _ _ _ _ _ _ _ (L Hk) Ei).
  - destruct (get_model w k); injection E as <- _ _; apply kept_refl.
  - destruct (match e with None => Ok None | Some q => _ end) as [x|x] eqn:Ex; [|injection E as <- _ _; apply kept_refl].
    unfold connect_vars in E. destruct (get_model w m2) as [[s2 d2]|]; [|injection E as <- _ _; apply kept_refl].
    destruct (match m1 with CMName _ => _ | CMModel i => _ end); [|injection E as <- _ _; apply kept_refl].
    destruct (forallb _ (cv_list ins) && forallb _ (cv_list outs)).
    2: { destruct ins, outs; injection E as <- _ _; apply kept_refl. }
    destruct (match x with Some a => Ok a | None => balance _ _ _ end) as [ar|] eqn:Ba; [|injection E as <- _ _; apply kept_refl].
    destruct (rbind (qty_names (pw_heap w) (cv_list outs)) _) as [[o i']|]; [|injection E as <- _ _; apply kept_refl].
    destruct (on_model w m2 _) as [w1 r1] eqn:E1.
    assert (Q : kept_at i n w w1) by (apply (on_model_kept _ _ _ _ _ _ _ E1); intros m d w2 Hk; contradiction).
    destruct r1; injection E as <- _ _; exact Q.
  - destruct (rbind (build (pw_heap w) out) _) as [[o i0]|x] eqn:Ex; [|injection E as <- _ _; apply kept_refl].
    unfold connect_nodes in E. destruct (get_model w m2) as [[s2 d2]|]; [|injection E as <- _ _; apply kept_refl].
    destruct (match m1 with CMName _ => _ | CMModel i => _ end) as [pu r0].
    set (w0 := mkPW (pw_heap w) (pw_uids w) pu (pw_models w)) in *.
    assert (O1 : kept_at i n w w0) by exact (kept_refl i n w).
    destruct r0 as [n1|e]; [|injection E as <- _ _; exact O1].
    destruct (node_sub i0 (ONode o)) as [d|e] eqn:Ed; [|injection E as <- _ _; exact O1].
    destruct (on_model w0 m2 _) as [w2 r2] eqn:E2.
    assert (Q : kept_at i n w w2) by (apply (kept_trans _ _ _ w0 _ O1), (on_model_kept _ _ _ _ _ _ _ E2); intros m dd w3 Hk; contradiction).
    destruct r2 as [e|e]; injection E as <- _ _; exact Q.
  - injection E as <- _ _. apply kept_refl.
  - injection E as <- _ _. apply kept_refl.
  - unfold presolve in E. destruct (reload w (dvals (pr_models p))) as [w1 r1] eqn:E1.
    assert (Q := reload_kept _ _ _ _ _ _ Dn E1).
    destruct r1 as [[]|x]; [|injection E as <- _ _; exact Q]. destruct (build_block w1 p); [|injection E as <- _ _; exact Q].
    destruct (block_call _) as [b' r']. injection E as <- _ _. exact Q.
Qed.
Lemma acts_kept acts i n : forall s m d, (forall a, In a acts -> leaves i n a) -> get_model (fst s) i = Some (m, d) -> declares_no d n ->
  exists m', get_model (fst (run_acts s acts)) i = Some (m', d) /\ kept_eq n m m'.
Proof.
  induction acts as [|a acts IH]; intros s m d L G Dn; [exists m; split; [exact G|split; reflexivity]|].
  cbn [run_acts].
  destruct (act_kept s a i n (L a (or_introl eq_refl))) with (m := m) (d := d) as (m1 & G1 & N1 & E1); [|exact G|].
  { intros m0 d0 G0. assert (X : Some (m0, d0) = Some (m, d)) by congruence. injection X as -> ->. exact Dn. }
  destruct (IH (fst (do_act s a)) m1 d (fun b Hb => L b (or_intror Hb)) G1 Dn) as (m2 & G2 & N2 & E2).
  exists m2. split; [exact G2|]. split; [congruence|]. rewrite N1 in E2. congruence.
Qed.

Lemma copied_kept a1 i j a2 s b m d dm dd n e :
  resolved (a1 ++ AInc i j inc_default :: a2) s b -> distinct_models (a1 ++ AInc i j inc_default :: a2) ->
  In i (added (a1 ++ AInc i j inc_default :: a2)) ->
  get_model (fst (run_acts start_session a1)) i = Some (m, d) -> get_model (fst (run_acts start_session a1)) j = Some (dm, dd) ->
  donor_ok (pw_heap (fst (run_acts start_session a1))) dm -> no_capture dm (m_name m) ->
  dget (full_name n (m_name dm)) (m_eqs dm) = Some e ->
  (forall a, In a a2 -> leaves i n a) -> declares_no d n ->
  exists e', In e' (b_eqs b) /\ repeats dm (m_name m) e e'.
Proof.
  intros R Dm Ha Gi Gj Hd Hc He L Dn. set (acts := a1 ++ AInc i j inc_default :: a2) in *. set (s1 := run_acts start_session a1) in *.
  assert (G1 : good s1) by (apply run_good, start_good).
  assert (Ho : host_ok m).
  { destruct (proj1 (g_ok _ G1) i m d Gi) as ((A & _) & (B & _) & (C & _) & _). split; [exact A|]. split; [exact B|exact C]. }
  destruct (incorporate_ok (pw_heap (fst s1)) m dm Hd Ho Hc) as (h' & m' & Ei & Nm & _ & _ & _ & _ & _ & _ & _ & Eq & _).
  destruct (Eq n e He) as (e' & Ge' & Ne' & S & Sd).
  assert (X : exists m2, get_model (fst (fst (do_act s1 (AInc i j inc_default)))) i = Some (m2, d) /\ m_name m2 = m_name m /\
                         dget (full_name n (m_name m)) (m_eqs m2) = Some e').
  { destruct s1 as [w p]. cbn [fst snd] in *. destruct (do_act (w, p) (AInc i j inc_default)) as [[w' p'] r] eqn:E. cbn [fst].
    simpl in E. rewrite Gj in E. destruct (on_model w i _) as [w1 r1] eqn:E1. injection E as <- _ _.
    apply on_model_spec in E1. destruct E1 as [(Nn & _ & _)|(m0 & d0 & w2 & G & F & _ & G2 & _ & _)]; [congruence|].
    assert (X : Some (m0, d0) = Some (m, d)) by congruence. injection X as -> ->. simpl in F. rewrite Ei in F. injection F as <- _.
    exists m'. split; [exact G2|]. split; [exact Nm|exact Ge']. }
  destruct X as (m2 & G2 & N2 & E2).
  assert (L2 : forall a, In a (a2 ++ [AResolve]) -> leaves i n a).
  { intros a Hin. apply in_app_or in Hin. destruct Hin as [Hin|[<-|[]]]; [exact (L a Hin)|exact I]. }
  destruct (acts_kept (a2 ++ [AResolve]) i n _ m2 d L2 G2 Dn) as (m3 & G3 & N3 & E3).
  assert (Gs : get_model (fst s) i = Some (m3, d)).
  { destruct R as [R _]. rewrite run_acts_app in G3. cbn [run_acts] in G3.
    replace (run_acts (fst (do_act s1 (AInc i j inc_default))) a2) with (run_acts start_session acts) in G3 by (unfold acts; rewrite run_acts_app; reflexivity).
    rewrite R in G3. exact G3. }
  exists e'. split.
  - rewrite (block_added _ _ _ R Dm). unfold equations_of. apply in_flat_map. exists i. split; [exact Ha|].
    unfold model_of. rewrite Gs. rewrite N2, E2 in E3. apply dget_some_in in E3. apply in_map_iff. now exists (full_name n (m_name m), e').
  - destruct S as (Ty & El & _ & nn & nn' & En & En' & Dd & _). split; [exact Ty|]. split; [exact El|]. split; [|exact Sd].
    exists nn, nn'. split; [exact En|]. split; [exact En'|]. rewrite Nm in Dd. exact Dd.
Qed.
