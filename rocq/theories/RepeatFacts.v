(** Resolving again gives the same block. *)
From Verif Require Import Base BaseFacts Num NumFacts UnitModel UnitFacts Sympy Node Build EquationModel ModelModel ProblemModel
  SpecUnits SpecExpr SpecModel SpecInc SpecCall SpecProblem SpecWritten SpecRepeat QtyFacts ModelFacts IncFacts CallFacts ProblemFacts SessionFacts
  WrittenFacts.

(** Names of the equations of a script. *)
Definition eq_keys (M : string) (cs : list cmd) : list string :=
  flat_map (fun c => match c with CEq _ n _ _ => [full_name n M] | _ => [] end) cs.

Lemma stored_named w n : n <> "" -> stored_name w n = full_name n (m_name (w_mod w)).
Proof. intros H. unfold stored_name. destruct (String.eqb_spec n ""); [contradiction|reflexivity]. Qed.

Definition whole_objs (e : eqn) : Prop := exists n, eq_expr e = Some n /\ eq_objs e = Some (nd_smap n).

Lemma cmd_eqs w c w' : run_cmd w c = (w', Ok tt) -> named_cmd c = true ->
  m_name (w_mod w') = m_name (w_mod w) /\
  match c with
  | CEq _ n _ _ => exists e, m_eqs (w_mod w') = dset (full_name n (m_name (w_mod w))) e (m_eqs (w_mod w)) /\ whole_objs e
  | _ => m_eqs (w_mod w') = m_eqs (w_mod w)
  end.
Proof.
  intros H Nm. destruct w as [h u m]. destruct c as [a n un ex ty v|a n un v|a n un v|a v un|a|a n q check]; cbn [run_cmd w_heap w_mod w_uids] in *.
  - unfold create_variable in H. destruct ex; [destruct (String.eqb ty "input"); [|destruct (String.eqb ty "output"); [|discriminate]]|];
      injection H as <-; auto.
  - injection H as <-; auto.
  - injection H as <-; auto.
  - destruct (attr_qty m a); [|discriminate]. destruct (match v with SANum _ => _ | SAAttr _ => _ end); [|discriminate].
    destruct (heap_set_value _ _ _ _) as [h' r']. injection H as <- _. auto.
  - destruct (attr_qty m a); [|discriminate]. destruct (hget h _); [|discriminate]. destruct (qkind_eqb _ _); [|discriminate]. injection H as <-. auto.
  - destruct (rbind (resolve_eq (attr_qty m) q) _) as [arg|]; [|discriminate].
    destruct (create_outcome (mkW h u m) n arg check) as [u' E]. rewrite E in H.
    destruct (set_residual _ arg) as [e [[]|]]; [|discriminate]. destruct (eq_expr e) as [nn|] eqn:Ee; [|discriminate]. cbv zeta in H.
    cbn [named_cmd] in Nm. assert (Nn : n <> "") by (intros ->; discriminate Nm).
    rewrite (stored_named (mkW h u m) n Nn) in H. cbn [w_mod w_heap] in H.
    destruct check; [destruct (forallb _ _); [|discriminate]|]; injection H as <-; (split; [reflexivity|]);
      (eexists; split; [reflexivity|]; exists nn; split; reflexivity).
Qed.

Lemma cmds_eqs cs : forall w w', run_cmds w cs = (w', Ok tt) -> forallb named_cmd cs = true ->
  m_name (w_mod w') = m_name (w_mod w) /\
  (forall k, ~ In k (eq_keys (m_name (w_mod w)) cs) -> dget k (m_eqs (w_mod w')) = dget k (m_eqs (w_mod w))) /\
  (forall k, In k (eq_keys (m_name (w_mod w)) cs) -> exists e, dget k (m_eqs (w_mod w')) = Some e /\ whole_objs e).
Proof.
  induction cs as [|c cs IH]; intros w w' H Nm; cbn [run_cmds forallb] in *.
  - injection H as <-. split; [reflexivity|]. split; [reflexivity|intros k []].
  - apply andb_prop in Nm. destruct Nm as [N1 N2]. destruct (run_cmd w c) as [w1 [[]|x]] eqn:E; [|discriminate].
    destruct (cmd_eqs _ _ _ E N1) as [M1 K1]. destruct (IH _ _ H N2) as (M2 & F2 & A2). rewrite M1 in *. split; [exact M2|].
    change (eq_keys (m_name (w_mod w)) (c :: cs)) with
      (match c with CEq _ n _ _ => [full_name n (m_name (w_mod w))] | _ => [] end ++ eq_keys (m_name (w_mod w)) cs).
    destruct c as [a n un ex ty v|a n un v|a n un v|a v un|a|a n q check]; cbn [app]; try (rewrite <- K1; split; [exact F2|exact A2]).
    destruct K1 as (e & K1 & We). split.
    + intros k Hk. rewrite F2 by (intros X; apply Hk; now right). rewrite K1, dget_dset.
      destruct (String.eqb_spec k (full_name n (m_name (w_mod w)))) as [->|]; [|reflexivity]. exfalso. apply Hk. now left.
    + intros k Hk. destruct (in_dec string_dec k (eq_keys (m_name (w_mod w)) cs)) as [Hi|Hn]; [exact (A2 k Hi)|].
      destruct Hk as [<-|Hk]; [|contradiction]. rewrite F2 by exact Hn. exists e. rewrite K1, dget_dset, String.eqb_refl. auto.
Qed.

(** Looking at moved equations. *)
Lemma look_moved h0 h1 c t e : ein (inr h0 c) e -> whole_objs e ->
  look ((h1 ++ c) ++ t) (eqmap (sh h0 h1) e) = look (h0 ++ c) e.
Proof.
  intros [I _] (n & En & Eo). rewrite En in I. unfold look. cbn. rewrite Eo. cbn [option_map].
  f_equal; [f_equal; [f_equal|]|].
  - rewrite En. reflexivity.
  - destruct (eq_elem e) as [[a b]|]; reflexivity.
  - f_equal. unfold objects_look, dmap. rewrite map_map. apply map_ext_in. intros [k l] Hin. cbn [fst snd]. f_equal.
    destruct (proj1 I k l Hin) as [L1 L2]. rewrite <- (hget_sh h0 h1 c l L1). unfold hget. apply nth_error_app1.
    rewrite app_length. unfold sh. lia.
Qed.
Lemma look_extended h t e : eqn_ok h e -> look (h ++ t) e = look h e.
Proof.
  intros (n & d & _ & Eo & Ob & _). unfold look. rewrite Eo. cbn [option_map]. f_equal. f_equal. unfold objects_look.
  apply map_ext_in. intros [k l] Hin. cbn [fst snd]. f_equal. destruct (proj2 Ob k l Hin) as (q & G & _). unfold hget in *. rewrite nth_error_app1; [reflexivity|].
  apply nth_error_Some. congruence.
Qed.

(** What a call leaves in a model, seen in a later heap [h]. *)
Definition called (d : decls) (h : heap) (m m' : mstate) : Prop :=
  exists A, model_call d (mkW [] (fun _ => 0%nat) (new_model (m_name m))) = (A, Ok tt) /\
    m_name m' = m_name m /\
    (forall k eA, dget k (m_eqs (w_mod A)) = Some eA -> exists e', dget k (m_eqs m') = Some e' /\ look h e' = look (w_heap A) eA) /\
    (forall k, dget k (m_eqs (w_mod A)) = None -> dget k (m_eqs m') = dget k (m_eqs m)) /\
    (CallFacts.kincl (w_mod A) m -> dkeys (m_eqs m') = dkeys (m_eqs m)) /\
    CallFacts.kincl (w_mod A) m'.

Lemma call_again d B : named d = true -> runs (m_name (w_mod B)) d ->
  exists B' c, model_call d B = (B', Ok tt) /\ w_heap B' = w_heap B ++ c /\ forall t, called d (w_heap B' ++ t) (w_mod B) (w_mod B').
Proof.
  intros Nm R. unfold runs in R. set (M := m_name (w_mod B)) in *.
  destruct (model_call d (mkW [] (fun _ => 0%nat) (new_model M))) as [A r] eqn:EA. simpl in R. subst r.
  unfold model_call, named in *.
  destruct (run_cmds_sim [] (w_heap B) _ [] _ _ B Nm EA (sim_start [] (fun _ => 0%nat) M B eq_refl)) as (B' & c & Rn & S & K).
  exists B', c. split; [exact Rn|]. split; [exact (s_heapB _ _ _ _ _ S)|]. intros t. exists A. split; [exact EA|].
  destruct (cmds_eqs _ _ _ EA Nm) as (NA & FA & WA). destruct (cmds_eqs _ _ _ Rn Nm) as (NB & FB & _).
  cbn [w_mod m_name new_model] in *. fold M in NB, FB. split; [exact NB|].
  assert (KA : forall k, dget k (m_eqs (w_mod A)) = None <-> ~ In k (eq_keys M (d_cons d ++ d_pars d ++ d_vars d ++ d_eqs d))).
  { intros k. split.
    - intros H Hin. destruct (WA k Hin) as (e & E & _). congruence.
    - intros H. now rewrite (FA k H). }
  split; [|split; [|split]].
  - intros k eA E. destruct (s_eqs _ _ _ _ _ S k eA E) as [I D]. exists (eqmap (sh [] (w_heap B)) eA). split; [exact D|].
    rewrite (s_heapB _ _ _ _ _ S), (s_heapA _ _ _ _ _ S). apply look_moved; [exact I|].
    destruct (in_dec string_dec k (eq_keys M (d_cons d ++ d_pars d ++ d_vars d ++ d_eqs d))) as [Hi|Hn].
    + destruct (WA k Hi) as (e & E' & W). congruence.
    + apply KA in Hn. congruence.
  - intros k E. apply FB. now apply KA.
  - intros Kl. exact (proj2 (proj2 (proj2 (K Kl)))).
  - assert (V : forall d1 d2, rel_dict [] (w_heap B) c d1 d2 -> incl (dkeys d1) (dkeys d2)).
    { intros d1 d2 Rd x Hx. apply in_keys_dget in Hx. destruct Hx as [l Hl]. destruct (Rd x l Hl) as [_ D]. exact (dget_in_keys _ _ _ D). }
    split; [exact (V _ _ (s_vars _ _ _ _ _ S))|]. split; [exact (V _ _ (s_pars _ _ _ _ _ S))|]. split; [exact (V _ _ (s_cons _ _ _ _ _ S))|].
    intros x Hx. apply in_keys_dget in Hx. destruct Hx as [e He]. destruct (s_eqs _ _ _ _ _ S x e He) as [_ D]. exact (dget_in_keys _ _ _ D).
Qed.

Lemma reload_again is : forall w, NoDup is ->
  (forall i, In i is -> exists m d, get_model w i = Some (m, d) /\ named d = true /\ runs (m_name m) d) ->
  exists w' c, reload w is = (w', Ok tt) /\ pw_heap w' = pw_heap w ++ c /\
    (forall i, ~ In i is -> get_model w' i = get_model w i) /\
    (forall i m d, In i is -> get_model w i = Some (m, d) -> exists m', get_model w' i = Some (m', d) /\ called d (pw_heap w') m m').
Proof.
  induction is as [|i is IH]; intros w ND H.
  - exists w, []. rewrite app_nil_r. split; [reflexivity|]. split; [reflexivity|]. split; [reflexivity|intros i m d []].
  - apply NoDup_cons_iff in ND. destruct ND as [Ni ND]. destruct (H i (or_introl eq_refl)) as (m & d & G & Nm & R).
    destruct (call_again d (mkW (pw_heap w) (pw_uids w) m) Nm R) as (B' & c & F & Hc & C). cbn [w_heap w_mod] in *.
    destruct (on_model w i model_call) as [w1 r1] eqn:E.
    pose proof (on_model_spec _ _ _ _ _ E) as Sp. destruct Sp as [(G0 & _)|(m0 & d0 & w2 & G0 & F0 & Hh & G2 & Go & _)]; [congruence|].
    assert (X : Some (m, d) = Some (m0, d0)) by congruence. injection X as <- <-. rewrite F in F0. injection F0 as <- <-.
    destruct (IH w1 ND) as (w' & c' & Rl & Hc' & Kp & Cl).
    { intros j Hj. rewrite Go by (intros ->; contradiction). apply H. now right. }
    exists w', (c ++ c'). cbn [reload]. rewrite E. split; [exact Rl|]. split; [rewrite Hc', Hh, Hc, app_assoc; reflexivity|]. split.
    + intros j Hj. rewrite Kp by (intros Y; apply Hj; now right). apply Go. intros ->. apply Hj. now left.
    + intros j mj dj [<-|Hj] Gj.
      * assert (X : Some (m, d) = Some (mj, dj)) by congruence. injection X as <- <-. exists (w_mod B'). rewrite Kp by exact Ni.
        split; [exact G2|]. rewrite Hc', Hh. apply C.
      * apply Cl; [exact Hj|]. rewrite Go by (intros ->; contradiction). exact Gj.
Qed.

Lemma dicts_alike {A B} (f g : A -> B) (d1 d2 : dict A) : NoDup (dkeys d1) -> dkeys d2 = dkeys d1 ->
  (forall k a, dget k d1 = Some a -> exists b, dget k d2 = Some b /\ g b = f a) -> map g (dvals d2) = map f (dvals d1).
Proof.
  revert d2. induction d1 as [|[k a] d1 IH]; intros d2 ND K H; destruct d2 as [|[k2 b] d2]; try discriminate K; [reflexivity|].
  cbn [dkeys map fst] in K, ND. injection K as -> K. apply NoDup_cons_iff in ND. destruct ND as [N ND]. cbn [dvals map snd].
  destruct (H k a) as (b' & E1 & E2); [simpl; now rewrite String.eqb_refl|]. simpl in E1. rewrite String.eqb_refl in E1. injection E1 as ->.
  f_equal; [exact E2|]. apply IH; [exact ND|exact K|]. intros k' a' E. destruct (H k' a') as (b2 & F1 & F2).
  - simpl. destruct (String.eqb_spec k' k) as [->|]; [|exact E]. exfalso. apply N. exact (dget_in_keys _ _ _ E).
  - exists b2. simpl in F1. destruct (String.eqb_spec k' k) as [->|]; [|auto]. exfalso. apply N. exact (dget_in_keys _ _ _ E).
Qed.

(** What only depends on looks. *)
Lemma names_look k : forall d h d' h', objects_look h' d' = objects_look h d -> names_of h' k (dvals d') = names_of h k (dvals d).
Proof.
  induction d as [|[x l] d IH]; intros h d' h' E; destruct d' as [|[x' l'] d']; try discriminate E; [reflexivity|].
  cbn [objects_look map fst snd] in E. injection E as _ E1 E2. pose proof (IH h d' h' E2) as X.
  cbn [dvals map snd names_of]. unfold dvals in X. rewrite E1, X. reflexivity.
Qed.
Lemma used_look k : forall es h es' h', map (look h') es' = map (look h) es -> used_names h' k es' = used_names h k es.
Proof.
  induction es as [|e es IH]; intros h es' h' E; destruct es' as [|e' es']; try discriminate E; [reflexivity|].
  cbn [map] in E. injection E as _ _ _ _ _ _ E1 E2. cbn [used_names]. rewrite (IH _ _ _ E2). unfold eq_names.
  destruct (eq_objs e') as [d'|], (eq_objs e) as [d|]; cbn [option_map] in E1; try discriminate E1; [|reflexivity].
  injection E1 as E1. now rewrite (names_look k d h d' h' E1).
Qed.
Lemma symbolic_look f sd : forall es h es' h', map (look h') es' = map (look h) es ->
  map_res (fun e => get_symbolic e f sd) es' = map_res (fun e => get_symbolic e f sd) es.
Proof.
  induction es as [|e es IH]; intros h es' h' E; destruct es' as [|e' es']; try discriminate E; [reflexivity|].
  cbn [map] in E. injection E as _ _ E3 _ E5 E6 _ E2. cbn [map_res]. rewrite (IH _ _ _ E2).
  replace (get_symbolic e' f sd) with (get_symbolic e f sd); [reflexivity|]. unfold get_symbolic. rewrite <- E3.
  destruct (match f with None => eq_elementary e' | Some b => b end).
  - destruct (eq_elem e') as [[a' b']|], (eq_elem e) as [[a b]|]; cbn in E6; try discriminate E6; [|reflexivity].
    injection E6 as Ea _ _ _ Eb _ _ _. destruct sd; congruence.
  - destruct (eq_expr e') as [n'|], (eq_expr e) as [n|]; cbn in E5; try discriminate E5; [|reflexivity]. injection E5 as E5 _ _ _. now rewrite E5.
Qed.

Lemma get_created acts i m d : get_model (fst (run_acts start_session acts)) i = Some (m, d) -> In (m_name m, d) (created acts).
Proof.
  intros G. destruct (nth_error (created acts) i) as [[M d']|] eqn:E.
  - destruct (created_model _ _ _ _ E) as (m' & G' & N). assert (X : Some (m, d) = Some (m', d')) by congruence. injection X as <- <-.
    rewrite N. exact (nth_error_In _ _ E).
  - apply nth_error_None in E. rewrite <- created_count in E. unfold get_model in G. apply nth_error_None in E. congruence.
Qed.

Lemma resolve_again acts s b : resolved acts s b -> repeatable acts ->
  exists s2 b2, do_act s AResolve = (s2, Ok tt) /\ pr_block (snd s2) = Some b2 /\
    map (look (pw_heap (fst s2))) (b_eqs b2) = map (look (pw_heap (fst s))) (b_eqs b) /\
    b_exprs b2 = b_exprs b /\ b_varlist b2 = b_varlist b /\ b_vars b2 = b_vars b /\ b_pars b2 = b_pars b.
Proof.
  intros R Rp. destruct (resolved_reload _ _ _ R) as [Rl ND]. destruct (resolved_block _ _ _ R) as (Gs & Bf & (C1 & C2 & C3) & _).
  set (w0 := fst (run_acts start_session acts)) in *. set (is := dvals (pr_models (snd s))) in *.
  assert (Hm : forall i, In i is -> exists m d, get_model w0 i = Some (m, d) /\ named d = true /\ runs (m_name m) d).
  { intros i Hi. destruct (reload_calls _ _ _ Rl ND) as [_ B]. destruct (B i Hi) as (m0 & d & _ & _ & _ & G0 & _). exists m0, d. split; [exact G0|].
    apply Rp. exact (get_created acts i m0 d G0). }
  destruct (reload_again is w0 ND Hm) as (w1 & c1 & Rl1 & Hc1 & Kp1 & Cl1). rewrite Rl in Rl1. injection Rl1 as E1. rewrite <- E1 in *. clear w1 E1.
  assert (Hm2 : forall i, In i is -> exists m d, get_model (fst s) i = Some (m, d) /\ named d = true /\ runs (m_name m) d).
  { intros i Hi. destruct (Hm i Hi) as (m & d & G & Nm & Rn). destruct (Cl1 i m d Hi G) as (m' & G' & (A & _ & N & _)).
    exists m', d. split; [exact G'|]. split; [exact Nm|]. now rewrite N. }
  destruct (reload_again is (fst s) ND Hm2) as (w2 & c2 & Rl2 & Hc2 & Kp2 & Cl2).
  destruct (resolve_outcome s Gs) as (w2' & r & Rl2' & Out). fold is in Rl2'. rewrite Rl2 in Rl2'. injection Rl2' as <- <-.
  destruct Out as (b2 & Da & Bf2). exists (w2, with_block (snd s) b2), b2. split; [exact Da|]. split; [reflexivity|].
  assert (L : map (look (pw_heap w2)) (b_eqs b2) = map (look (pw_heap (fst s))) (b_eqs b)).
  { rewrite (bf_eqs _ _ Bf2), (bf_eqs _ _ Bf). cbn [snd with_block pr_models]. fold is. unfold equations_of.
    assert (Q : forall l, incl l is -> map (look (pw_heap w2)) (flat_map (fun i => match model_of (w2, with_block (snd s) b2) i with Some m => dvals (m_eqs m) | None => [] end) l) =
      map (look (pw_heap (fst s))) (flat_map (fun i => match model_of s i with Some m => dvals (m_eqs m) | None => [] end) l)).
    { induction l as [|i l IH]; intros Hl; [reflexivity|]. cbn [flat_map]. rewrite !map_app, IH by (intros x Hx; apply Hl; now right). f_equal.
      assert (Hi : In i is) by (apply Hl; now left).
      destruct (Hm i Hi) as (m0 & d & G0 & Nm & Rn). destruct (Cl1 i m0 d Hi G0) as (m1 & G1 & Ca1).
      destruct (Cl2 i m1 d Hi G1) as (m2 & G2 & Ca2).
      unfold model_of. cbn [fst]. rewrite G1, G2. cbn [option_map fst].
      destruct Ca1 as (A & EA & N1 & T1 & F1 & K1 & I1). destruct Ca2 as (A' & EA' & N2 & T2 & F2 & K2 & I2).
      rewrite N1 in EA'. rewrite EA in EA'. injection EA' as <-.
      assert (Ok1 := proj1 (g_ok _ Gs) i m1 d G1). destruct Ok1 as (_ & _ & _ & Nd & Eok).
      apply dicts_alike; [exact Nd|exact (K2 I1)|]. intros k e1 E.
      destruct (dget k (m_eqs (w_mod A))) as [eA|] eqn:EkA.
      - destruct (T1 k eA EkA) as (e1' & D1 & L1). destruct (T2 k eA EkA) as (e2 & D2 & L2). exists e2. split; [exact D2|]. congruence.
      - exists e1. rewrite (F2 k EkA). split; [exact E|]. rewrite Hc2. apply look_extended. exact (Eok k e1 (dget_some_in _ _ _ E)). }
    apply Q, incl_refl. }
  split; [exact L|].
  assert (Ex : b_exprs b2 = b_exprs b).
  { pose proof (bf_list _ _ Bf2) as X2. pose proof (bf_list _ _ Bf) as X1.
    rewrite (symbolic_look None SRhs _ _ _ _ L), X1 in X2. now injection X2. }
  split; [exact Ex|].
  assert (V : forall s0 b0 s0' b0', do_act s0 AResolve = (s0', Ok tt) -> pr_block (snd s0') = Some b0' -> b0 = b0' ->
    exists es vs ps, all_equations (fst s0') (dvals (pr_models (snd s0))) = Ok es /\ b_eqs b0 = es /\
      used_names (pw_heap (fst s0')) KVariable es = Ok vs /\ used_names (pw_heap (fst s0')) KParameter es = Ok ps /\
      b_vars b0 = restrict (pr_vars (snd s0)) vs /\ b_pars b0 = restrict (pr_pars (snd s0)) ps).
  { intros [w p] b0 s0' b0' D Pb ->. unfold do_act, presolve in D. destruct (reload w (dvals (pr_models p))) as [wx [[]|]]; [|discriminate].
    unfold build_block in D. destruct (all_equations wx (dvals (pr_models p))) as [es|] eqn:Ea; [|discriminate]. cbn [rbind] in D.
    destruct (used_names (pw_heap wx) KVariable es) as [vs|] eqn:Ev; [|discriminate]. cbn [rbind] in D.
    destruct (used_names (pw_heap wx) KParameter es) as [ps|] eqn:Ep; [|discriminate]. cbn [rbind] in D.
    unfold block_call in D. destruct (equation_list _ _ _) as [xs|]; [|discriminate]. injection D as <-. cbn [snd with_block pr_block] in Pb.
    injection Pb as <-. exists es, vs, ps. cbn. repeat split; assumption. }
  destruct R as [Da1 Pb1].
  destruct (V _ b _ _ Da1 Pb1 eq_refl) as (es1 & vs1 & ps1 & _ & Ee1 & Ev1 & Ep1 & Bv1 & Bp1).
  destruct (V _ b2 _ b2 Da eq_refl eq_refl) as (es2 & vs2 & ps2 & _ & Ee2 & Ev2 & Ep2 & Bv2 & Bp2).
  cbn [fst] in *. subst es1 es2.
  assert (vs2 = vs1). { rewrite (used_look KVariable _ _ _ _ L) in Ev2. rewrite Ev1 in Ev2. now injection Ev2. }
  assert (ps2 = ps1). { rewrite (used_look KParameter _ _ _ _ L) in Ep2. rewrite Ep1 in Ep2. now injection Ep2. }
  subst vs2 ps2. rewrite (bf_varlist _ _ Bf2), (bf_varlist _ _ Bf), Bv1, Bv2, Bp1, Bp2. rewrite C2, C3. repeat split; reflexivity.
Qed.

Lemma created_app a b : created (a ++ b) = created a ++ created b.
Proof. induction a as [|x a IH]; [reflexivity|]. unfold created in *. cbn [flat_map app]. rewrite IH, app_assoc. reflexivity. Qed.

Lemma resolve_repeated acts s b n : resolved acts s b -> repeatable acts ->
  exists s2 b2, resolved (acts ++ repeat AResolve n) s2 b2 /\
    map (look (pw_heap (fst s2))) (b_eqs b2) = map (look (pw_heap (fst s))) (b_eqs b) /\
    b_exprs b2 = b_exprs b /\ b_varlist b2 = b_varlist b /\ b_vars b2 = b_vars b /\ b_pars b2 = b_pars b.
Proof.
  intros R Rp. induction n as [|n IH]; cbn [repeat].
  - rewrite app_nil_r. exists s, b. repeat split; try reflexivity; apply R.
  - destruct IH as (s1 & b1 & R1 & E1 & E2 & E3 & E4 & E5).
    assert (Rp1 : repeatable (acts ++ repeat AResolve n)).
    { intros M d H. rewrite created_app in H. apply in_app_or in H. destruct H as [H|H]; [exact (Rp M d H)|].
      exfalso. revert H. clear. induction n; cbn [repeat created]; auto. }
    destruct (resolve_again _ _ _ R1 Rp1) as (s2 & b2 & D & P & F1 & F2 & F3 & F4 & F5).
    exists s2, b2. split.
    + split; [|exact P]. rewrite repeat_cons.
      rewrite app_assoc, run_acts_app. destruct R1 as [D1 _]. cbn [run_acts]. rewrite D1. exact D.
    + rewrite F1, F2, F3, F4, F5. auto.
Qed.
