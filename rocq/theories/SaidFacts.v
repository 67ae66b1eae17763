(** The system says what the program says, with the equations made outside the
    declarations (C76). *)
From Verif Require Import Base BaseFacts Num NumFacts UnitModel UnitFacts Sympy Node Build EquationModel ModelModel ProblemModel
  SpecUnits UnitThms SpecExpr SpecQty QtyFacts SpecModel BuildFacts EquationFacts ModelFacts SpecInc IncFacts SpecCall CallFacts
  SpecProblem ProblemFacts SessionFacts UsualFacts ConnFacts SpecLink LinkFacts SolverModel SpecSolver SolverFacts OdeFacts DaeFacts SpecSymbols SymbolFacts
  SpecWritten WrittenFacts SpecExact ExactFacts SpecOwn OwnFacts SpecSession ViewFacts SpecSaid.
From Coq Require Import Reals Lra.
Notation num := Verif.Num.num.

(** ** Statements change the equations they name *)
Definition named_by (d : decls) (M k : string) : Prop := exists n, In n (eq_names (script d)) /\ k = full_name n M.

Lemma cmd_dget w c w' r k : run_cmd w c = (w', r) -> (forall a n q ch, c = CEq a n q ch -> k <> stored_name w n) ->
  dget k (m_eqs (w_mod w')) = dget k (m_eqs (w_mod w)).
Proof.
  intros H Ne. destruct r as [[]|x]; [|apply cmd_failed in H; now rewrite H].
  destruct w as [h u m]. destruct c as [a n un ex ty v|a n un v|a n un v|a v un|a|a n q check]; cbn [run_cmd w_heap w_mod w_uids] in *.
  - unfold assign_qty, create_variable in H. destruct ex; [destruct (String.eqb ty "input"); [|destruct (String.eqb ty "output")]|]; try discriminate H; injection H as <-; reflexivity.
  - injection H as <-. reflexivity.
  - injection H as <-. reflexivity.
  - destruct (attr_qty m a); [|discriminate]. destruct (match v with SANum _ => _ | SAAttr _ => _ end); [|discriminate].
    destruct (heap_set_value _ _ _ _) as [h' [[]|]]; [|discriminate]. injection H as <-. reflexivity.
  - destruct (attr_qty m a); [|discriminate]. destruct (hget h _); [|discriminate]. destruct (qkind_eqb _ _); [|discriminate]. injection H as <-. reflexivity.
  - specialize (Ne a n q check eq_refl). destruct (rbind (resolve_eq (attr_qty m) q) _) as [arg|]; [|discriminate].
    destruct (create_outcome (mkW h u m) n arg check) as [u' E]. rewrite E in H. clear E.
    destruct (set_residual _ arg) as [e0 [[]|]]; [|discriminate]. destruct (eq_expr e0) as [nn|]; [|discriminate]. cbv zeta in H.
    set (e2 := mkEqn _ _ _ _ _ _ _) in H.
    assert (X : m_eqs (w_mod w') = dset (stored_name (mkW h u m) n) e2 (m_eqs m))
      by (destruct check; [destruct (forallb _ _); [|discriminate]|]; injection H as <-; reflexivity).
    rewrite X. now apply dget_dset_neq.
Qed.

Lemma cmds_dget cs k : forall w w' r, run_cmds w cs = (w', r) -> forallb clean_cmd cs = true ->
  (forall n, In n (eq_names cs) -> k <> full_name n (m_name (w_mod w))) ->
  dget k (m_eqs (w_mod w')) = dget k (m_eqs (w_mod w)).
Proof.
  induction cs as [|c cs IH]; intros w w' r H Cc Ne; cbn [run_cmds forallb] in *; [now injection H as <- _|].
  apply andb_prop in Cc. destruct Cc as [C1 C2]. destruct (run_cmd w c) as [w1 r1] eqn:E.
  assert (S : dget k (m_eqs (w_mod w1)) = dget k (m_eqs (w_mod w))).
  { apply (cmd_dget _ _ _ _ _ E). intros a n q ch ->. cbn [clean_cmd] in C1. apply andb_prop in C1. destruct C1 as [_ C1]. apply Bool.negb_true_iff in C1.
    unfold stored_name. rewrite C1. apply Ne. now left. }
  destruct r1 as [[]|x]; [|injection H as <- _; exact S]. rewrite <- S. apply (IH _ _ _ H C2).
  intros n Hn. rewrite (run_cmd_name _ _ _ _ E). apply Ne. cbn [eq_names flat_map]. apply in_or_app. now right.
Qed.

(** ** Models that stay as they are but for their declarations *)
Definition tidy_world (w : pworld) : Prop :=
  names_ok (pw_heap w) /\ forall i m d, get_model w i = Some (m, d) -> clean (m_name m) = true /\ forallb clean_cmd (script d) = true.
Definition same_but (m : mstate) (d : decls) (m' : mstate) : Prop :=
  m_name m' = m_name m /\ forall k, ~ named_by d (m_name m) k -> dget k (m_eqs m') = dget k (m_eqs m).
Lemma same_but_refl m d : same_but m d m.
Proof. split; auto. Qed.

Lemma on_model_all {A} w i (f : decls -> mworld -> mworld * res A) w2 r (Q : mstate -> decls -> mstate -> Prop) : tidy_world w -> on_model w i f = (w2, r) ->
  (forall m d w', get_model w i = Some (m, d) -> f d (mkW (pw_heap w) (pw_uids w) m) = (w', r) ->
     names_ok (w_heap w') /\ m_name (w_mod w') = m_name m /\ Q m d (w_mod w')) ->
  tidy_world w2 /\ forall j m' d, get_model w2 j = Some (m', d) -> exists m, get_model w j = Some (m, d) /\ m_name m' = m_name m /\ ((j = i /\ Q m d m') \/ (j <> i /\ m' = m)).
Proof.
  intros [N C] H HF. apply on_model_spec in H. destruct H as [(G0 & -> & _)|(m & d & w' & G & F & Hh & G2 & Go & L)].
  - split; [now split|]. intros j m' d G. exists m'. split; [exact G|]. split; [reflexivity|]. right. split; [intros ->; congruence|reflexivity].
  - destruct (HF m d w' G F) as (N' & Nm & HQ).
    assert (X : forall j m' d', get_model w2 j = Some (m', d') -> exists m0, get_model w j = Some (m0, d') /\ m_name m' = m_name m0 /\ ((j = i /\ Q m0 d' m') \/ (j <> i /\ m' = m0))).
    { intros j m' d' Gj. destruct (Nat.eq_dec j i) as [->|Hne].
      - assert (X : Some (m', d') = Some (w_mod w', d)) by congruence. injection X as -> ->. exists m. auto.
      - rewrite Go in Gj by exact Hne. exists m'. auto. }
    split; [|exact X]. split; [now rewrite Hh|]. intros j m' d' Gj. destruct (X j m' d' Gj) as (m0 & G0 & E & _). rewrite E. exact (C j m0 d' G0).
Qed.

Lemma call_same w i w2 r : tidy_world w -> on_model w i model_call = (w2, r) ->
  tidy_world w2 /\ forall j m' d, get_model w2 j = Some (m', d) -> exists m, get_model w j = Some (m, d) /\ same_but m d m'.
Proof.
  intros T H. destruct (on_model_all w i model_call w2 r same_but T H) as [T2 X].
  - intros m d w' G F. destruct (proj2 T i m d G) as [C1 C2].
    destruct (cmds_arrows (script d) (mkW (pw_heap w) (pw_uids w) m) w' r F C1 C2 (proj1 T)) as [N _]. split; [exact N|].
    assert (Nm := tr_name _ _ _ _ (run_cmds_tr _ _ _ _ F)). cbn [w_mod] in Nm. split; [exact Nm|]. split; [exact Nm|].
    intros k Hk. apply (cmds_dget (script d) k (mkW (pw_heap w) (pw_uids w) m) w' r F C2). intros n Hn E. apply Hk. exists n. auto.
  - split; [exact T2|]. intros j m' d G. destruct (X j m' d G) as (m & G0 & _ & [[_ Q]|[_ ->]]); exists m; split; auto. apply same_but_refl.
Qed.

Lemma reload_same is : forall w w' r, tidy_world w -> reload w is = (w', r) ->
  tidy_world w' /\ forall j m' d, get_model w' j = Some (m', d) -> exists m, get_model w j = Some (m, d) /\ same_but m d m'.
Proof.
  induction is as [|i is IH]; intros w w' r T H; cbn [reload] in H.
  - injection H as <- _. split; [exact T|]. intros j m' d G. exists m'. split; [exact G|apply same_but_refl].
  - destruct (on_model w i model_call) as [w1 r1] eqn:E. destruct (call_same _ _ _ _ T E) as [T1 S1].
    destruct r1 as [[]|x]; [|injection H as <- _; split; [exact T1|exact S1]].
    destruct (IH _ _ _ T1 H) as [T2 S2]. split; [exact T2|]. intros j m' d G. destruct (S2 j m' d G) as (m1 & G1 & N1 & K1).
    destruct (S1 j m1 d G1) as (m & G0 & N0 & K0). exists m. split; [exact G0|]. split; [congruence|]. intros k Hk. rewrite K1 by (rewrite N0; exact Hk). now apply K0.
Qed.

(** ** Connections *)
Lemma named_at h en : named_val h en = at_names h en.
Proof. reflexivity. Qed.

Lemma given_says h q arg u name u' e : name <> "" -> build_eq h q = Ok arg -> connection_init u name arg = (u', Ok e) -> says (given h q) e.
Proof.
  intros Ne Hb H. destruct (connection_data _ _ _ _ _ _ _ Ne Hb H) as (_ & _ & nn & En & _ & _ & Dn).
  unfold connection_init in H. destruct (init_outcome u main_thread name arg "") as [u1 E]. rewrite E in H. clear E.
  apply String.eqb_neq in Ne. rewrite Ne in H.
  destruct (set_residual (blank_eqn name) arg) as [e1 [[]|x]] eqn:Er; [|discriminate].
  assert (P := eq_parts _ _ _ _ _ Hb Er).
  destruct (residual_again arg _ _ (with_eowner e1 "") (built_not_other _ _ _ Hb) Er) as (e2 & E2 & X & T & N & _ & El & Ef).
  rewrite E2 in H. specialize (El eq_refl). specialize (Ef eq_refl).
  unfold sweep_objects in H. destruct (eq_expr e2) as [n2|] eqn:E3; [|discriminate]. injection H as _ <-. cbn in En.
  assert (B : forall en x a, build h x = Ok a -> den (nd_sym a) en = value_at h en x)
    by (intros en x a Ha; apply build_meaning; [apply named_env|exact Ha]).
  unfold says. cbn [eq_expr eq_elementary eq_elem].
  destruct q as [x|l r|l k]; cbn [given wr_value wr_sides].
  - split; [exists nn; split; [exact En|]; intros en; apply (Dn (at_names h en)), named_env|]. rewrite <- P. exact Ef.
  - destruct P as (P1 & a & b & P2 & Ba & Bb). split; [exists nn; split; [exact En|]; intros en; exact (Dn _ _ (named_env h en))|].
    split; [etransitivity; [exact Ef|exact P1]|]. exists a, b. split; [etransitivity; [exact El|exact P2]|]. split; intros en; now apply B.
  - destruct P as (P1 & a & b & P2 & Ba & Bb). split; [exists nn; split; [exact En|]; intros en; exact (Dn _ _ (named_env h en))|].
    split; [etransitivity; [exact Ef|exact P1]|]. exists a, b. split; [etransitivity; [exact El|exact P2]|]. split; intros en; [now apply B|now rewrite Bb].
Qed.

Lemma sum_at_meaning h en ls : sum_meaning h (at_names h en) ls = sum_at h en ls.
Proof. induction ls as [|l ls IH]; [reflexivity|]. cbn [sum_meaning sum_at]. now rewrite IH. Qed.

(** What the action of a connection of variables brings. *)
Definition var_written (h : heap) (outs ins : list loc) (x : option (ueq loc)) : written :=
  match x with
  | None => mkWritten "" (fun en => arith BSub (sum_at h en ins) (sum_at h en outs)) None
  | Some q => given h q
  end.

Lemma connection_effect w outs ins x a w' e : names_ok (w_heap w) ->
  match x with None => balance (w_heap w) ins outs = Ok a | Some q => build_eq (w_heap w) q = Ok a end ->
  model_connection w outs ins a = (w', Ok e) ->
  w_heap w' = w_heap w /\ m_name (w_mod w') = m_name (w_mod w) /\
  Forall simple_name (var_names (w_heap w) outs) /\ Forall simple_name (var_names (w_heap w) ins) /\
  exists e', m_eqs (w_mod w') = dset (conn_name (var_names (w_heap w) outs) (var_names (w_heap w) ins)) e' (m_eqs (w_mod w)) /\
    says (var_written (w_heap w) outs ins x) e'.
Proof.
  intros N Hx H. unfold model_connection in H.
  destruct (forallb (is_variable (w_heap w)) ins && forallb (is_variable (w_heap w)) outs) eqn:Ev; [|discriminate].
  destruct (rbind (qty_names (w_heap w) outs) _) as [name|] eqn:En; [|discriminate].
  assert (Ne : name <> "") by (binv; apply append_ne).
  assert (Nm : name = conn_name (var_names (w_heap w) outs) (var_names (w_heap w) ins))
    by (binv; apply qty_names_spec in Hb, Hb0; now rewrite Hb, Hb0).
  destruct (connection_init (w_uids w) name a) as [u [e1|]] eqn:Ec; [|discriminate]. injection H as <- <-.
  apply andb_prop in Ev. destruct Ev as [V1 V2]. cbn [w_heap w_mod with_eqs m_name m_eqs].
  split; [reflexivity|]. split; [reflexivity|]. split; [now apply variables_named|]. split; [now apply variables_named|].
  exists e1. split; [now rewrite Nm|].
  destruct x as [q|]; cbn [var_written]; [exact (given_says _ _ _ _ _ _ _ Ne Hx Ec)|].
  apply balance_built in Hx. destruct Hx as [(-> & _)|(q & Eq & Hb)].
  { exfalso. unfold connection_init, equation_init in Ec. destruct (String.eqb name ""); simpl in Ec; discriminate. }
  destruct (given_says _ _ _ _ _ _ _ Ne Hb Ec) as [(n & Hn & Hd) Sd]. cbn [given wr_sides wr_value] in *. split; [|exact Sd].
  exists n. split; [exact Hn|]. intros en. cbn [wr_value]. rewrite Hd. unfold value_at. rewrite (balance_meaning _ _ _ _ _ Eq). now rewrite !sum_at_meaning.
Qed.

(** ** The key of an equation *)
Definition key_of (acts : list act) (p : place) (M : string) : string :=
  match p with
  | PVars os is => conn_name os is
  | PNamed s => link_key s M
  | PDrawn t => link_key (str_nat (S (pw_puids (fst (run_acts start_session (firstn t acts))) main_thread))) M
  | PEq n => full_name n M
  end.

Lemma link_effect past m j out inp s1 : let s := run_acts start_session past in tidy_world (fst s) ->
  do_act s (AConnN m j out inp) = (s1, Ok tt) ->
  tidy_world (fst s1) /\ forall i m' d, get_model (fst s1) i = Some (m', d) -> exists m0, get_model (fst s) i = Some (m0, d) /\ m_name m' = m_name m0 /\
    ((i <> j /\ m' = m0) \/
     (i = j /\ exists e, m_eqs m' = dset (key_of past (place_from past m) (m_name m0)) e (m_eqs m0) /\
        says (mkWritten "" (fun en => arith BSub (value_at (pw_heap (fst s)) en inp) (value_at (pw_heap (fst s)) en out)) None) e)).
Proof.
  cbv zeta. intros T E. destruct (run_acts start_session past) as [w p] eqn:Es. cbn [fst] in *. cbn [do_act] in E.
  destruct (build (pw_heap w) out) as [o|] eqn:Bo; [|discriminate E].
  destruct (build (pw_heap w) inp) as [i|] eqn:Bi; [|discriminate E]. cbn [rbind] in E.
  unfold connect_nodes in E. destruct (get_model w j) as [[s2 d2]|] eqn:G2; [|discriminate E].
  destruct (match m with CMName _ => _ | CMModel i => _ end) as [pu r1] eqn:Em.
  set (w0 := mkPW (pw_heap w) (pw_uids w) pu (pw_models w)) in *.
  destruct r1 as [n1|x]; [|discriminate E].
  assert (Kn : forall M, key_of past (place_from past m) M = link_key n1 M).
  { intros M. unfold place_from. destruct m as [i1|t1]; cbn [origin_of].
    - destruct (get_model w i1) as [[t1 d1]|] eqn:G1; [|discriminate]. injection Em as _ <-.
      assert (X : get_model (fst (run_acts start_session past)) i1 = Some (t1, d1)) by now rewrite Es.
      apply model_created in X. rewrite X. reflexivity.
    - unfold gen_rnd_str in Em. destruct (String.eqb t1 ""); injection Em as _ <-; [|reflexivity].
      cbn [key_of]. rewrite firstn_all, Es. reflexivity. }
  destruct (node_sub i (ONode o)) as [dn|] eqn:Eb; [|discriminate E].
  destruct (on_model w0 j _) as [w1 r1] eqn:E1. destruct r1 as [x|x]; [|discriminate E]. injection E as <-. cbn [fst].
  assert (T0 : tidy_world w0) by exact T.
  destruct (on_model_all w0 j _ w1 (Ok x) (fun m0 _ m' => exists e, m_eqs m' = dset (link_key n1 (m_name m0)) e (m_eqs m0) /\
     says (mkWritten "" (fun en => arith BSub (value_at (pw_heap w) en inp) (value_at (pw_heap w) en out)) None) e) T0 E1) as [T1 X].
  - intros m0 d0 w' G0 F.
    assert (Y : Some (s2, d2) = Some (m0, d0)) by (rewrite <- G2; exact G0). injection Y as <- <-.
    destruct (create_outcome (mkW (pw_heap w0) (pw_uids w0) s2) (link_name n1 (m_name s2)) (EANode dn) false) as [u' Ec]. unfold link_name in Ec. rewrite Ec in F. clear Ec.
    fold (link_name n1 (m_name s2)) in F.
    cbn [set_residual finish_residual with_expr eq_expr] in F. cbv zeta in F. injection F as <- _.
    split; [exact (proj1 T)|]. split; [reflexivity|].
    eexists. split; [reflexivity|]. split; [|reflexivity]. exists dn. split; [reflexivity|]. intros en. cbn [wr_value].
    assert (Ed : nd_sym dn = SSub (nd_sym i) (nd_sym o)) by (clear - Eb; cbn [node_sub] in Eb; destruct (unit_sub _ _); [|discriminate Eb]; cbn [rbind] in Eb; now injection Eb as <-).
    rewrite Ed, den_sub. unfold value_at.
    now rewrite (build_meaning _ _ en _ _ (named_env _ _) Bi), (build_meaning _ _ en _ _ (named_env _ _) Bo).
  - split; [exact T1|]. intros i0 m' d G. destruct (X i0 m' d G) as (m0 & G0 & N0 & [[-> Q]|[Ne ->]]); exists m0; (split; [exact G0|]); (split; [exact N0|]); [right|now left].
    split; [reflexivity|]. now rewrite Kn.
Qed.

(** ** Every action *)
Lemma told_view past i v m d : all_ok start_session past -> distinct_models past -> nth_error (views past) i = Some v ->
  get_model (fst (run_acts start_session past)) i = Some (m, d) ->
  stands (mkW (pw_heap (fst (run_acts start_session past))) (pw_uids (fst (run_acts start_session past))) m) (vw_things v).
Proof. intros O D Hv G. destruct (vd_ok _ _ (run_viewed _ O D) i m d v G Hv) as (_ & _ & _ & S). apply S. Qed.

(** What an action does to the equations of a model. *)
Definition acted (past : list act) (a : act) (j : nat) (m : mstate) (d : decls) (m' : mstate) : Prop :=
  m_name m' = m_name m /\
  ((exists p x e, bring past a = Some (j, p, x) /\ m_eqs m' = dset (key_of past p (m_name m)) e (m_eqs m) /\ says x e /\
      match p with PVars os is => Forall simple_name os /\ Forall simple_name is | PEq n => clean n = true | _ => True end) \/
   ((forall p x, bring past a <> Some (j, p, x)) /\ forall k, ~ named_by d (m_name m) k -> dget k (m_eqs m') = dget k (m_eqs m))).

Lemma act_effect past a s' : let s := run_acts start_session past in
  all_ok start_session past -> distinct_models past -> tidy_world (fst s) -> tidy_act a = true ->
  (forall i at0 n q c v, a = AStmt i (CEq at0 n q c) -> nth_error (views past) i = Some v -> eq_known (vw_things v) q = true) ->
  do_act s a = (s', Ok tt) ->
  tidy_world (fst s') /\ forall j m' d, get_model (fst s') j = Some (m', d) ->
    (get_model (fst s) j = None /\ m_eqs m' = [] /\ forall p x, bring past a <> Some (j, p, x)) \/ exists m, get_model (fst s) j = Some (m, d) /\ acted past a j m d m'.
Proof.
  cbv zeta. intros O D T P Kn E.
  assert (Same : forall w2, tidy_world w2 -> (forall p x j, bring past a <> Some (j, p, x)) ->
    (forall j m' d, get_model w2 j = Some (m', d) -> exists m, get_model (fst (run_acts start_session past)) j = Some (m, d) /\ same_but m d m') ->
    tidy_world w2 /\ forall j m' d, get_model w2 j = Some (m', d) ->
      (get_model (fst (run_acts start_session past)) j = None /\ m_eqs m' = [] /\ forall p x, bring past a <> Some (j, p, x)) \/
      exists m, get_model (fst (run_acts start_session past)) j = Some (m, d) /\ acted past a j m d m').
  { intros w2 T2 Nb S. split; [exact T2|]. intros j m' d G. right. destruct (S j m' d G) as (m & G0 & Nm & K). exists m. split; [exact G0|].
    split; [exact Nm|]. right. split; [intros p x; apply Nb|exact K]. }
  assert (Id : (forall p x j, bring past a <> Some (j, p, x)) ->
    tidy_world (fst (run_acts start_session past)) /\ forall j m' d, get_model (fst (run_acts start_session past)) j = Some (m', d) ->
      (get_model (fst (run_acts start_session past)) j = None /\ m_eqs m' = [] /\ forall p x, bring past a <> Some (j, p, x)) \/
      exists m, get_model (fst (run_acts start_session past)) j = Some (m, d) /\ acted past a j m d m').
  { intros Nb. apply Same; [exact T|exact Nb|]. intros j m' d G. exists m'. split; [exact G|apply same_but_refl]. }
  assert (Tv := fun i v m d => told_view past i v m d O D).
  destruct a as [n dd|k c|k|k j f|k|m1 m2 outs ins e|m1 m2 out inp|names|c|]; cbn [tidy_act] in P; try discriminate P.
  6: { destruct (link_effect past m1 m2 out inp s' T E) as [T' X]. split; [exact T'|]. intros j m' d G. right.
       destruct (X j m' d G) as (m & G0 & Nm & [[Ne ->]|[-> (e & Ee & Se)]]); exists m; (split; [exact G0|]); (split; [exact Nm|]).
       - right. split; [|auto]. intros p x H. cbn [bring] in H. congruence.
       - left. exists (place_from past m1), (mkWritten "" (fun en => arith BSub (value_at (pw_heap (fst (run_acts start_session past))) en inp)
           (value_at (pw_heap (fst (run_acts start_session past))) en out)) None), e. split; [reflexivity|]. split; [exact Ee|]. split; [exact Se|].
         unfold place_from. destruct (origin_of past m1) as [[]|]; exact I. }
  all: assert (Bh : forall b, bring past b = bring past b) by reflexivity.
  all: destruct (run_acts start_session past) as [w p] eqn:Es; cbn [fst] in *; cbn [do_act] in E.
  - injection E as <-. cbn [clean_act] in P. apply andb_prop in P. cbn [fst].
    assert (X : forall i m d, get_model (mkPW (pw_heap w) (pw_uids w) (pw_puids w) (pw_models w ++ [(new_model n, dd)])) i = Some (m, d) ->
                get_model w i = Some (m, d) \/ (get_model w i = None /\ m = new_model n /\ d = dd)).
    { intros i m d H. unfold get_model in *. cbn [pw_models] in H. destruct (Nat.lt_ge_cases i (List.length (pw_models w))) as [L|L].
      - left. now rewrite nth_error_app1 in H by exact L.
      - right. split; [now apply nth_error_None|]. rewrite nth_error_app2 in H by exact L. destruct (i - _)%nat as [|z]; [|destruct z; discriminate]. injection H as <- <-. auto. }
    split.
    + split; [exact (proj1 T)|]. intros i m d H. destruct (X i m d H) as [H1|(_ & -> & ->)]; [exact (proj2 T i m d H1)|exact P].
    + intros j m' d G. destruct (X j m' d G) as [G0|(G0 & -> & _)]; [right|left; split; [exact G0|split; [reflexivity|discriminate]]].
      exists m'. split; [exact G0|]. split; [reflexivity|]. right. split; [discriminate|auto].
  - destruct (on_model w k _) as [w1 r1] eqn:E1. injection E as <- ->. cbn [fst].
    destruct (on_model_all w k _ w1 (Ok tt) (fun m d m' => acted past (AStmt k c) k m d m') T E1) as [T1 X].
    + intros m d w' G F. destruct (proj2 T k m d G) as [C1 C2].
      destruct (cmd_arrows (mkW (pw_heap w) (pw_uids w) m) c w' (Ok tt) F C1 P (proj1 T)) as [N _]. split; [exact N|].
      assert (Nm := run_cmd_name _ _ _ _ F). cbn [w_mod] in Nm. split; [exact Nm|]. split; [exact Nm|].
      assert (Lv : List.length (views past) = List.length (pw_models w)).
      { pose proof (vd_len _ _ (run_viewed _ O D)) as L. rewrite Es in L. exact L. }
      destruct (nth_error (views past) k) as [v|] eqn:Ev.
      2: { exfalso. apply nth_error_None in Ev. unfold get_model in G. assert (k < List.length (pw_models w))%nat by (apply nth_error_Some; congruence). lia. }
      assert (S := Tv k v m d Ev G). cbn [fst] in S.
      destruct c as [a n u ex ty v0|a n u v0|a n u v0|a x u|a|a n q check].
      6: { left. cbn [bring]. rewrite Ev. cbn [option_map]. cbn [clean_cmd] in P. apply andb_prop in P. destruct P as [P1 P2].
           assert (K1 : step_known (vw_things v) (CEq a n q check) = true) by (cbn [step_known]; rewrite (Kn k a n q check v eq_refl Ev); exact P2).
           destruct (cmd_written (vw_things v) _ _ _ F S K1) as [_ (e & Ee & _ & Se)]. cbn [w_mod] in Ee.
           exists (PEq n), (read_eq (vw_things v) n q), e. split; [reflexivity|]. split; [exact Ee|]. split; [exact Se|exact P1]. }
      all: right; split; [discriminate|]; intros k0 _; apply (cmd_dget _ _ _ _ _ F); discriminate.
    + split; [exact T1|]. intros j m' d G. right. destruct (X j m' d G) as (m & G0 & Nm & [[-> Q]|[Ne ->]]); exists m; (split; [exact G0|]); [exact Q|].
      split; [reflexivity|]. right. split; [|auto]. intros p0 x H. cbn [bring] in H. destruct c; try discriminate H.
      destruct (nth_error (views past) k); [|discriminate H]. injection H as H _. congruence.
  - destruct (on_model w k _) as [w1 r1] eqn:E1. injection E as <- ->. cbn [fst]. destruct (call_same _ _ _ _ T E1) as [T1 S1]. apply Same; auto. discriminate.
  - destruct (get_model w k); [|discriminate]. injection E as <-. cbn [fst]. apply Id. discriminate.
  - destruct (match e with None => _ | Some _ => _ end) as [x|] eqn:Ex; [|discriminate].
    unfold connect_vars in E. destruct (get_model w m2) as [[s2 d2]|] eqn:G2; [|discriminate].
    destruct (match m1 with CMName _ => _ | CMModel i => _ end); [|discriminate].
    destruct (forallb _ (cv_list ins) && forallb _ (cv_list outs)).
    2: { destruct ins, outs; discriminate. }
    destruct (match x with Some _ => _ | None => _ end) as [ar|] eqn:Ea; [|discriminate].
    destruct (rbind (qty_names (pw_heap w) (cv_list outs)) _) as [[o i']|]; [|discriminate].
    destruct (on_model w m2 _) as [w1 r1] eqn:E1. destruct r1 as [e1|]; [|discriminate]. injection E as <-. cbn [fst].
    destruct (on_model_all w m2 _ w1 (Ok e1) (fun m d m' => acted past (AConn m1 m2 outs ins e) m2 m d m') T E1) as [T1 X].
    + intros m d w' G F.
      assert (Hx : match e with None => balance (pw_heap w) (cv_list ins) (cv_list outs) = Ok ar | Some q => build_eq (pw_heap w) q = Ok ar end).
      { destruct e as [q|]; [|injection Ex as <-; exact Ea]. destruct (build_eq (pw_heap w) q) as [y|]; [|discriminate Ex]. cbn [rbind] in Ex. injection Ex as <-. exact Ea. }
      destruct (connection_effect (mkW (pw_heap w) (pw_uids w) m) (cv_list outs) (cv_list ins) e ar w' e1 (proj1 T) Hx F) as (Hh & Nm & S1 & S2 & e' & Ee & Se).
      cbn [w_heap w_mod] in *. split; [rewrite Hh; exact (proj1 T)|]. split; [exact Nm|]. split; [exact Nm|]. left.
      eexists (PVars (var_names (pw_heap w) (cv_list outs)) (var_names (pw_heap w) (cv_list ins))), (var_written (pw_heap w) (cv_list outs) (cv_list ins) e), e'.
      split; [cbn [bring]; rewrite Es; cbn [fst]; destruct e; reflexivity|]. split; [exact Ee|]. split; [exact Se|]. split; assumption.
    + split; [exact T1|]. intros j m' d G. right. destruct (X j m' d G) as (m & G0 & Nm & [[-> Q]|[Ne ->]]); exists m; (split; [exact G0|]); [exact Q|].
      split; [reflexivity|]. right. split; [|auto]. intros p0 x0 H. cbn [bring] in H. congruence.
  - injection E as <-. cbn [fst]. apply Id. discriminate.
  - injection E as <-. cbn [fst]. apply Id. discriminate.
  - unfold presolve in E. destruct (reload w (dvals (pr_models p))) as [w1 [[]|]] eqn:E1; [|discriminate].
    destruct (reload_same _ _ _ _ T E1) as [T1 S1].
    destruct (build_block w1 p); [|discriminate]. destruct (block_call _) as [b' r']. injection E as <- _. cbn [fst]. apply Same; auto. discriminate.
Qed.

(** ** Keys tell the places apart *)
Notation draws s := (pw_puids (fst s) main_thread).
Definition fine (acts : list act) (p : place) : Prop :=
  match p with
  | PVars os is => Forall simple_name os /\ Forall simple_name is
  | PNamed s => has_char ">" s = false /\ has_char "-" s = false /\ numeral s = false
  | PDrawn t => (t < List.length acts)%nat /\
      (draws (run_acts start_session (firstn t acts)) < draws (run_acts start_session (firstn (S t) acts)))%nat
  | PEq n => clean n = true
  end.

Lemma draws_more b : forall s, (draws s <= draws (run_acts s b))%nat.
Proof.
  induction b as [|a b IH]; intros s; [apply le_n|]. cbn [run_acts]. etransitivity; [|apply IH].
  destruct s as [w p]. destruct (do_act (w, p) a) as [[w' p'] r] eqn:E. exact (act_puids _ _ _ _ _ _ E).
Qed.
Lemma firstn_le {A} t t' (l : list A) : (t <= t')%nat -> exists r, firstn t' l = firstn t l ++ r.
Proof.
  revert t t'. induction l as [|x l IH]; intros t t' L; [exists []; now rewrite !firstn_nil|].
  destruct t as [|t]; [now exists (firstn t' (x :: l))|]. destruct t' as [|t']; [lia|]. destruct (IH t t') as [r E]; [lia|].
  exists r. cbn [firstn]. now rewrite E.
Qed.
Lemma draws_mono acts t t' : (t <= t')%nat -> (draws (run_acts start_session (firstn t acts)) <= draws (run_acts start_session (firstn t' acts)))%nat.
Proof. intros L. destruct (firstn_le t t' acts L) as [r ->]. rewrite run_acts_app. apply draws_more. Qed.

Lemma drawn_key_arrow acts t M : has_char ">" (key_of acts (PDrawn t) M) = true.
Proof. apply link_key_arrow. Qed.
Lemma eq_key_arrow n M : clean n = true -> clean M = true -> has_char ">" (full_name n M) = false.
Proof. intros A B. assert (C := clean_full _ _ A B). apply clean_spec in C. tauto. Qed.

Lemma key_inj acts p p' M : clean M = true -> fine acts p -> fine acts p' -> key_of acts p M = key_of acts p' M -> p = p'.
Proof.
  intros Cm F F' E. assert (Hm : has_char ">" M = false) by (apply clean_spec in Cm; tauto).
  assert (Nd : forall t c, is_digit c = false -> has_char c (str_nat t) = false) by (intros t c Hc; apply numeral_char; [exact Hc|apply str_nat_numeral]).
  assert (A1 : forall s os is, fine acts (PNamed s) -> link_key s M = conn_name os is -> False).
  { intros s os is (B1 & B2 & _) H. exact (link_not_conn _ _ _ _ B1 B2 Hm H). }
  assert (A2 : forall t os is, link_key (str_nat t) M = conn_name os is -> False).
  { intros t os is H. exact (link_not_conn _ _ _ _ (Nd _ ">"%char eq_refl) (Nd _ "-"%char eq_refl) Hm H). }
  assert (A3 : forall s t, fine acts (PNamed s) -> link_key s M = link_key (str_nat t) M -> False).
  { intros s t (_ & _ & B) H. apply link_key_inj in H. rewrite H, str_nat_numeral in B. discriminate. }
  assert (A4 : forall n k, clean n = true -> full_name n M = k -> has_char ">" k = true -> False).
  { intros n k Hn <- H. rewrite (eq_key_arrow _ _ Hn Cm) in H. discriminate. }
  destruct p as [os is|s|t|n], p' as [os' is'|s'|t'|n']; cbn [key_of] in E.
  - destruct F as [F1 F2], F' as [F3 F4]. assert (Q := conn_name_inj _ _ _ _ F1 F2 F3 F4 E). injection Q as -> ->. reflexivity.
  - destruct (A1 s' os is F' (eq_sym E)).
  - destruct (A2 _ os is (eq_sym E)).
  - destruct (A4 n' _ F' (eq_sym E) (conn_name_arrow os is)).
  - destruct (A1 s os' is' F E).
  - apply link_key_inj in E. now rewrite E.
  - destruct (A3 s _ F E).
  - destruct (A4 n' _ F' (eq_sym E) (link_key_arrow _ _)).
  - destruct (A2 _ os' is' E).
  - destruct (A3 s' _ F' (eq_sym E)).
  - apply link_key_inj, str_nat_inj in E. injection E as E. destruct F as [_ F], F' as [_ F']. f_equal.
    destruct (Nat.lt_trichotomy t t') as [L|[L|L]]; [|exact L|].
    + assert (X := draws_mono acts (S t) t' L). cbn [fine] in *. lia.
    + assert (X := draws_mono acts (S t') t L). cbn [fine] in *. lia.
  - destruct (A4 n' _ F' (eq_sym E) (link_key_arrow _ _)).
  - destruct (A4 n _ F E (conn_name_arrow os' is')).
  - destruct (A4 n _ F E (link_key_arrow _ _)).
  - destruct (A4 n _ F E (link_key_arrow _ _)).
  - unfold full_name in E. apply append_cancel_r in E. now rewrite E.
Qed.

Lemma key_more acts b p M : (forall t, p = PDrawn t -> (t <= List.length acts)%nat) -> key_of (acts ++ b) p M = key_of acts p M.
Proof.
  destruct p as [os is|s|t|n]; intros L; try reflexivity. cbn [key_of]. rewrite firstn_app. specialize (L t eq_refl).
  replace (t - List.length acts)%nat with 0%nat by lia. cbn [firstn]. now rewrite app_nil_r.
Qed.
Lemma fine_more acts b p : fine acts p -> fine (acts ++ b) p.
Proof.
  destruct p as [os is|s|t|n]; auto. cbn [fine]. intros [L D]. rewrite app_length. split; [lia|]. rewrite !firstn_app.
  replace (t - List.length acts)%nat with 0%nat by lia. replace (S t - List.length acts)%nat with 0%nat by lia. cbn [firstn]. now rewrite !app_nil_r.
Qed.
Lemma fine_time acts p t : fine acts p -> p = PDrawn t -> (t <= List.length acts)%nat.
Proof. intros F ->. destruct F. lia. Qed.

Lemma place_time past a j p x t : bring past a = Some (j, p, x) -> p = PDrawn t -> t = List.length past.
Proof.
  destruct a as [n dd|k c|k|k i f|k|m1 m2 outs ins e|m1 m2 out inp|names|c|]; cbn [bring]; try discriminate; intros H ->.
  - destruct c; try discriminate. destruct (nth_error _ _); discriminate.
  - discriminate.
  - assert (X : place_from past m1 = PDrawn t) by congruence. unfold place_from in X. destruct (origin_of past m1) as [[s|]|]; congruence.
Qed.

Lemma new_fine past a s' j p x : plain_origins (past ++ [a]) -> do_act (run_acts start_session past) a = (s', Ok tt) -> bring past a = Some (j, p, x) ->
  match p with PVars os is => Forall simple_name os /\ Forall simple_name is | PEq n => clean n = true | _ => True end -> fine (past ++ [a]) p.
Proof.
  intros Pl E B Q. destruct p as [os is|s|t|n]; try exact Q; clear Q.
  - destruct a as [n dd|k c|k|k i f|k|m1 m2 outs ins e|m1 m2 out inp|names|c|]; try discriminate B.
    + cbn [bring] in B. destruct c; try discriminate B. destruct (nth_error _ _); discriminate B.
    + cbn [bring] in B. assert (X : place_from past m1 = PNamed s) by congruence. unfold place_from in X.
      destruct (origin_of past m1) as [[s0|]|] eqn:Eo; try discriminate X. injection X as ->.
      apply (Pl m1 m2 out inp s); [apply in_or_app; right; now left|].
      destruct m1 as [i|t]; cbn [origin_of] in *; [|exact Eo].
      destruct (nth_error (created past) i) as [md|] eqn:Ec; [|discriminate Eo]. now rewrite (created_prefix _ _ _ _ Ec).
  - assert (Lt := place_time _ _ _ _ _ t B eq_refl). subst t. destruct a as [n dd|k c|k|k i f|k|m1 m2 outs ins e|m1 m2 out inp|names|c|]; try discriminate B.
    { cbn [bring] in B. destruct c; try discriminate B. destruct (nth_error _ _); discriminate B. }
    cbn [bring] in B. assert (X : place_from past m1 = PDrawn (List.length past)) by congruence. unfold place_from in X. clear B.
    destruct (run_acts start_session past) as [w p0] eqn:Es.
    destruct (link_made _ _ _ _ _ _ _ E) as (s2 & d2 & n & e & _ & Tk & _ & Pu & _).
    assert (Hm : m1 = CMName "").
    { destruct m1 as [i|t]; cbn [origin_of] in X.
      - destruct Tk as (t & d & G & _). assert (G' : get_model (fst (run_acts start_session past)) i = Some (t, d)) by now rewrite Es.
        apply model_created in G'. rewrite G' in X. discriminate X.
      - destruct (String.eqb_spec t "") as [->|]; [reflexivity|discriminate X]. }
    specialize (Pu Hm). cbn [fine]. rewrite app_length. cbn [List.length]. split; [lia|].
    replace (firstn (List.length past) (past ++ [AConnN m1 m2 out inp])) with past by (rewrite firstn_app, firstn_all, Nat.sub_diag; cbn [firstn]; now rewrite app_nil_r).
    rewrite (firstn_all2 (n := S (List.length past))) by (rewrite app_length; cbn [List.length]; lia).
    rewrite run_acts_app, Es. cbn [run_acts]. rewrite E. cbn [fst]. rewrite Pu. apply Nat.lt_succ_diag_r.
Qed.

Lemma bring_exists past a s' j p x : do_act (run_acts start_session past) a = (s', Ok tt) -> bring past a = Some (j, p, x) ->
  (j < List.length (created past))%nat.
Proof.
  intros E B. rewrite <- created_count. apply nth_error_Some. fold (get_model (fst (run_acts start_session past)) j). intros G.
  destruct a as [n dd|k c|k|k i f|k|m1 m2 outs ins e|m1 m2 out inp|names|c|]; try discriminate B; cbn [bring] in B.
  - assert (k = j) by (destruct c; try discriminate B; destruct (nth_error _ _); [|discriminate B]; cbn [option_map] in B; congruence). subst k. clear B.
    destruct (run_acts start_session past) as [w p0]. cbn [fst do_act] in *. destruct (on_model w j _) as [w1 r1] eqn:E1. injection E as _ ->.
    apply on_model_spec in E1. destruct E1 as [(_ & _ & R)|(m & d & w' & G' & _)]; [discriminate R|congruence].
  - assert (m2 = j) by congruence. subst m2. clear B. destruct (run_acts start_session past) as [w p0]. cbn [fst do_act] in *.
    destruct (match e with None => _ | Some _ => _ end) as [y|]; [|discriminate]. unfold connect_vars in E. rewrite G in E. discriminate.
  - assert (m2 = j) by congruence. subst m2. clear B. destruct (run_acts start_session past) as [w p0]. cbn [fst do_act] in *.
    destruct (rbind (build (pw_heap w) out) _) as [[o i]|]; [|discriminate]. unfold connect_nodes in E. rewrite G in E. discriminate.
Qed.

(** ** The whole program *)
Definition stood (acts : list act) (j : nat) (p : place) (x : written) : Prop :=
  exists a1 a a2, acts = a1 ++ a :: a2 /\ bring a1 a = Some (j, p, x) /\
    forall b1 b b2 y, a2 = b1 ++ b :: b2 -> bring (a1 ++ a :: b1) b <> Some (j, p, y).
Record told_all (acts : list act) (w : pworld) : Prop := mkTA {
  ta_tidy : tidy_world w;
  ta_exists : forall j p x, stood acts j p x -> (j < List.length (created acts))%nat;
  ta_fine : forall j p x, stood acts j p x -> fine acts p;
  ta_from : forall j m d k e, get_model w j = Some (m, d) -> dget k (m_eqs m) = Some e -> ~ named_by d (m_name m) k ->
    exists p x, stood acts j p x /\ key_of acts p (m_name m) = k /\ says x e;
  ta_kept : forall j m d p x, get_model w j = Some (m, d) -> stood acts j p x -> ~ named_by d (m_name m) (key_of acts p (m_name m)) ->
    exists e, dget (key_of acts p (m_name m)) (m_eqs m) = Some e /\ says x e }.

Lemma stood_snoc acts a j p x : stood (acts ++ [a]) j p x ->
  bring acts a = Some (j, p, x) \/ (stood acts j p x /\ forall y, bring acts a <> Some (j, p, y)).
Proof.
  intros (a1 & b & a2 & E & B & L). destruct (@exists_last _ (b :: a2)) as (l & z & El); [discriminate|].
  rewrite El, app_assoc in E. apply app_inj_tail in E. destruct E as [E <-]. destruct l as [|y l]; injection El as -> ->.
  - left. rewrite app_nil_r in E. now rewrite E.
  - right. split.
    + exists a1, y, l. split; [exact E|]. split; [exact B|]. intros b1 b b2 y' Eb. apply (L b1 b (b2 ++ [a]) y'). rewrite Eb. now rewrite <- app_assoc.
    + intros y'. rewrite E. exact (L l a [] y' eq_refl).
Qed.
Lemma stood_more acts a j p x : stood acts j p x -> (forall y, bring acts a <> Some (j, p, y)) -> stood (acts ++ [a]) j p x.
Proof.
  intros (a1 & b & a2 & E & B & L) N. exists a1, b, (a2 ++ [a]). split; [rewrite E; now rewrite <- app_assoc|]. split; [exact B|].
  intros b1 c b2 y Eb. destruct (@exists_last _ (c :: b2)) as (l & z & El); [discriminate|].
  rewrite El, app_assoc in Eb. apply app_inj_tail in Eb. destruct Eb as [Eb <-]. destruct l as [|y0 l]; injection El as -> ->.
  - rewrite app_nil_r in Eb. subst a2. rewrite <- E. apply N.
  - exact (L b1 y0 l y Eb).
Qed.
Lemma stood_new acts a j p x : bring acts a = Some (j, p, x) -> stood (acts ++ [a]) j p x.
Proof. intros B. exists acts, a, []. split; [reflexivity|]. split; [exact B|]. intros b1 b b2 y E. destruct b1; discriminate E. Qed.

Lemma run_told acts : all_ok start_session acts -> distinct_models acts -> forallb tidy_act acts = true -> plain_origins acts -> known_statements acts ->
  told_all acts (fst (run_acts start_session acts)).
Proof.
  induction acts as [|a acts IH] using rev_ind; intros O D P Pl K.
  - constructor.
    + split; [intros l q H; unfold hget in H; destruct l; discriminate|intros i m d H; unfold get_model in H; destruct i; discriminate].
    + intros j p x (a1 & a & a2 & E & _). destruct a1; discriminate E.
    + intros j p x (a1 & a & a2 & E & _). destruct a1; discriminate E.
    + intros j m d k e H. unfold get_model in H; destruct j; discriminate.
    + intros j m d p x H. unfold get_model in H; destruct j; discriminate.
  - apply all_ok_app in O. destruct O as [O Oa]. cbn [all_ok] in Oa. destruct Oa as [Oa _]. assert (D0 := distinct_before _ _ D).
    rewrite forallb_app in P. apply andb_prop in P. destruct P as [P1 P2]. cbn [forallb] in P2. rewrite Bool.andb_true_r in P2.
    assert (Pl0 : plain_origins acts).
    { intros m j out inp s Hin Ho. apply (Pl m j out inp s); [apply in_or_app; now left|]. destruct m as [i|t]; cbn [origin_of] in *; [|exact Ho].
      destruct (nth_error (created acts) i) as [md|] eqn:Ec; [|discriminate Ho]. now rewrite (created_prefix _ _ _ _ Ec). }
    assert (K0 : known_statements acts).
    { intros a1 j b n q c a2 v E. apply (K a1 j b n q c (a2 ++ [a]) v). rewrite E. now rewrite <- app_assoc. }
    destruct (IH O D0 P1 Pl0 K0) as [T Ex F A B]. clear IH.
    destruct (do_act (run_acts start_session acts) a) as [s' r] eqn:E. cbn [snd] in Oa. subst r.
    destruct (act_effect acts a s' O D0 T P2) with (2 := E) as [T' X].
    { intros i b n q c v -> Ev. apply (K acts i b n q c [] v eq_refl Ev). }
    rewrite run_acts_app. cbn [run_acts]. rewrite E. cbn [fst].
    assert (Ex' : forall j p x, stood (acts ++ [a]) j p x -> (j < List.length (created (acts ++ [a])))%nat).
    { intros j p x S. rewrite created_app, app_length. apply stood_snoc in S. destruct S as [S|[S _]].
      - assert (Y := bring_exists _ _ _ _ _ _ E S). lia.
      - assert (Y := Ex j p x S). lia. }
    assert (Mod : forall j, (j < List.length (created (acts ++ [a])))%nat -> exists m d, get_model (fst s') j = Some (m, d)).
    { intros j L. rewrite <- created_count in L. rewrite run_acts_app in L. cbn [run_acts] in L. rewrite E in L. cbn [fst] in L.
      apply nth_error_Some in L. unfold get_model. destruct (nth_error (pw_models (fst s')) j) as [[m d]|]; [eauto|congruence]. }
    assert (F' : forall j p x, stood (acts ++ [a]) j p x -> fine (acts ++ [a]) p).
    { intros j p x S0. destruct (Mod j (Ex' j p x S0)) as (m' & d & G). assert (S := stood_snoc _ _ _ _ _ S0).
      destruct S as [S|[S _]]; [|exact (fine_more _ _ _ (F j p x S))].
      destruct (X j m' d G) as [(_ & _ & N)|(m & G0 & Nm & [(p' & x' & e & Bp & _ & _ & Q)|[N _]])]; [destruct (N p x S)| |destruct (N p x S)].
      assert (Y : p' = p) by congruence. subst p'. exact (new_fine _ _ _ _ _ _ Pl E Bp Q). }
    assert (Km : forall p M, fine acts p -> key_of (acts ++ [a]) p M = key_of acts p M) by (intros p M Hp; apply key_more; intros t; now apply fine_time).
    assert (Kn : forall j p x M, bring acts a = Some (j, p, x) -> key_of (acts ++ [a]) p M = key_of acts p M).
    { intros j p x M Bp. apply key_more. intros t Ht. rewrite (place_time _ _ _ _ _ t Bp Ht). apply le_n. }
    constructor; [exact T'|exact Ex'|exact F'| |].
    + intros j m' d k e G Hk Hn. destruct (X j m' d G) as [(_ & Z & _)|(m & G0 & Nm & [(p & x & e' & Bp & Ee & Se & _)|[N Sm]])].
      * rewrite Z in Hk. discriminate.
      * rewrite Ee, dget_dset in Hk. rewrite Nm in *. destruct (String.eqb_spec k (key_of acts p (m_name m))) as [->|Hne].
        -- injection Hk as ->. exists p, x. split; [now apply stood_new|]. split; [exact (Kn _ _ _ _ Bp)|exact Se].
        -- destruct (A j m d k e G0 Hk Hn) as (p0 & x0 & S0 & E0 & Se0). assert (Fp := F j p0 x0 S0).
           exists p0, x0. split; [|split; [rewrite Km by exact Fp; exact E0|exact Se0]].
           apply stood_more; [exact S0|]. intros y By. assert (Y : p0 = p) by congruence. subst p0. congruence.
      * rewrite Nm in Hn. rewrite (Sm k Hn) in Hk. rewrite Nm. destruct (A j m d k e G0 Hk Hn) as (p0 & x0 & S0 & E0 & Se0). assert (Fp := F j p0 x0 S0).
        exists p0, x0. split; [apply stood_more; [exact S0|intros y; apply N]|]. split; [rewrite Km by exact Fp; exact E0|exact Se0].
    + intros j m' d p x G S Hn. assert (Fp := F' j p x S). apply stood_snoc in S.
      destruct (X j m' d G) as [(Gn & _ & N)|(m & G0 & Nm & Q)].
      { destruct S as [S|[S _]]; [destruct (N p x S)|]. assert (L := Ex j p x S). rewrite <- created_count in L. apply nth_error_Some in L. unfold get_model in Gn. congruence. }
      rewrite Nm in *. destruct S as [S|[S Ns]].
      * rewrite (Kn _ _ _ _ S) in *. destruct Q as [(p' & x' & e & Bp & Ee & Se & _)|[N _]]; [|destruct (N p x S)].
        assert (Y : p' = p) by congruence. subst p'. assert (Y : x' = x) by congruence. subst x'. exists e. split; [rewrite Ee; apply dget_dset_eq|exact Se].
      * assert (Fo := F j p x S). rewrite (Km _ _ Fo) in *. destruct (B j m d p x G0 S Hn) as (e & He & Se). exists e. split; [|exact Se].
        destruct Q as [(p' & x' & e' & Bp & Ee & Se' & Q')|[N Sm]]; [|now rewrite Sm].
        rewrite Ee, dget_dset_neq; [exact He|]. intros Ek.
        assert (Fp' : fine (acts ++ [a]) p') by exact (new_fine _ _ _ _ _ _ Pl E Bp Q').
        destruct (proj2 T j m d G0) as [Cm _]. assert (Y : p = p').
        { apply (key_inj (acts ++ [a]) p p' (m_name m) Cm Fp Fp'). rewrite (Km _ _ Fo), (Kn _ _ _ _ Bp). exact Ek. }
        subst p'. exact (Ns x' Bp).
Qed.

(** ** The resolved problem *)
Lemma resolved_told acts s b : resolved acts s b -> all_ok start_session acts -> distinct_models acts -> forallb tidy_act acts = true ->
  plain_origins acts -> known_statements acts -> forall j m d, get_model (fst s) j = Some (m, d) ->
  exists m0, get_model (fst (run_acts start_session acts)) j = Some (m0, d) /\ m_name m = m_name m0 /\
    forall k, ~ named_by d (m_name m0) k -> dget k (m_eqs m) = dget k (m_eqs m0).
Proof.
  intros R O D P Pl K j m d G. assert (T := run_told _ O D P Pl K).
  destruct (act_effect acts AResolve s O D (ta_tidy _ _ T) eq_refl) with (2 := proj1 R) as [_ X]; [discriminate|].
  assert (Lt : exists m0 d0, get_model (fst (run_acts start_session acts)) j = Some (m0, d0)).
  { assert (L : (j < List.length (pw_models (fst s)))%nat) by (apply nth_error_Some; unfold get_model in G; congruence).
    replace s with (run_acts start_session (acts ++ [AResolve])) in L by (rewrite run_acts_app; cbn [run_acts]; now rewrite (proj1 R)).
    rewrite created_count, created_app, app_length in L. cbn in L. rewrite Nat.add_0_r in L. rewrite <- created_count in L. apply nth_error_Some in L.
    unfold get_model. destruct (nth_error _ j) as [[m0 d0]|]; [eauto|congruence]. }
  destruct Lt as (m0 & d0 & G0). destruct (X j m d G) as [(Gn & _)|(m1 & G1 & Nm & [(p & x & e & Bp & _)|[_ Sm]])]; [congruence|discriminate Bp|].
  exists m1. auto.
Qed.

Lemma named_writes acts j m d n : get_model (fst (run_acts start_session acts)) j = Some (m, d) -> clean n = true -> clean (m_name m) = true ->
  (named_by d (m_name m) (full_name n (m_name m)) <-> In n (map wr_name (written_by (m_name m) d))).
Proof.
  intros G Cn Cm. unfold written_by. rewrite written_eq_names. split.
  - intros (n' & Hn & E). unfold full_name in E. apply append_cancel_r in E. now subst n'.
  - intros H. exists n. auto.
Qed.

(** Every equation of the block was written or brought. *)
Lemma block_said_only acts s b e : resolved acts s b -> all_ok start_session acts -> distinct_models acts -> readable_program acts ->
  forallb tidy_act acts = true -> plain_origins acts -> known_statements acts -> In e (b_eqs b) ->
  (exists v x, written_in acts v x /\ eq_name e = full_name (wr_name x) (vw_name v) /\ says x e) \/
  (exists j x, In j (added acts) /\ brought acts j x /\ says x e).
Proof.
  intros R O D L P Pl K He. destruct (block_equations _ _ _ R) as (_ & E & _). rewrite E in He. unfold equations_of in He. apply in_flat_map in He.
  destruct He as (i & Hi & He). unfold model_of in He. destruct (get_model (fst s) i) as [[m d]|] eqn:G; [|destruct He]. cbn [option_map fst] in He.
  apply in_map_iff in He. destruct He as ([k e'] & <- & Hin). cbn [snd].
  assert (Ad := added_member _ _ _ _ R D Hi). assert (T := run_told _ O D P Pl K).
  destruct (resolved_told _ _ _ R O D P Pl K i m d G) as (m0 & G0 & Nm & Sm).
  destruct (g_ok _ (resolved_good _ _ _ R)) as [W _]. destruct (W i m d G) as (_ & _ & _ & Nd & _).
  assert (Hk := in_dget_nodup _ _ _ Nd Hin).
  assert (Dec : (exists n, In n (eq_names (script d)) /\ k = full_name n (m_name m0)) \/ ~ named_by d (m_name m0) k).
  { destruct (in_dec string_dec k (map (fun n => full_name n (m_name m0)) (eq_names (script d)))) as [H|H].
    - left. apply in_map_iff in H. destruct H as (n & <- & Hn). eauto.
    - right. intros (n & Hn & ->). apply H. exact (in_map (fun n0 => full_name n0 (m_name m0)) _ _ Hn). }
  destruct Dec as [(n & Hn & Ek)|Hn].
  - left. destruct (viewed_model _ _ O D Ad) as [v Hv].
    destruct (resolved_view _ _ _ _ _ R O D Ad Hv (L i v Ad Hv)) as (m1 & m2 & d1 & Ga & Gb & Nv & Dv & Nm' & St & _).
    assert (X : Some (m, d) = Some (m2, d1)) by congruence. injection X as <- <-. assert (Y : Some (m0, d) = Some (m1, d)) by congruence. injection Y as <-.
    assert (Hx : In n (map wr_name (view_writes v))) by (unfold view_writes; rewrite Dv, written_eq_names; exact Hn).
    apply in_map_iff in Hx. destruct Hx as (x & <- & Hx). exists v, x. destruct (St x Hx) as (e & Ee & Ne & Se).
    assert (e = e').
    { fold (full_name (wr_name x) (vw_name v)) in Ee. rewrite Ek, <- Nv in Hk. congruence. }
    subst e. split; [exists i; auto|]. auto.
  - right. rewrite (Sm k Hn) in Hk. destruct (ta_from _ _ T i m0 d k e' G0 Hk Hn) as (p & x & S & Ek & Se). exists i, x. split; [exact Ad|]. split; [|exact Se].
    assert (Fp := ta_fine _ _ T _ _ _ S). destruct S as (a1 & a & a2 & Ea & B & Lt). exists a1, a, a2, p. split; [exact Ea|]. split; [exact B|]. split; [exact Lt|].
    intros n M d' -> Ec. assert (C := model_created _ _ _ _ G0). rewrite C in Ec. injection Ec as <- <-.
    destruct (proj2 (ta_tidy _ _ T) i m0 d G0) as [Cm _]. cbn [fine key_of] in *. subst k.
    intros Hin'. apply Hn. exact (proj2 (named_writes _ _ _ _ _ G0 Fp Cm) Hin').
Qed.

Lemma eq_names_clean cs n : forallb clean_cmd cs = true -> In n (eq_names cs) -> clean n = true.
Proof.
  intros C Hn. unfold eq_names in Hn. apply in_flat_map in Hn. destruct Hn as (c & Hc & Hn). rewrite forallb_forall in C. specialize (C c Hc).
  destruct c; cbn in Hn; try contradiction. destruct Hn as [->|[]]. cbn [clean_cmd] in C. apply andb_prop in C. tauto.
Qed.

(** Everything brought is in the block. *)
Lemma block_said acts s b j x : resolved acts s b -> all_ok start_session acts -> distinct_models acts ->
  forallb tidy_act acts = true -> plain_origins acts -> known_statements acts -> In j (added acts) -> brought acts j x ->
  exists e, In e (b_eqs b) /\ says x e.
Proof.
  intros R O D P Pl K Hj (a1 & a & a2 & p & Ea & B & Lt & Ne). assert (T := run_told _ O D P Pl K).
  assert (S : stood acts j p x) by (exists a1, a, a2; auto). assert (Fp := ta_fine _ _ T _ _ _ S). assert (Lj := ta_exists _ _ T _ _ _ S).
  assert (Gs : exists m d, get_model (fst s) j = Some (m, d)).
  { replace s with (run_acts start_session (acts ++ [AResolve])) by (rewrite run_acts_app; cbn [run_acts]; now rewrite (proj1 R)).
    assert (L : (j < List.length (pw_models (fst (run_acts start_session (acts ++ [AResolve])))))%nat) by (rewrite created_count, created_app, app_length; lia).
    apply nth_error_Some in L. unfold get_model. destruct (nth_error (pw_models (fst (run_acts start_session (acts ++ [AResolve])))) j) as [[m0 d0]|]; [eauto|now destruct L]. }
  destruct Gs as (m & d & G). destruct (resolved_told _ _ _ R O D P Pl K j m d G) as (m0 & G0 & Nm & Sm).
  destruct (proj2 (ta_tidy _ _ T) j m0 d G0) as [Cm Cd].
  assert (Nn : ~ named_by d (m_name m0) (key_of acts p (m_name m0))).
  { intros Hn. destruct p as [os is|t|t|n]; cbn [key_of] in Hn.
    4: { apply (proj1 (named_writes _ _ _ _ _ G0 Fp Cm)) in Hn. exact (Ne n _ _ eq_refl (model_created _ _ _ _ G0) Hn). }
    all: destruct Hn as (n & Hn & E); assert (Cn := eq_names_clean _ _ Cd Hn); assert (Z := eq_key_arrow _ _ Cn Cm); rewrite <- E in Z.
    - rewrite conn_name_arrow in Z. discriminate.
    - rewrite link_key_arrow in Z. discriminate.
    - rewrite link_key_arrow in Z. discriminate. }
  destruct (ta_kept _ _ T j m0 d p x G0 S Nn) as (e & He & Se). rewrite <- (Sm _ Nn) in He.
  exists e. split; [|exact Se]. exact (member_equations _ _ _ _ _ _ R (member_added _ _ _ _ R D Hj) G _ _ He).
Qed.

Lemma block_says acts s b : resolved acts s b -> all_ok start_session acts -> distinct_models acts -> readable_program acts ->
  forallb tidy_act acts = true -> plain_origins acts -> known_statements acts ->
  (forall x, program_says acts x -> exists e, In e (b_eqs b) /\ says x e) /\
  (forall e, In e (b_eqs b) -> exists x, program_says acts x /\ says x e).
Proof.
  intros R O D L P Pl K. split.
  - intros x [(v & Hx)|(j & Hj & B)]; [|exact (block_said _ _ _ _ _ R O D P Pl K Hj B)].
    destruct (block_view _ _ _ _ _ R O D L Hx) as (e & He & _ & Se). eauto.
  - intros e He. destruct (block_said_only _ _ _ _ R O D L P Pl K He) as [(v & x & Hx & _ & Se)|(j & x & Hj & B & Se)]; exists x; (split; [|exact Se]).
    + left. exists v. exact Hx.
    + right. exists j. auto.
Qed.

Lemma system_said acts s b en : resolved acts s b -> all_ok start_session acts -> distinct_models acts -> readable_program acts ->
  forallb tidy_act acts = true -> plain_origins acts -> known_statements acts ->
  (solved en b <-> forall x, program_says acts x -> asks x en).
Proof.
  intros R O D L P Pl K. rewrite (system_exact _ _ _ en R). destruct (block_says _ _ _ R O D L P Pl K) as [B1 B2]. split.
  - intros H x Hx. destruct (B1 x Hx) as (e & He & Se). exact (proj1 (asks_says _ _ en Se) (H e He)).
  - intros H e He. destruct (B2 e He) as (x & Hx & Se). exact (proj2 (asks_says _ _ en Se) (H x Hx)).
Qed.

Lemma answer_said acts s b eng out x : resolved acts s b -> all_ok start_session acts -> distinct_models acts -> readable_program acts ->
  forallb tidy_act acts = true -> plain_origins acts -> known_statements acts -> honest eng -> answer eng b out ->
  program_says acts x -> asks x (bind_env out).
Proof.
  intros R O D L P Pl K Hh A Hx. destruct (proj1 (block_says _ _ _ R O D L P Pl K) x Hx) as (e & He & Se).
  assert (S := answer_solves _ _ _ _ _ R Hh A). rewrite (system_exact _ _ _ _ R) in S. exact (proj1 (asks_says _ _ _ Se) (S e He)).
Qed.

(** ** Differential equations *)
(** The equations of the block say [P]. *)
Definition stated (b : block) (P : written -> Prop) : Prop :=
  (forall x, P x -> exists e, In e (b_eqs b) /\ says x e) /\ (forall e, In e (b_eqs b) -> exists x, P x /\ says x e).
Lemma rates_stated P (s : SpecProblem.session) b t pn init tn compile ds ode Y tau en : stated b P ->
   prints_numbers pn -> one_word t = true -> str_contains "_" t = true -> pr_time (snd s) = Some [t] ->
  Forall2 (explicit t) (b_diff b) ode -> closed_system t ode -> b_eqs b = b_diff b -> ode_unknowns t ode (b_varlist b) -> ode <> [] ->
  dsolver_init b init tn compile = Ok ds -> state_of t ode Y tau en ->
  exists vs, ode_interface pn (snd s) b ds Y tau = (b, Ok vs) /\
    (forall j x r, nth_error ode j = Some (x, r) -> exists w g, P w /\ rate w x t g /\ nth_error vs j = Some (g en)) /\
    (forall w x g, P w -> rate w x t g -> exists j r, nth_error ode j = Some (x, r) /\ nth_error vs j = Some (g en)).
Proof.
  intros [B1 B2] Pn W U T F C Eb Un Ne I St. exists (map (fun xr => den (snd xr) en) ode).
  split; [apply (OdeFacts.ode_rhs t pn (snd s) b init tn compile ds ode Y tau en); auto|].
  assert (Df : forall e, In e (b_diff b) -> In e (b_eqs b)) by (intros e He; now rewrite Eb). split.
  - intros j x r Hj. assert (X : exists e, In e (b_diff b) /\ explicit t e (x, r)).
    { apply nth_error_In in Hj. clear -F Hj. induction F as [|e y es ys H F IH]; [destruct Hj|]. destruct Hj as [->|Hj].
      - exists e. split; [now left|exact H].
      - destruct (IH Hj) as (e' & A & B). exists e'. split; [now right|exact B]. }
    destruct X as (e & He & (a & c & n & El & Ee & Ea & _ & Ec & _)). cbn [fst snd] in *.
    destruct (B2 e (Df e He)) as (w & Hw & _ & Sd).
    destruct (wr_sides w) as [[f g]|] eqn:Es; [|congruence]. destruct Sd as (_ & a' & c' & Ee' & Dfn & Dg).
    rewrite Ee in Ee'. injection Ee' as <- <-. exists w, g. split; [exact Hw|]. split.
    + exists f. split; [exact Es|]. intros en'. rewrite <- Dfn, Ea. reflexivity.
    + rewrite (map_nth_error (fun xr => den (snd xr) en) j ode Hj). cbn [snd]. rewrite <- Dg, Ec. reflexivity.
  - intros w x g Hw (f & Es & Hf). destruct (B1 w Hw) as (e & He & _ & Sd).
    rewrite Es in Sd. destruct Sd as (El & a & c & Ee & Da & Dc). rewrite Eb in He.
    assert (X : exists j xr, nth_error ode j = Some xr /\ explicit t e xr).
    { clear -F He. induction F as [|e' y es ys H F IH]; [destruct He|]. destruct He as [->|He].
      - exists 0%nat, y. split; [reflexivity|exact H].
      - destruct (IH He) as (j & xr & A & B). exists (S j), xr. split; [exact A|exact B]. }
    destruct X as (j & [x' r] & Hj & (a' & c' & n & _ & Ee' & Ea & _ & Ec & _)). rewrite Ee in Ee'. injection Ee' as <- <-. cbn [fst snd] in *.
    assert (x' = x).
    { pose proof (Hf (only_der x')) as H1. rewrite <- Da, Ea in H1. cbn in H1. injection H1 as H1. rewrite String.eqb_refl in H1.
      destruct (String.eqb_spec x' x) as [->|]; [reflexivity|]. exfalso. lra. }
    subst x'. exists j, r. split; [exact Hj|]. rewrite (map_nth_error (fun xr => den (snd xr) en) j ode Hj). cbn [snd]. now rewrite <- Dc, Ec.
Qed.

Lemma rates_said acts s b t pn init tn compile ds ode Y tau en : resolved acts s b -> all_ok start_session acts -> distinct_models acts ->
  readable_program acts -> forallb tidy_act acts = true -> plain_origins acts -> known_statements acts ->
  prints_numbers pn -> one_word t = true -> str_contains "_" t = true -> pr_time (snd s) = Some [t] ->
  Forall2 (explicit t) (b_diff b) ode -> closed_system t ode -> b_eqs b = b_diff b -> ode_unknowns t ode (b_varlist b) -> ode <> [] ->
  dsolver_init b init tn compile = Ok ds -> state_of t ode Y tau en ->
  exists vs, ode_interface pn (snd s) b ds Y tau = (b, Ok vs) /\
    (forall j x r, nth_error ode j = Some (x, r) -> exists w g, program_says acts w /\ rate w x t g /\ nth_error vs j = Some (g en)) /\
    (forall w x g, program_says acts w -> rate w x t g -> exists j r, nth_error ode j = Some (x, r) /\ nth_error vs j = Some (g en)).
Proof. intros R O D L P Pl K. apply rates_stated. exact (block_says _ _ _ R O D L P Pl K). Qed.

Lemma residuals_stated P b pn dae y yd en : stated b P ->
   Forall2 (residual_ode pn) (b_diff b) dae -> dae <> [] -> closed_dae b dae -> by_equation (b_varlist b) dae y yd en ->
  exists vs, dae_function pn b y yd = Ok vs /\
    Forall2 (fun e v => exists x, P x /\ says x e /\ v = wr_value x en) (b_eqs b) vs.
Proof.
  intros [_ B2] F Ne C B. destruct (DaeFacts.dae_exact pn b dae y yd en F Ne C B) as (vs & Ev & Rv). exists vs. split; [exact Ev|].
  unfold residual_values in Rv.
  assert (G : forall es vs, Forall2 (fun e v => exists n, eq_expr e = Some n /\ v = den (nd_sym n) en) es vs -> incl es (b_eqs b) ->
    Forall2 (fun e v => exists x, P x /\ says x e /\ v = wr_value x en) es vs).
  { clear -B2. induction 1 as [|e v es vs (n & En & ->) F IH]; intros Al; constructor; [|apply IH; intros x Hx; apply Al; now right].
    destruct (B2 e (Al e (or_introl eq_refl))) as (x & Hx & Sx). exists x. split; [exact Hx|]. split; [exact Sx|].
    destruct Sx as [(n' & En' & Dn) _]. assert (n' = n) by congruence. subst n'. apply Dn. }
  exact (G _ _ Rv (incl_refl _)).
Qed.
Lemma residuals_said acts s b pn dae y yd en : resolved acts s b -> all_ok start_session acts -> distinct_models acts ->
  readable_program acts -> forallb tidy_act acts = true -> plain_origins acts -> known_statements acts ->
  Forall2 (residual_ode pn) (b_diff b) dae -> dae <> [] -> closed_dae b dae -> by_equation (b_varlist b) dae y yd en ->
  exists vs, dae_function pn b y yd = Ok vs /\
    Forall2 (fun e v => exists x, program_says acts x /\ says x e /\ v = wr_value x en) (b_eqs b) vs.
Proof. intros R O D L P Pl K. apply residuals_stated. exact (block_says _ _ _ R O D L P Pl K). Qed.

(** ** Checking a given program *)
Definition origins_ok (acts : list act) : bool :=
  forallb (fun a => match a with
    | AConnN m _ _ _ => match origin_of acts m with
                        | Some (FromName s) => negb (has_char ">" s) && negb (has_char "-" s) && negb (numeral s)
                        | _ => true
                        end
    | _ => true
    end) acts.
Lemma origins_by acts : origins_ok acts = true -> plain_origins acts.
Proof.
  intros H m j out inp s Hin Ho. unfold origins_ok in H. rewrite forallb_forall in H. specialize (H _ Hin). cbn beta iota in H. rewrite Ho in H.
  apply andb_prop in H. destruct H as [H H3]. apply andb_prop in H. destruct H as [H1 H2]. apply Bool.negb_true_iff in H1, H2, H3. auto.
Qed.
Fixpoint known_ok (past acts : list act) : bool :=
  match acts with
  | [] => true
  | a :: r => match a with
              | AStmt j (CEq _ _ q _) => match nth_error (views past) j with Some v => eq_known (vw_things v) q | None => true end
              | _ => true
              end && known_ok (past ++ [a]) r
  end.
Lemma known_by acts : known_ok [] acts = true -> known_statements acts.
Proof.
  intros H a1 j a n q c a2 v E Hv. change a1 with ([] ++ a1) in Hv. revert H Hv. subst acts. generalize (@nil act). induction a1 as [|x a1 IH]; intros past H Hv.
  - cbn [app known_ok] in H. rewrite app_nil_r in Hv. rewrite Hv in H. apply andb_prop in H. tauto.
  - cbn [app known_ok] in H. apply andb_prop in H. apply (IH (past ++ [x])); [tauto|]. now rewrite <- app_assoc.
Qed.
