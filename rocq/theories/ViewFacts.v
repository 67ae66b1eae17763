(** Facts: reading a whole program (C70 and later). *)
From Verif Require Import Base BaseFacts Num NumFacts UnitModel UnitFacts Sympy Node Build EquationModel ModelModel ProblemModel
  SpecUnits UnitThms SpecExpr SpecQty QtyFacts SpecModel BuildFacts EquationFacts ModelFacts SpecInc IncFacts SpecCall CallFacts
  SpecProblem ProblemFacts SessionFacts UsualFacts ConnFacts SolverModel SpecSolver SolverFacts OdeFacts DaeFacts SpecSymbols SymbolFacts
  SpecWritten WrittenFacts SpecExact ExactFacts SpecOwn OwnFacts SpecSession.
From Coq Require Import Reals Lra.
Notation num := Verif.Num.num.

(** ** Attributes hold different quantities *)
Definition oa (h : heap) (m : mstate) : Prop :=
  (forall a l, attr_qty m a = Ok l -> (l < List.length h)%nat) /\
  (forall a b l, attr_qty m a = Ok l -> attr_qty m b = Ok l -> a = b).

Lemma attr_same m m1 a : m_attrs m1 = m_attrs m -> attr_qty m1 a = attr_qty m a.
Proof. intros E. unfold attr_qty. now rewrite E. Qed.
Lemma oa_attrs h m m1 : m_attrs m1 = m_attrs m -> oa h m -> oa h m1.
Proof.
  intros E [A B]. split.
  - intros a l. rewrite (attr_same _ _ a E). apply A.
  - intros a b l. rewrite (attr_same _ _ a E), (attr_same _ _ b E). apply B.
Qed.
Lemma oa_heap h h' m : (List.length h <= List.length h')%nat -> oa h m -> oa h' m.
Proof. intros L [A B]. split; [|exact B]. intros a l H. specialize (A a l H). lia. Qed.
Lemma oa_new h m m1 q a : m_attrs m1 = m_attrs m -> oa h m -> oa (h ++ [q]) (set_attr m1 a (AQty (List.length h))).
Proof.
  intros E O. apply (oa_attrs _ _ _ E) in O. destruct O as [A B]. split.
  - intros b l. rewrite attr_set, app_length. simpl. destruct (String.eqb a b); [intros H; injection H as <-; lia|]. intros H. specialize (A b l H). lia.
  - intros b c l. rewrite !attr_set. destruct (String.eqb_spec a b) as [<-|Nb], (String.eqb_spec a c) as [<-|Nc]; auto.
    + intros H H2. injection H as <-. specialize (A c _ H2). lia.
    + intros H H2. injection H2 as <-. specialize (A b _ H). lia.
    + apply B.
Qed.
Lemma oa_eqn h m m1 e a : m_attrs m1 = m_attrs m -> oa h m -> oa h (set_attr m1 a (AEqn e)).
Proof.
  intros E O. apply (oa_attrs _ _ _ E) in O. destruct O as [A B]. split.
  - intros b l. rewrite attr_set. destruct (String.eqb a b); [discriminate|apply A].
  - intros b c l. rewrite !attr_set. destruct (String.eqb a b); [discriminate|]. destruct (String.eqb a c); [discriminate|]. apply B.
Qed.
Lemma oa_snoc h m m1 q : m_attrs m1 = m_attrs m -> oa h m -> oa (h ++ [q]) m1.
Proof. intros E O. apply (oa_attrs _ m m1 E). apply (oa_heap h); [rewrite app_length; simpl; lia|exact O]. Qed.
Lemma oa_hset h m l q : oa h m -> oa (hset h l q) m.
Proof. apply oa_heap. rewrite length_hset. lia. Qed.

Lemma create_attrs w n arg check w' r : create_equation w n arg check = (w', r) -> w_heap w' = w_heap w /\ m_attrs (w_mod w') = m_attrs (w_mod w).
Proof.
  unfold create_equation. destruct (equation_init _ _ _ _ _) as [u' [e0|]]; [|intros H; now injection H as <- _].
  destruct (sweep_objects _) as [e2 [[]|]]; [|intros H; now injection H as <- _].
  destruct check; [destruct (check_equation _ _)|]; intros H; now injection H as <- _.
Qed.
Lemma connection_attrs w outs ins a w' r : model_connection w outs ins a = (w', r) -> w_heap w' = w_heap w /\ m_attrs (w_mod w') = m_attrs (w_mod w).
Proof.
  unfold model_connection. destruct (_ && _); [|intros H; now injection H as <- _].
  destruct (rbind _ _); [|intros H; now injection H as <- _].
  destruct (connection_init _ _ _) as [u []]; intros H; now injection H as <- _.
Qed.

Lemma cmd_oa w c w' r : run_cmd w c = (w', r) -> oa (w_heap w) (w_mod w) -> oa (w_heap w') (w_mod w').
Proof.
  destruct w as [h u m]. destruct c as [a n un ex ty v|a n un v|a n un v|a v un|a|a n q check]; cbn [run_cmd w_heap w_mod w_uids]; intros H O.
  - unfold create_variable in H. destruct ex; [destruct (String.eqb ty "input"); [|destruct (String.eqb ty "output")]|]; injection H as <- _; cbn [w_heap w_mod];
      first [now apply (oa_new h m)|now apply (oa_snoc h m)].
  - injection H as <- _. now apply (oa_new h m).
  - injection H as <- _. now apply (oa_new h m).
  - destruct (attr_qty m a) as [l|] eqn:A; [|injection H as <- _; exact O].
    destruct (match v with SANum _ => _ | SAAttr _ => _ end) as [sv|]; [|injection H as <- _; exact O].
    unfold heap_set_value in H. destruct (hget h l) as [q|]; [|injection H as <- _; exact O].
    destruct (set_value q sv un); injection H as <- _; [now apply oa_hset|exact O].
  - destruct (attr_qty m a) as [l|] eqn:A; [|injection H as <- _; exact O]. destruct (hget h l) as [q|]; [|injection H as <- _; exact O].
    destruct (qkind_eqb _ _); injection H as <- _; [now apply oa_hset|exact O].
  - destruct (rbind (resolve_eq (attr_qty m) q) _) as [arg|]; [|injection H as <- _; exact O].
    destruct (create_equation (mkW h u m) n (Some arg) check) as [wx rx] eqn:E. apply create_attrs in E. cbn [w_heap w_mod] in E. destruct E as [E1 E2].
    destruct rx; injection H as <- _; cbn [w_heap w_mod]; rewrite E1; [now apply (oa_eqn h m)|now apply (oa_attrs h m)].
Qed.
Lemma cmds_oa cs : forall w w' r, run_cmds w cs = (w', r) -> oa (w_heap w) (w_mod w) -> oa (w_heap w') (w_mod w').
Proof.
  induction cs as [|c cs IH]; intros w w' r H O; cbn [run_cmds] in H; [injection H as <- _; exact O|].
  destruct (run_cmd w c) as [w1 [[]|x]] eqn:E.
  - exact (IH _ _ _ H (cmd_oa _ _ _ _ E O)).
  - injection H as <- _. exact (cmd_oa _ _ _ _ E O).
Qed.
Lemma add_all_oa add : (forall h m l rw h' m' r, add h m l rw = (h', m', r) -> oa h m -> oa h' m') ->
  forall ls h m rw h' m' r, add_all add h m ls rw = (h', m', r) -> oa h m -> oa h' m'.
Proof.
  intros A. induction ls as [|l ls IH]; intros h m rw h' m' r H O; cbn [add_all] in H; [injection H as <- <- _; exact O|].
  destruct (add h m l rw) as [[h1 m1] [[]|x]] eqn:E.
  - exact (IH _ _ _ _ _ _ H (A _ _ _ _ _ _ _ E O)).
  - injection H as <- <- _. exact (A _ _ _ _ _ _ _ E O).
Qed.
Lemma add_variable_oa h m l rw h' m' r : add_variable h m l rw = (h', m', r) -> oa h m -> oa h' m'.
Proof.
  unfold add_variable. destruct (hget h l) as [q|]; [|intros H; injection H as <- <- _; auto].
  destruct (q_exposed q); intros H O; injection H as <- <- _; [now apply (oa_snoc h m)|now apply (oa_new h m)].
Qed.
Lemma add_parameter_oa h m l rw h' m' r : add_parameter h m l rw = (h', m', r) -> oa h m -> oa h' m'.
Proof. unfold add_parameter. destruct (hget h l) as [q|]; intros H O; injection H as <- <- _; [now apply (oa_new h m)|exact O]. Qed.
Lemma add_constant_oa h m l rw h' m' r : add_constant h m l rw = (h', m', r) -> oa h m -> oa h' m'.
Proof. unfold add_constant. destruct (hget h l) as [q|]; intros H O; injection H as <- <- _; [now apply (oa_new h m)|exact O]. Qed.
Lemma add_equations_oa h es : forall m names objs rw m' r, add_equations m es names objs rw = (m', r) -> oa h m -> oa h m'.
Proof.
  induction es as [|e es IH]; intros m names objs rw m' r H O; cbn [add_equations] in H; [now injection H as <- _|].
  assert (A : forall m1 r1, add_equation m e names objs rw = (m1, r1) -> oa h m1).
  { intros m1 r1. unfold add_equation. destruct (convert_symbolic _ _ _); intros X; injection X as <- _; [|exact O]. now apply (oa_eqn h m). }
  destruct (add_equation m e names objs rw) as [m1 [[]|x]].
  - exact (IH _ _ _ _ _ _ H (A _ _ eq_refl)).
  - injection H as <- _. exact (A _ _ eq_refl).
Qed.
Lemma incorporate_oa h m donor f h' m' r : incorporate h m donor f = (h', m', r) -> oa h m -> oa h' m'.
Proof.
  unfold incorporate. intros H O.
  assert (S1 : forall h1 m1 r1, (if i_vars f then add_all add_variable h m (dvals (m_vars donor)) (i_rewrite f) else (h, m, Ok tt)) = (h1, m1, r1) -> oa h1 m1).
  { intros h1 m1 r1. destruct (i_vars f); intros X; [exact (add_all_oa _ add_variable_oa _ _ _ _ _ _ _ X O)|injection X as <- <- _; exact O]. }
  destruct (if i_vars f then _ else _) as [[h1 m1] [[]|x]]; specialize (S1 _ _ _ eq_refl); [|injection H as <- <- _; exact S1].
  assert (S2 : forall h2 m2 r2, (if i_pars f then add_all add_parameter h1 m1 (dvals (m_pars donor)) (i_rewrite f) else (h1, m1, Ok tt)) = (h2, m2, r2) -> oa h2 m2).
  { intros h2 m2 r2. destruct (i_pars f); intros X; [exact (add_all_oa _ add_parameter_oa _ _ _ _ _ _ _ X S1)|injection X as <- <- _; exact S1]. }
  destruct (if i_pars f then _ else _) as [[h2 m2] [[]|x]]; specialize (S2 _ _ _ eq_refl); [|injection H as <- <- _; exact S2].
  assert (S3 : forall h3 m3 r3, (if i_cons f then add_all add_constant h2 m2 (dvals (m_cons donor)) (i_rewrite f) else (h2, m2, Ok tt)) = (h3, m3, r3) -> oa h3 m3).
  { intros h3 m3 r3. destruct (i_cons f); intros X; [exact (add_all_oa _ add_constant_oa _ _ _ _ _ _ _ X S2)|injection X as <- <- _; exact S2]. }
  destruct (if i_cons f then _ else _) as [[h3 m3] [[]|x]]; specialize (S3 _ _ _ eq_refl); [|injection H as <- <- _; exact S3].
  destruct (i_eqs f); [|injection H as <- <- _; exact S3].
  destruct (add_equations _ _ _ _ _) as [m4 r4] eqn:E. injection H as <- <- _. exact (add_equations_oa _ _ _ _ _ _ _ _ E S3).
Qed.

Lemma add_all_name add : (forall h m l rw h' m' r, add h m l rw = (h', m', r) -> m_name m' = m_name m) ->
  forall ls h m rw h' m' r, add_all add h m ls rw = (h', m', r) -> m_name m' = m_name m.
Proof.
  intros A. induction ls as [|l ls IH]; intros h m rw h' m' r H; cbn [add_all] in H; [now injection H as <- <- _|].
  destruct (add h m l rw) as [[h1 m1] [[]|x]] eqn:E; apply A in E.
  - rewrite (IH _ _ _ _ _ _ H). exact E.
  - now injection H as <- <- _.
Qed.
Lemma add_equations_name es : forall m names objs rw m' r, add_equations m es names objs rw = (m', r) -> m_name m' = m_name m.
Proof.
  induction es as [|e es IH]; intros m names objs rw m' r H; cbn [add_equations] in H; [now injection H as <- _|].
  assert (A : forall m1 r1, add_equation m e names objs rw = (m1, r1) -> m_name m1 = m_name m).
  { intros m1 r1. unfold add_equation. destruct (convert_symbolic _ _ _); intros X; now injection X as <- _. }
  destruct (add_equation m e names objs rw) as [m1 [[]|x]]; specialize (A _ _ eq_refl).
  - rewrite (IH _ _ _ _ _ _ H). exact A.
  - injection H as <- _. exact A.
Qed.
Lemma incorporate_name h m donor f h' m' r : incorporate h m donor f = (h', m', r) -> m_name m' = m_name m.
Proof.
  unfold incorporate. intros H.
  assert (S1 : forall h1 m1 r1, (if i_vars f then add_all add_variable h m (dvals (m_vars donor)) (i_rewrite f) else (h, m, Ok tt)) = (h1, m1, r1) -> m_name m1 = m_name m).
  { intros h1 m1 r1. destruct (i_vars f); [|intros X; now injection X as <- <- _]. apply add_all_name. clear.
    intros h m l rw h' m' r. unfold add_variable. destruct (hget h l) as [q|]; [destruct (q_exposed q)|]; intros H; now injection H as <- <- _. }
  destruct (if i_vars f then _ else _) as [[h1 m1] [[]|x]]; specialize (S1 _ _ _ eq_refl); [|injection H as <- <- _; exact S1].
  assert (S2 : forall h2 m2 r2, (if i_pars f then add_all add_parameter h1 m1 (dvals (m_pars donor)) (i_rewrite f) else (h1, m1, Ok tt)) = (h2, m2, r2) -> m_name m2 = m_name m).
  { intros h2 m2 r2. rewrite <- S1. destruct (i_pars f); [|intros X; now injection X as <- <- _]. apply add_all_name. clear.
    intros h m l rw h' m' r. unfold add_parameter. destruct (hget h l) as [q|]; intros H; now injection H as <- <- _. }
  destruct (if i_pars f then _ else _) as [[h2 m2] [[]|x]]; specialize (S2 _ _ _ eq_refl); [|injection H as <- <- _; exact S2].
  assert (S3 : forall h3 m3 r3, (if i_cons f then add_all add_constant h2 m2 (dvals (m_cons donor)) (i_rewrite f) else (h2, m2, Ok tt)) = (h3, m3, r3) -> m_name m3 = m_name m).
  { intros h3 m3 r3. rewrite <- S2. destruct (i_cons f); [|intros X; now injection X as <- <- _]. apply add_all_name. clear.
    intros h m l rw h' m' r. unfold add_constant. destruct (hget h l) as [q|]; intros H; now injection H as <- <- _. }
  destruct (if i_cons f then _ else _) as [[h3 m3] [[]|x]]; specialize (S3 _ _ _ eq_refl); [|injection H as <- <- _; exact S3].
  destruct (i_eqs f); [|injection H as <- <- _; exact S3].
  destruct (add_equations _ _ _ _ _) as [m4 r4] eqn:E. injection H as <- <- _. rewrite (add_equations_name _ _ _ _ _ _ _ E). exact S3.
Qed.
Lemma create_name w n arg check w' r : create_equation w n arg check = (w', r) -> m_name (w_mod w') = m_name (w_mod w).
Proof.
  unfold create_equation. destruct (equation_init _ _ _ _ _) as [u' [e0|]]; [|intros H; now injection H as <- _].
  destruct (sweep_objects _) as [e2 [[]|]]; [|intros H; now injection H as <- _].
  destruct check; [destruct (check_equation _ _)|]; intros H; now injection H as <- _.
Qed.

(** ** Statements *)
Lemma stands_drop w D D' : (forall a t, dget a D' = Some t -> dget a D = Some t) -> stands w D -> stands w D'.
Proof.
  intros I [S1 S2]. constructor; [intros a t H; exact (S1 a t (I a t H))|]. intros a b l Ha Hb. apply S2.
  - destruct (dget a D') eqn:E; [|congruence]. now rewrite (I _ _ E).
  - destruct (dget b D') eqn:E; [|congruence]. now rewrite (I _ _ E).
Qed.
Lemma forget_sub a D b t : dget b (forget a D) = Some t -> dget b D = Some t.
Proof. rewrite dget_forget. destruct (String.eqb a b); [discriminate|auto]. Qed.

(** [cmd_written] without asking that the statement uses known attributes. *)
Lemma cmd_noted D w c w' : run_cmd w c = (w', Ok tt) -> stands w D -> oa (w_heap w) (w_mod w) -> stands w' (note (m_name (w_mod w)) D c).
Proof.
  intros H S O.
  destruct c as [a n u ex ty v|a n u v|a n u v|a x u|a|a n q check]; try exact (proj1 (cmd_written D w _ w' H S eq_refl)); cbn [run_cmd note] in *.
  - destruct (attr_qty (w_mod w) a) as [l|] eqn:Ea; [|discriminate].
    destruct (match x with SANum n => _ | SAAttr b => _ end) as [sv|] eqn:Ev; [|discriminate].
    unfold heap_set_value in H. destruct (hget (w_heap w) l) as [q|] eqn:G; [|discriminate].
    destruct (set_value q sv u) as [q'|] eqn:Es; [|discriminate]. injection H as <-.
    destruct (set_value_effect _ _ _ _ Es) as (Of & Sq & _ & N & _).
    destruct w as [wh wu wm]. cbn [w_heap w_uids w_mod] in *.
    assert (F : stands (mkW (hset wh l q') wu wm) (forget a D)).
    { destruct S as [S1 S2]. cbn [w_heap w_mod] in *. constructor; cbn [w_heap w_mod].
      - intros b s Hb. rewrite dget_forget in Hb. destruct (String.eqb_spec a b) as [<-|Hne]; [discriminate|].
        destruct (S1 b s Hb) as (l1 & q1 & A1 & E1 & R). exists l1, q1. split; [exact A1|]. split; [|exact R].
        rewrite hget_hset_neq; [exact E1|]. intros ->. apply Hne. exact (proj2 O a b l Ea A1).
      - intros b c l1 _ _. exact (proj2 O b c l1). }
    destruct (dget a D) as [t|] eqn:Et; [|exact F]. destruct (handed D x) as [k|] eqn:Hx; [|exact F].
    assert (k = q_value q').
    { destruct x as [k0|b]; cbn [handed] in Hx.
      - injection Ev as <-. cbn in Of. congruence.
      - destruct (dget b D) as [s|] eqn:Eb; [|discriminate]. cbn in Hx.
        destruct (st_obj _ _ S b s Eb) as (i & p & A & E & _ & V & _). cbn [w_mod w_heap] in *. rewrite A in Ev. cbn [rbind] in Ev. rewrite E in Ev. injection Ev as <-.
        cbn [offered] in Of. congruence. }
    subst k. now apply (stands_set wh wu wm a l q q' t D).
  - destruct (attr_qty (w_mod w) a) as [l|] eqn:Ea; [|discriminate].
    destruct (hget (w_heap w) l) as [q|] eqn:G; [|discriminate].
    destruct (qkind_eqb (q_kind q) KVariable); [|discriminate]. injection H as <-.
    destruct w as [wh wu wm]. cbn [w_heap w_uids w_mod] in *. apply (stands_heap wh _ wu); [|exact S].
    intros i o Gi. destruct (Nat.eq_dec i l) as [->|Hne].
    + exists (set_domain q). rewrite hget_hset_eq by now apply hget_lt in G. replace o with q by congruence. auto.
    + exists o. rewrite hget_hset_neq by exact Hne. auto.
  - destruct (rbind (resolve_eq (attr_qty (w_mod w)) q) (fun q' => build_eq (w_heap w) q')) as [arg|] eqn:Eb; [|discriminate].
    destruct (create_equation w n (Some arg) check) as [wx rx] eqn:E. apply create_attrs in E. destruct E as [E1 E2].
    destruct rx; [|discriminate]. injection H as <-. rewrite E1. now apply (stands_forget w).
Qed.

Lemma cmds_noted cs : forall D w w', run_cmds w cs = (w', Ok tt) -> stands w D -> oa (w_heap w) (w_mod w) ->
  stands w' (note_all (m_name (w_mod w)) D cs).
Proof.
  induction cs as [|c cs IH]; intros D w w' H S O; cbn [run_cmds] in H; [injection H as <-; exact S|].
  destruct (run_cmd w c) as [w1 [[]|]] eqn:E; [|discriminate].
  assert (Nm := run_cmd_name _ _ _ _ E). cbn [note_all fold_left]. rewrite <- Nm.
  apply (IH _ w1 w' H); [rewrite Nm; exact (cmd_noted _ _ _ _ E S O)|exact (cmd_oa _ _ _ _ E O)].
Qed.

(** ** Programs *)
Definition view_ok (w : pworld) (m : mstate) (d : decls) (v : view) : Prop :=
  vw_name v = m_name m /\ vw_decls v = d /\ oa (pw_heap w) m /\ forall u, stands (mkW (pw_heap w) u m) (vw_things v).
Record viewed (w : pworld) (vs : list view) : Prop := mkViewed {
  vd_len : List.length vs = List.length (pw_models w);
  vd_ok : forall i m d v, get_model w i = Some (m, d) -> nth_error vs i = Some v -> view_ok w m d v }.

Lemma change_length {A} f i (l : list A) : List.length (change_at f i l) = List.length l.
Proof. revert i. induction l as [|x l IH]; intros [|i]; cbn; auto. Qed.
Lemma change_neq {A} f i j (l : list A) : j <> i -> nth_error (change_at f i l) j = nth_error l j.
Proof. revert i j. induction l as [|x l IH]; intros [|i] [|j] H; cbn; auto; try contradiction. Qed.
Lemma change_eq {A} f i (l : list A) x : nth_error (change_at f i l) i = Some x -> exists y, nth_error l i = Some y /\ x = f y.
Proof.
  revert i. induction l as [|y l IH]; intros [|i] H; cbn in *; try discriminate.
  - injection H as <-. eauto.
  - exact (IH i H).
Qed.

Lemma stands_world h h' u u' m D : (forall l, holds_object m l -> hget h' l = hget h l) -> stands (mkW h u m) D -> stands (mkW h' u' m) D.
Proof.
  intros K [S1 S2]. constructor; cbn [w_heap w_mod] in *; [|exact S2]. intros a t Ha. destruct (S1 a t Ha) as (l & q & A & E & R).
  exists l, q. split; [exact A|]. split; [|exact R]. rewrite K; [exact E|]. exact (attr_holds _ _ _ A).
Qed.

(** A step on one model changes its view only. *)
Lemma on_model_viewed {A} w i (f : decls -> mworld -> mworld * res A) w2 r vs g : apart w -> viewed w vs ->
  (forall m d w' r, get_model w i = Some (m, d) -> f d (mkW (pw_heap w) (pw_uids w) m) = (w', r) -> ot (pw_heap w) m (w_heap w') (w_mod w')) ->
  (forall m d w' v, get_model w i = Some (m, d) -> f d (mkW (pw_heap w) (pw_uids w) m) = (w', r) -> view_ok w m d v ->
     view_ok (mkPW (w_heap w') (w_uids w') (pw_puids w) (pw_models w)) (w_mod w') d (g v)) ->
  on_model w i f = (w2, r) -> viewed w2 (change_at g i vs) /\ apart w2.
Proof.
  intros Ap [V1 V2] HO HF H. assert (On := on_model_only w i f w2 r Ap HO H). split; [|exact (on_apart _ _ _ On)].
  apply on_model_spec in H. destruct H as [(N & -> & _)|(m & d & w' & G & F & Hh & G2 & Go & L)].
  - constructor; [now rewrite change_length|]. intros j mj dj v Gj Hv. rewrite change_neq in Hv by congruence. exact (V2 j mj dj v Gj Hv).
  - constructor; [now rewrite change_length, V1, L|]. intros j mj dj v Gj Hv. destruct (Nat.eq_dec j i) as [->|Hne].
    + assert (X : Some (mj, dj) = Some (w_mod w', d)) by congruence. injection X as -> ->.
      destruct (change_eq _ _ _ _ Hv) as (v0 & Hv0 & ->).
      destruct (HF m d w' v0 G F (V2 i m d v0 G Hv0)) as (A1 & A2 & A3 & A4). cbn [pw_heap] in *.
      split; [exact A1|]. split; [exact A2|]. rewrite Hh. auto.
    + rewrite change_neq in Hv by exact Hne. rewrite Go in Gj by exact Hne.
      destruct (V2 j mj dj v Gj Hv) as (A1 & A2 & A3 & A4).
      destruct (on_kept _ _ _ On j mj dj Gj (fun E => Hne (eq_sym E))) as [_ K].
      split; [exact A1|]. split; [exact A2|]. split; [exact (oa_heap _ _ _ (on_len _ _ _ On) A3)|].
      intros u. exact (stands_world _ _ u u _ _ K (A4 u)).
Qed.

Lemma change_id {A} i (l : list A) : change_at (fun x => x) i l = l.
Proof. revert i. induction l as [|x l IH]; intros [|i]; cbn; [reflexivity..|]. now rewrite IH. Qed.

Lemma call_viewed w i w2 vs : apart w -> viewed w vs -> on_model w i model_call = (w2, Ok tt) -> viewed w2 (change_at recalled i vs) /\ apart w2.
Proof.
  intros Ap V. apply on_model_viewed; [exact Ap|exact V| |].
  - intros m d w' r G F. exact (cmds_ot _ _ _ _ F).
  - intros m d w' v G F (A1 & A2 & A3 & A4). cbn [pw_heap].
    assert (Nm : m_name (w_mod w') = m_name m) by exact (tr_name _ _ _ _ (run_cmds_tr _ _ _ _ F)).
    split; [cbn; congruence|]. split; [exact A2|]. split; [exact (cmds_oa _ _ _ _ F A3)|].
    intros u. assert (S := cmds_noted (script d) (vw_things v) (mkW (pw_heap w) (pw_uids w) m) w' F (A4 _) A3). cbn [w_mod] in S.
    cbn [recalled restate vw_things]. rewrite A1, A2. destruct S as [S1 S2]. constructor; [exact S1|exact S2].
Qed.

Lemma reload_viewed is : forall w w' vs, apart w -> viewed w vs -> reload w is = (w', Ok tt) ->
  viewed w' (fold_left (fun vs i => change_at recalled i vs) is vs) /\ apart w'.
Proof.
  induction is as [|i is IH]; intros w w' vs Ap V H; cbn [reload fold_left] in *; [injection H as <-; auto|].
  destruct (on_model w i model_call) as [w1 [[]|x]] eqn:E; [|discriminate].
  destruct (call_viewed _ _ _ _ Ap V E) as [V1 Ap1]. exact (IH _ _ _ Ap1 V1 H).
Qed.

Lemma do_act_viewed s a s' vs is : apart (fst s) -> viewed (fst s) vs -> do_act s a = (s', Ok tt) ->
  (a = AResolve -> is = dvals (pr_models (snd s))) -> viewed (fst s') (read_act vs is a).
Proof.
  intros Ap V H Is. destruct s as [w p]. destruct a as [n dd|k c|k|k j f|k|m1 m2 outs ins e|m1 m2 out inp|names|c|];
    cbn [do_act read_act fst snd] in *.
  - injection H as <-. cbn [fst]. destruct V as [V1 V2]. constructor; cbn [pw_models]; [now rewrite !app_length, V1|].
    intros i m d v G Hv. unfold get_model in G. cbn [pw_models] in G. destruct (Nat.lt_ge_cases i (List.length (pw_models w))) as [L|L].
    + rewrite nth_error_app1 in G by exact L. rewrite nth_error_app1 in Hv by (rewrite V1; exact L). exact (V2 i m d v G Hv).
    + rewrite nth_error_app2 in G by exact L. rewrite nth_error_app2 in Hv by (rewrite V1; exact L). rewrite V1 in Hv.
      destruct (i - _)%nat as [|z]; [|destruct z; discriminate]. injection G as <- <-. injection Hv as <-.
      split; [reflexivity|]. split; [reflexivity|]. split; [split; intros ? ? ?; discriminate|]. intros u. apply stands_nil.
  - destruct (on_model w k _) as [w1 r1] eqn:E. injection H as <- ->. cbn [fst].
    apply (on_model_viewed w k _ w1 (Ok tt) vs (told c) Ap V) in E; [exact (proj1 E)| |].
    + intros m d w2 r2 _ F. exact (cmd_ot _ _ _ _ F).
    + intros m d w' v G F (A1 & A2 & A3 & A4). cbn [pw_heap]. assert (Nm := run_cmd_name _ _ _ _ F). cbn [w_mod] in Nm.
      split; [cbn; congruence|]. split; [exact A2|]. split; [exact (cmd_oa _ _ _ _ F A3)|].
      intros u. assert (S := cmd_noted (vw_things v) (mkW (pw_heap w) (pw_uids w) m) c w' F (A4 _) A3). cbn [w_mod] in S.
      cbn [told restate vw_things]. rewrite A1. destruct S as [S1 S2]. constructor; [exact S1|exact S2].
  - destruct (on_model w k _) as [w1 r1] eqn:E. injection H as <- ->. exact (proj1 (call_viewed _ _ _ _ Ap V E)).
  - destruct (get_model w j) as [[dm ddm]|]; [|discriminate].
    destruct (on_model w k _) as [w1 r1] eqn:E. injection H as <- ->. cbn [fst].
    apply (on_model_viewed w k _ w1 (Ok tt) vs (fun v => restate v []) Ap V) in E; [exact (proj1 E)| |].
    + intros m d w2 r2 _ F. cbn [w_heap w_mod w_uids] in F. destruct (incorporate (pw_heap w) m dm f) as [[h' m'] r'] eqn:I.
      injection F as <- _. exact (incorporate_ot _ _ _ _ _ _ _ I).
    + intros m d w' v G F (A1 & A2 & A3 & A4). cbn [pw_heap w_heap w_mod w_uids] in *. destruct (incorporate (pw_heap w) m dm f) as [[h' m'] r'] eqn:I.
      injection F as <- ->. cbn [w_heap w_mod]. split; [cbn|]. { rewrite A1. symmetry. exact (incorporate_name _ _ _ _ _ _ _ I). }
      split; [exact A2|]. split; [exact (incorporate_oa _ _ _ _ _ _ _ I A3)|]. intros u. apply stands_nil.
  - destruct (get_model w k); [|discriminate]. injection H as <-. exact V.
  - destruct (match e with None => _ | Some _ => _ end) as [x|]; [|discriminate].
    unfold connect_vars in H. destruct (get_model w m2) as [[s2 d2]|]; [|discriminate].
    destruct (match m1 with CMName _ => _ | CMModel i => _ end); [|discriminate].
    destruct (forallb _ (cv_list ins) && forallb _ (cv_list outs)).
    2: { destruct ins, outs; discriminate. }
    destruct (match x with Some _ => _ | None => _ end) as [ar|]; [|discriminate].
    destruct (rbind (qty_names (pw_heap w) (cv_list outs)) _) as [[o i']|]; [|discriminate].
    destruct (on_model w m2 _) as [w1 r1] eqn:E. destruct r1 as [e1|]; [|discriminate]. injection H as <-. cbn [fst].
    rewrite <- (change_id m2 vs).
    apply (on_model_viewed w m2 _ w1 (Ok e1) vs (fun v => v) Ap V) in E; [exact (proj1 E)| |].
    + intros m d w2 r2 _ F. exact (connection_ot _ _ _ _ _ _ F).
    + intros m d w' v Gm F (A1 & A2 & A3 & A4). assert (T := F). apply connection_attrs in F. cbn [w_heap w_mod pw_heap] in *. destruct F as [F1 F2].
      assert (Nm : m_name (w_mod w') = m_name m).
      { unfold model_connection in T. cbn [w_heap w_mod w_uids] in T. destruct (_ && _); [|now injection T as <- _].
        destruct (rbind _ _); [|now injection T as <- _]. destruct (connection_init _ _ _) as [? []]; now injection T as <- _. }
      split; [congruence|]. split; [exact A2|]. cbn [pw_heap]. rewrite F1. split; [exact (oa_attrs _ _ _ F2 A3)|].
      intros u. destruct (A4 u) as [S1 S2]. cbn [w_heap w_mod] in *. constructor; cbn [w_heap w_mod].
      * intros x1 t Ha. destruct (S1 x1 t Ha) as (l & q & A & R). exists l, q. rewrite (attr_same _ _ x1 F2). auto.
      * intros x1 x2 l Ha Hb. rewrite (attr_same _ _ x1 F2), (attr_same _ _ x2 F2). now apply S2.
  - destruct (rbind (build (pw_heap w) out) _) as [[o i]|]; [|discriminate].
    unfold connect_nodes in H. destruct (get_model w m2) as [[s2 d2]|]; [|discriminate].
    destruct (match m1 with CMName _ => _ | CMModel _ => _ end) as [pu rr].
    destruct rr as [n1|]; [|discriminate].
    destruct (node_sub i (ONode o)) as [dn|]; [|discriminate].
    set (w0 := mkPW (pw_heap w) (pw_uids w) pu (pw_models w)) in *.
    assert (Ap0 : apart w0) by (destruct Ap as [O1 O2]; constructor; assumption).
    assert (V0 : viewed w0 vs) by (destruct V as [V1 V2]; constructor; assumption).
    destruct (on_model _ m2 _) as [w1 r1] eqn:E. destruct r1 as [e1|]; [|discriminate]. injection H as <-. cbn [fst].
    rewrite <- (change_id m2 vs).
    apply (on_model_viewed w0 m2 _ w1 (Ok e1) vs (fun v => v) Ap0 V0) in E; [exact (proj1 E)| |].
    + intros m d w2 r2 _ F. exact (equation_ot _ _ _ _ _ _ F).
    + intros m d w' v Gm F (A1 & A2 & A3 & A4). assert (T := F). apply create_attrs in F. cbn [w_heap w_mod pw_heap w0] in *. destruct F as [F1 F2].
      assert (Nm : m_name (w_mod w') = m_name m) by exact (create_name _ _ _ _ _ _ T).
      split; [congruence|]. split; [exact A2|]. cbn [pw_heap]. rewrite F1. split; [exact (oa_attrs _ _ _ F2 A3)|].
      intros u. destruct (A4 u) as [S1 S2]. cbn [w_heap w_mod] in *. constructor; cbn [w_heap w_mod].
      * intros x1 t Ha. destruct (S1 x1 t Ha) as (l & q & A & R). exists l, q. rewrite (attr_same _ _ x1 F2). auto.
      * intros x1 x2 l Ha Hb. rewrite (attr_same _ _ x1 F2), (attr_same _ _ x2 F2). now apply S2.
  - injection H as <-. exact V.
  - injection H as <-. exact V.
  - unfold presolve in H. destruct (reload w (dvals (pr_models p))) as [w1 [[]|]] eqn:E; [|discriminate].
    rewrite (Is eq_refl). destruct (reload_viewed _ _ _ _ Ap V E) as [V1 _].
    destruct (build_block w1 p); [|discriminate]. destruct (block_call _) as [b' r']. injection H as <- _. exact V1.
Qed.

(** The models of the problem. *)
Lemma all_ok_app a b : forall s, all_ok s (a ++ b) <-> all_ok s a /\ all_ok (run_acts s a) b.
Proof.
  induction a as [|x a IH]; intros s; cbn [app all_ok run_acts]; [tauto|]. rewrite IH. tauto.
Qed.
Lemma added_adds acts : all_ok start_session acts -> added_from start_session acts = adds acts.
Proof.
  generalize start_session. induction acts as [|a acts IH]; intros s H; [reflexivity|]. destruct H as [H1 H2]. cbn [added_from adds flat_map]. fold (adds acts). rewrite (IH _ H2).
  f_equal. destruct a; try reflexivity. destruct s as [w p]. cbn [do_act fst] in *. destruct (get_model w i); [reflexivity|discriminate].
Qed.

Lemma firsts_incl l x : In x (firsts l) <-> In x l.
Proof.
  induction l as [|y l IH]; [reflexivity|]. cbn [firsts]. split.
  - intros [->|H]; [now left|]. apply filter_In in H. right. now apply IH.
  - intros [->|H]; [now left|]. destruct (Nat.eq_dec y x) as [->|N]; [now left|]. right. apply filter_In. split; [now apply IH|].
    apply Nat.eqb_neq in N. now rewrite N.
Qed.

Lemma model_later acts a i m : model_of (run_acts start_session acts) i = Some m ->
  exists m', model_of (run_acts start_session (acts ++ [a])) i = Some m' /\ m_name m' = m_name m.
Proof.
  unfold model_of. destruct (get_model (fst (run_acts start_session acts)) i) as [[m0 d]|] eqn:G; [|discriminate]. intros H. injection H as ->.
  apply model_created in G. destruct (created_model (acts ++ [a]) i (m_name m) d) as (m' & G' & N).
  - rewrite created_app. rewrite nth_error_app1; [exact G|]. apply nth_error_Some. congruence.
  - exists m'. rewrite G'. auto.
Qed.
Lemma distinct_before acts a : distinct_models (acts ++ [a]) -> distinct_models acts.
Proof.
  intros D i j mi mj Hi Hj Ei Ej N.
  destruct (model_later _ a _ _ Ei) as (mi' & Ei' & Ni). destruct (model_later _ a _ _ Ej) as (mj' & Ej' & Nj).
  apply (D i j mi' mj'); [| |exact Ei'|exact Ej'|congruence]; unfold added in *; apply (proj2 (firsts_incl _ _)); apply (proj1 (firsts_incl _ _)) in Hi, Hj; rewrite added_app; apply in_or_app; now left.
Qed.
Lemma members acts : distinct_models acts -> dvals (pr_models (snd (run_acts start_session acts))) = added acts.
Proof.
  intros D. apply added_models. intros j k n Hj Hk Nj Nk. unfold name_of in *.
  destruct (model_of _ j) as [mj|] eqn:Ej; [|discriminate]. destruct (model_of _ k) as [mk|] eqn:Ek; [|discriminate].
  simpl in Nj, Nk. apply (D j k mj mk Hj Hk Ej Ek). congruence.
Qed.

Lemma read_app a b : forall past vs, read_acts past vs (a ++ b) = read_acts (past ++ a) (read_acts past vs a) b.
Proof.
  induction a as [|x a IH]; intros past vs; cbn [app read_acts]; [now rewrite app_nil_r|]. rewrite IH, <- app_assoc. reflexivity.
Qed.
Lemma views_snoc acts a : views (acts ++ [a]) = read_act (views acts) (firsts (adds acts)) a.
Proof. unfold views. rewrite read_app. reflexivity. Qed.

Lemma run_viewed acts : all_ok start_session acts -> distinct_models acts -> viewed (fst (run_acts start_session acts)) (views acts).
Proof.
  induction acts as [|a acts IH] using rev_ind; intros O D.
  - constructor; [reflexivity|]. intros i m d v H. unfold get_model in H; destruct i; discriminate.
  - apply all_ok_app in O. destruct O as [O1 [O2 _]]. apply distinct_before in D. rewrite views_snoc, run_acts_app. cbn [run_acts].
    destruct (do_act (run_acts start_session acts) a) as [s' r] eqn:E. cbn [fst snd] in *. subst r.
    apply (do_act_viewed _ _ _ _ _ (run_apart acts) (IH O1 D) E). intros _. rewrite (members _ D). unfold added. now rewrite (added_adds _ O1).
Qed.

(** Each model of the problem is called once, as it was read. *)
Lemma reload_views is : forall w w' vs, apart w -> viewed w vs -> reload w is = (w', Ok tt) -> NoDup is ->
  forall i, In i is -> exists m0 d v h u w1, get_model w i = Some (m0, d) /\ nth_error vs i = Some v /\
    vw_name v = m_name m0 /\ vw_decls v = d /\ stands (mkW h u m0) (vw_things v) /\
    model_call d (mkW h u m0) = (w1, Ok tt) /\ get_model w' i = Some (w_mod w1, d).
Proof.
  induction is as [|k is IH]; intros w w' vs Ap V H ND i Hi; [destruct Hi|]. cbn [reload] in H.
  destruct (on_model w k model_call) as [w1 [[]|x]] eqn:E; [|discriminate].
  apply NoDup_cons_iff in ND. destruct ND as [Ni ND]. destruct (call_viewed _ _ _ _ Ap V E) as [V1 Ap1].
  apply on_model_spec in E. destruct E as [(_ & _ & X)|(m & d & w2 & G & F & _ & G2 & Go & _)]; [discriminate|].
  destruct (Nat.eq_dec i k) as [->|Hne].
  - assert (Lt : (k < List.length vs)%nat) by (rewrite (vd_len _ _ V); apply nth_error_Some; unfold get_model in G; congruence).
    apply nth_error_Some in Lt. destruct (nth_error vs k) as [v|] eqn:Ev; [|congruence].
    destruct (vd_ok _ _ V k m d v G Ev) as (A1 & A2 & A3 & A4).
    exists m, d, v, (pw_heap w), (pw_uids w), w2. split; [exact G|]. split; [reflexivity|]. split; [exact A1|]. split; [exact A2|]. split; [apply A4|].
    split; [exact F|]. destruct (reload_calls _ _ _ H ND) as [K _]. now rewrite (K k Ni).
  - destruct Hi as [->|Hi]; [contradiction|].
    destruct (IH _ _ _ Ap1 V1 H ND i Hi) as (m0 & d0 & v & h & u & w3 & G0 & Ev & R).
    exists m0, d0, v, h, u, w3. split; [now rewrite <- Go|]. split; [now rewrite change_neq in Ev|exact R].
Qed.

Lemma written_names M cs : forall D D', map wr_name (equations_written M D cs) = map wr_name (equations_written M D' cs).
Proof.
  induction cs as [|c cs IH]; intros D D'; [reflexivity|]. cbn [equations_written]. rewrite !map_app, (IH _ (note M D' c)). f_equal.
  destruct c; try reflexivity. cbn. now rewrite !read_eq_name.
Qed.

(** A resolved model holds what its view writes; other equations are kept. *)
Lemma resolved_view acts s b i v : resolved acts s b -> all_ok start_session acts -> distinct_models acts -> In i (added acts) ->
  nth_error (views acts) i = Some v -> view_legible v ->
  exists m0 m d, get_model (fst (run_acts start_session acts)) i = Some (m0, d) /\ get_model (fst s) i = Some (m, d) /\
    vw_name v = m_name m0 /\ vw_decls v = d /\ m_name m = m_name m0 /\
    (forall x, In x (view_writes v) -> stored_in (vw_name v) m x) /\
    (forall k, (forall x, In x (view_writes v) -> k <> full_name (wr_name x) (vw_name v)) -> dget k (m_eqs m) = dget k (m_eqs m0)).
Proof.
  intros R O D Hi Hv [L1 L2]. assert (V := run_viewed _ O D). destruct (resolved_reload _ _ _ R) as [Rl ND].
  assert (Hi' := member_added _ _ _ _ R D Hi).
  destruct (reload_views _ _ _ _ (run_apart acts) V Rl ND i Hi') as (m0 & d & v' & h & u & w1 & G0 & Ev & Nv & Dv & S & F & G1).
  assert (v' = v) by congruence. subst v'. exists m0, (w_mod w1), d. unfold view_writes in *. rewrite Dv, Nv in *.
  destruct (cmds_written (script d) (vw_things v) (mkW h u m0) w1 F S L1) as (A & B & C). cbn [w_mod] in *.
  repeat split; auto.
Qed.

Lemma block_view acts s b v x : resolved acts s b -> all_ok start_session acts -> distinct_models acts -> readable_program acts ->
  written_in acts v x -> exists e, In e (b_eqs b) /\ eq_name e = full_name (wr_name x) (vw_name v) /\ says x e.
Proof.
  intros R O D L (i & Hi & Hv & Hx).
  destruct (resolved_view _ _ _ _ _ R O D Hi Hv (L i v Hi Hv)) as (m0 & m & d & _ & G & _ & _ & _ & St & _).
  destruct (St x Hx) as (e & Ee & Ne & Se). exists e. split; [exact (member_equations _ _ _ _ _ _ R (member_added _ _ _ _ R D Hi) G _ _ Ee)|auto].
Qed.

(** ** Nothing else *)
Definition eq_names (cs : list cmd) : list string := flat_map (fun c => match c with CEq _ n _ _ => [n] | _ => [] end) cs.
Lemma written_eq_names M cs : forall D, map wr_name (equations_written M D cs) = eq_names cs.
Proof.
  induction cs as [|c cs IH]; intros D; [reflexivity|]. cbn [equations_written eq_names flat_map]. rewrite map_app, IH. f_equal.
  destruct c; try reflexivity. cbn. now rewrite read_eq_name.
Qed.

Lemma cmd_keys w c w' r : run_cmd w c = (w', r) -> forall k e, In (k, e) (m_eqs (w_mod w')) ->
  In (k, e) (m_eqs (w_mod w)) \/ exists a n q ch, c = CEq a n q ch /\ k = stored_name w n.
Proof.
  intros H k e Hk. destruct r as [[]|x]; [|apply cmd_failed in H; rewrite H in Hk; now left].
  destruct w as [h u m]. destruct c as [a n un ex ty v|a n un v|a n un v|a v un|a|a n q check]; cbn [run_cmd w_heap w_mod w_uids] in *.
  - unfold assign_qty, create_variable in H. destruct ex; [destruct (String.eqb ty "input"); [|destruct (String.eqb ty "output")]|]; try discriminate H; injection H as <-; now left.
  - injection H as <-. now left.
  - injection H as <-. now left.
  - destruct (attr_qty m a); [|discriminate]. destruct (match v with SANum _ => _ | SAAttr _ => _ end); [|discriminate].
    destruct (heap_set_value _ _ _ _) as [h' [[]|]]; [|discriminate]. injection H as <-. now left.
  - destruct (attr_qty m a); [|discriminate]. destruct (hget h _); [|discriminate]. destruct (qkind_eqb _ _); [|discriminate]. injection H as <-. now left.
  - destruct (rbind (resolve_eq (attr_qty m) q) _) as [arg|]; [|discriminate].
    destruct (create_outcome (mkW h u m) n arg check) as [u' E]. rewrite E in H. clear E.
    destruct (set_residual _ arg) as [e0 [[]|]]; [|discriminate]. destruct (eq_expr e0) as [nn|]; [|discriminate]. cbv zeta in H.
    set (e2 := mkEqn _ _ _ _ _ _ _) in H.
    assert (X : m_eqs (w_mod w') = dset (stored_name (mkW h u m) n) e2 (m_eqs m))
      by (destruct check; [destruct (forallb _ _); [|discriminate]|]; injection H as <-; reflexivity).
    rewrite X in Hk. apply in_dset in Hk. destruct Hk as [[-> _]|Hk]; [right; exists a, n, q, check; auto|now left].
Qed.

Lemma cmds_keys cs : forall w w' r, run_cmds w cs = (w', r) -> clean (m_name (w_mod w)) = true -> forallb clean_cmd cs = true ->
  forall k e, In (k, e) (m_eqs (w_mod w')) ->
  In (k, e) (m_eqs (w_mod w)) \/ exists n, In n (eq_names cs) /\ k = full_name n (m_name (w_mod w)).
Proof.
  induction cs as [|c cs IH]; intros w w' r H Cm Cc k e Hk; cbn [run_cmds forallb] in *.
  - injection H as <- _. now left.
  - apply andb_prop in Cc. destruct Cc as [C1 C2]. destruct (run_cmd w c) as [w1 r1] eqn:E.
    assert (Nm := run_cmd_name _ _ _ _ E).
    assert (K : forall e, In (k, e) (m_eqs (w_mod w1)) -> In (k, e) (m_eqs (w_mod w)) \/ exists n, In n (eq_names (c :: cs)) /\ k = full_name n (m_name (w_mod w))).
    { intros e0 H0. destruct (cmd_keys _ _ _ _ E k e0 H0) as [Ho|(a & n & q & ch & -> & ->)]; [now left|right]. exists n. split; [now left|].
      cbn [clean_cmd] in C1. apply andb_prop in C1. destruct C1 as [_ Ne]. apply Bool.negb_true_iff in Ne. unfold stored_name. now rewrite Ne. }
    destruct r1 as [[]|x]; [|injection H as <- _; exact (K e Hk)].
    rewrite <- Nm in Cm. destruct (IH w1 w' r H Cm C2 k e Hk) as [H1|(n & Hn & ->)]; [exact (K e H1)|right].
    exists n. split; [apply in_or_app; now right|now rewrite Nm].
Qed.

Lemma connection_said w outs ins a w' r : balance (w_heap w) ins outs = Ok a -> names_ok (w_heap w) ->
  (forall l q, In l (outs ++ ins) -> hget (w_heap w) l = Some q -> q_spec q = false) ->
  model_connection w outs ins a = (w', r) ->
  w_heap w' = w_heap w /\
  forall k e, In (k, e) (m_eqs (w_mod w')) -> In (k, e) (m_eqs (w_mod w)) \/
    ((exists e', r = Ok e') /\ Forall simple_name (var_names (w_heap w) outs) /\ Forall simple_name (var_names (w_heap w) ins) /\
     k = conn_name (var_names (w_heap w) outs) (var_names (w_heap w) ins) /\ balances (var_names (w_heap w) outs) (var_names (w_heap w) ins) e).
Proof.
  intros Ba N Fv H. unfold model_connection in H.
  destruct (forallb (is_variable (w_heap w)) ins && forallb (is_variable (w_heap w)) outs) eqn:Ev; [|injection H as <- _; auto].
  destruct (rbind (qty_names (w_heap w) outs) _) as [name|x] eqn:En; [|injection H as <- _; auto].
  assert (Ne : name <> "") by (binv; apply append_ne).
  assert (Nm : name = conn_name (var_names (w_heap w) outs) (var_names (w_heap w) ins))
    by (binv; apply qty_names_spec in Hb, Hb0; now rewrite Hb, Hb0).
  destruct (connection_init (w_uids w) name a) as [u [e|x]] eqn:Ec; injection H as <- <-; [|auto].
  split; [reflexivity|]. cbn [w_mod with_eqs m_eqs]. intros k e' Hk. apply in_dset in Hk. destruct Hk as [[-> ->]|Hk]; [right|now left].
  apply andb_prop in Ev. destruct Ev as [V1 V2]. split; [eauto|].
  split; [now apply variables_named|]. split; [now apply variables_named|]. split; [exact Nm|].
  apply balance_built in Ba. destruct Ba as [(-> & _)|(q & Eq & Hb)].
  { exfalso. unfold connection_init, equation_init in Ec. destruct (String.eqb name ""); simpl in Ec; discriminate. }
  destruct (connection_data _ _ _ _ _ _ _ Ne Hb Ec) as (_ & _ & n & Hn & _ & _ & Hd). split.
  - unfold connection_init in Ec. destruct (init_outcome (w_uids w) main_thread name a "") as [u1 E]. rewrite E in Ec. clear E.
    apply String.eqb_neq in Ne. rewrite Ne in Ec.
    destruct (set_residual (blank_eqn name) a) as [e1 [[]|x]] eqn:Er; [|discriminate].
    assert (P := eq_parts _ _ _ _ _ Hb Er). cbn in P.
    destruct (residual_again a _ _ (with_eowner e1 "") (built_not_other _ _ _ Hb) Er) as (e2 & E2 & X & T & N2 & _ & El & Ef).
    rewrite E2 in Ec. unfold sweep_objects in Ec. destruct (eq_expr e2); [|discriminate]. injection Ec as _ <-. cbn.
    rewrite (Ef eq_refl). exact P.
  - exists n. split; [exact Hn|]. intros en. rewrite (Hd _ _ (named_env (w_heap w) en)). cbn [residual_meaning].
    rewrite (balance_meaning _ _ _ _ _ Eq).
    assert (Fr : forall ls, forallb (is_variable (w_heap w)) ls = true -> incl ls (outs ++ ins) -> forall l, In l ls -> exists q, hget (w_heap w) l = Some q /\ q_spec q = false).
    { intros ls V I l Hl. rewrite forallb_forall in V. specialize (V l Hl). unfold is_variable in V.
      destruct (hget (w_heap w) l) as [o|] eqn:G; [|discriminate]. exists o. split; [reflexivity|]. exact (Fv l o (I l Hl) G). }
    rewrite (sum_free _ en _ (Fr _ V1 (incl_appr _ (incl_refl _)))), (sum_free _ en _ (Fr _ V2 (incl_appl _ (incl_refl _)))). reflexivity.
Qed.

(** Where the equations come from: the declarations or connections. *)
Definition joined_as (acts : list act) (j : nat) (k : string) (e : eqn) : Prop :=
  exists os is, Forall simple_name os /\ Forall simple_name is /\ k = conn_name os is /\ connected acts j os is /\ balances os is e.
Record sourced (acts : list act) (w : pworld) : Prop := mkSourced {
  so_names : names_ok (pw_heap w);
  so_clean : forall i m d, get_model w i = Some (m, d) -> clean (m_name m) = true /\ forallb clean_cmd (script d) = true;
  so_from : forall i m d k e, get_model w i = Some (m, d) -> In (k, e) (m_eqs m) ->
    (exists n, In n (eq_names (script d)) /\ k = full_name n (m_name m)) \/ joined_as acts i k e }.

Lemma on_model_sourced {A} acts w i (f : decls -> mworld -> mworld * res A) w2 r : sourced acts w ->
  (forall m d w' r', get_model w i = Some (m, d) -> f d (mkW (pw_heap w) (pw_uids w) m) = (w', r') -> on_model w i f = (w2, r') ->
     names_ok (w_heap w') /\ m_name (w_mod w') = m_name m /\
     forall k e, In (k, e) (m_eqs (w_mod w')) -> In (k, e) (m_eqs m) \/
       (exists n, In n (eq_names (script d)) /\ k = full_name n (m_name m)) \/ joined_as acts i k e) ->
  on_model w i f = (w2, r) -> sourced acts w2.
Proof.
  intros O HF H0. assert (H := H0). apply on_model_spec in H. destruct H as [(_ & -> & _)|(m & d & w' & G & F & Hh & G2 & Go & L)]; [exact O|].
  destruct (HF m d w' r G F H0) as (N & Nm & K). constructor.
  - now rewrite Hh.
  - intros j mj dj Gj. destruct (Nat.eq_dec j i) as [->|Hne].
    + assert (X : Some (mj, dj) = Some (w_mod w', d)) by congruence. injection X as -> ->. rewrite Nm. exact (so_clean _ _ O i m d G).
    + rewrite Go in Gj by exact Hne. exact (so_clean _ _ O j mj dj Gj).
  - intros j mj dj k e Gj Hin. destruct (Nat.eq_dec j i) as [->|Hne].
    + assert (X : Some (mj, dj) = Some (w_mod w', d)) by congruence. injection X as -> ->. rewrite Nm.
      destruct (K k e Hin) as [Hm|C]; [exact (so_from _ _ O i m d k e G Hm)|exact C].
    + rewrite Go in Gj by exact Hne. exact (so_from _ _ O j mj dj k e Gj Hin).
Qed.

Lemma call_sourced acts w i w2 r : sourced acts w -> on_model w i model_call = (w2, r) -> sourced acts w2.
Proof.
  intros O. apply (on_model_sourced acts _ _ _ _ _ O). intros m d w' r' G F _. destruct (so_clean _ _ O i m d G) as [C1 C2].
  destruct (cmds_arrows (script d) (mkW (pw_heap w) (pw_uids w) m) w' r' F C1 C2 (so_names _ _ O)) as [N _]. split; [exact N|].
  split; [exact (tr_name _ _ _ _ (run_cmds_tr _ _ _ _ F))|]. intros k e Hk.
  destruct (cmds_keys (script d) (mkW (pw_heap w) (pw_uids w) m) w' r' F C1 C2 k e Hk) as [H|H]; auto.
Qed.
Lemma reload_sourced acts is : forall w w' r, sourced acts w -> reload w is = (w', r) -> sourced acts w'.
Proof.
  induction is as [|i is IH]; intros w w' r O H; cbn [reload] in H; [now injection H as <- _|].
  destruct (on_model w i model_call) as [w1 [[]|x]] eqn:E.
  - exact (IH _ _ _ (call_sourced _ _ _ _ _ O E) H).
  - injection H as <- _. exact (call_sourced _ _ _ _ _ O E).
Qed.

Lemma do_act_sourced acts a : let s := run_acts start_session acts in by_declaration a = true -> joins_unknowns (acts ++ [a]) ->
  sourced (acts ++ [a]) (fst s) -> sourced (acts ++ [a]) (fst (fst (do_act s a))).
Proof.
  intros s P J O. destruct (do_act s a) as [[w' p'] r] eqn:E. cbn [fst].
  assert (Es : s = (fst s, snd s)) by (destruct s; reflexivity).
  assert (J' : forall m j outs ins, a = AConn m j outs ins None -> forall l q, In l (cv_list outs ++ cv_list ins) -> hget (pw_heap (fst s)) l = Some q -> q_spec q = false).
  { intros m j outs ins -> l q. apply (J acts m j outs ins []). reflexivity. }
  set (w := fst s) in *. set (p := snd s) in *. rewrite Es in E.
  destruct a as [n dd|k c|k|k j f|k|m1 m2 outs ins e|m1 m2 out inp|names|c|]; cbn [by_declaration] in P; try discriminate P; cbn [do_act] in E.
  - injection E as <- _ _. cbn [clean_act] in P. apply andb_prop in P. destruct O as [O1 O2 O3].
    assert (X : forall i m d, get_model (mkPW (pw_heap w) (pw_uids w) (pw_puids w) (pw_models w ++ [(new_model n, dd)])) i = Some (m, d) ->
                get_model w i = Some (m, d) \/ (m = new_model n /\ d = dd)).
    { intros i m d H. unfold get_model in *. simpl in H. destruct (Nat.lt_ge_cases i (List.length (pw_models w))) as [L|L].
      - left. now rewrite nth_error_app1 in H by exact L.
      - right. rewrite nth_error_app2 in H by exact L. destruct (i - _)%nat as [|z]; [|destruct z; discriminate]. injection H as <- <-. auto. }
    constructor; cbn [pw_heap].
    + exact O1.
    + intros i m d H. destruct (X i m d H) as [H1|[-> ->]]; [exact (O2 i m d H1)|exact P].
    + intros i m d k e H Hin. destruct (X i m d H) as [H1|[-> _]]; [exact (O3 i m d k e H1 Hin)|destruct Hin].
  - destruct (on_model w k _) as [w1 r1] eqn:E1. injection E as <- _ _.
    apply (on_model_sourced _ _ _ _ _ _ O) with (2 := E1). intros m d w2 r2 G F _.
    assert (Cc : clean_cmd c = true) by (destruct c; try discriminate P; exact P).
    destruct (cmd_arrows (mkW (pw_heap w) (pw_uids w) m) c w2 r2 F (proj1 (so_clean _ _ O k m d G)) Cc (so_names _ _ O)) as [N _].
    split; [exact N|]. split; [exact (run_cmd_name _ _ _ _ F)|]. intros k' e' Hk.
    destruct (cmd_keys _ _ _ _ F k' e' Hk) as [Ho|(a & n & q & ch & -> & _)]; [now left|discriminate P].
  - destruct (on_model w k _) as [w1 r1] eqn:E1. injection E as <- _ _. exact (call_sourced _ _ _ _ _ O E1).
  - destruct (get_model w k); injection E as <- _ _; exact O.
  - destruct e as [q|]; [discriminate P|]. assert (E0 := E). specialize (J' m1 m2 outs ins eq_refl).
    unfold connect_vars in E. destruct (get_model w m2) as [[s2 d2]|]; [|injection E as <- _ _; exact O].
    destruct m1 as [i|]; [|injection E as <- _ _; exact O].
    destruct (match get_model w i with Some _ => _ | None => _ end); [|injection E as <- _ _; exact O].
    destruct (forallb _ (cv_list ins) && forallb _ (cv_list outs)).
    2: { destruct ins, outs; injection E as <- _ _; exact O. }
    destruct (balance (pw_heap w) (cv_list ins) (cv_list outs)) as [ar|] eqn:Ba; [|injection E as <- _ _; exact O].
    destruct (rbind (qty_names (pw_heap w) (cv_list outs)) _) as [[o i']|]; [|injection E as <- _ _; exact O].
    destruct (on_model w m2 _) as [w1 r1] eqn:E1.
    assert (Q : sourced (acts ++ [AConn (CMModel i) m2 outs ins None]) w1).
    { apply (on_model_sourced _ _ _ _ _ _ O) with (2 := E1). intros m d w2 r2 _ F E2.
      assert (T : m_name (w_mod w2) = m_name m).
      { unfold model_connection in F. cbn [w_heap w_mod w_uids] in F. destruct (_ && _); [|now injection F as <- _].
        destruct (rbind _ _); [|now injection F as <- _]. destruct (connection_init _ _ _) as [? []]; now injection F as <- _. }
      destruct (connection_said (mkW (pw_heap w) (pw_uids w) m) _ _ _ _ _ Ba (so_names _ _ O) J' F) as [Hh K].
      split; [rewrite Hh; exact (so_names _ _ O)|]. split; [exact T|]. intros k e Hk.
      destruct (K k e Hk) as [Hm|((e' & ->) & S1 & S2 & Ek & B)]; [now left|]. right. right. cbn [w_heap] in *.
      exists (var_names (pw_heap w) (cv_list outs)), (var_names (pw_heap w) (cv_list ins)). split; [exact S1|]. split; [exact S2|]. split; [exact Ek|]. split; [|exact B].
      rewrite E2 in E1. injection E1 as <-. exists acts, i, outs, ins, [], (w', p').
      split; [reflexivity|]. split; [|auto]. fold s. rewrite Es. cbn [do_act]. rewrite E0. injection E as _ _ <-. reflexivity. }
    destruct r1; injection E as <- _ _; exact Q.
  - injection E as <- _ _. exact O.
  - injection E as <- _ _. exact O.
  - unfold presolve in E. destruct (reload w (dvals (pr_models p))) as [w1 r1] eqn:E1.
    assert (Q := reload_sourced _ _ _ _ _ O E1).
    destruct r1 as [[]|x]; [|injection E as <- _ _; exact Q]. destruct (build_block w1 p); [|injection E as <- _ _; exact Q].
    destruct (block_call _) as [b' r']. injection E as <- _ _. exact Q.
Qed.

Lemma joined_more acts a j k e : joined_as acts j k e -> joined_as (acts ++ [a]) j k e.
Proof.
  intros (os & is & S1 & S2 & Ek & (a1 & i & outs & ins & a2 & s1 & -> & R) & B). exists os, is. repeat split; auto; try apply B.
  exists a1, i, outs, ins, (a2 ++ [a]), s1. split; [now rewrite <- app_assoc|exact R].
Qed.
Lemma joins_before acts a : joins_unknowns (acts ++ [a]) -> joins_unknowns acts.
Proof. intros J a1 m j outs ins a2 l q ->. apply (J a1 m j outs ins (a2 ++ [a])). now rewrite <- app_assoc. Qed.

Lemma run_sourced acts : forallb by_declaration acts = true -> joins_unknowns acts -> sourced acts (fst (run_acts start_session acts)).
Proof.
  induction acts as [|a acts IH] using rev_ind; intros P J.
  - constructor.
    + intros l q H. unfold hget in H. destruct l; discriminate.
    + intros i m d H. unfold get_model in H; destruct i; discriminate.
    + intros i m d k e H. unfold get_model in H; destruct i; discriminate.
  - rewrite forallb_app in P. apply andb_prop in P. destruct P as [P1 P2]. cbn [forallb] in P2. rewrite Bool.andb_true_r in P2.
    rewrite run_acts_app. cbn [run_acts]. apply do_act_sourced; [exact P2|exact J|].
    destruct (IH P1 (joins_before _ _ J)) as [O1 O2 O3]. constructor; [exact O1|exact O2|].
    intros i m d k e G Hin. destruct (O3 i m d k e G Hin) as [H|H]; [now left|right; now apply joined_more].
Qed.

Lemma joins_resolved acts : joins_unknowns acts -> joins_unknowns (acts ++ [AResolve]).
Proof.
  intros J a1 m j outs ins a2 l q E.
  destruct (@exists_last _ (AConn m j outs ins None :: a2)) as (l0 & x & El); [discriminate|].
  rewrite El, app_assoc in E. apply app_inj_tail in E. destruct E as [E <-]. destruct l0 as [|y l0]; [discriminate El|]. injection El as <- ->.
  exact (J a1 m j outs ins l0 l q E).
Qed.
Lemma resolved_sourced acts s b : resolved acts s b -> forallb by_declaration acts = true -> joins_unknowns acts ->
  sourced (acts ++ [AResolve]) (fst s).
Proof.
  intros R P J. replace s with (run_acts start_session (acts ++ [AResolve])) by (rewrite run_acts_app; cbn [run_acts]; now rewrite (proj1 R)).
  apply run_sourced; [rewrite forallb_app, P; reflexivity|now apply joins_resolved].
Qed.
Lemma resolved_good acts s b : resolved acts s b -> good s.
Proof.
  intros R. replace s with (run_acts start_session (acts ++ [AResolve])) by (rewrite run_acts_app; cbn [run_acts]; now rewrite (proj1 R)).
  apply run_good, start_good.
Qed.

Lemma viewed_model acts i : all_ok start_session acts -> distinct_models acts -> In i (added acts) -> exists v, nth_error (views acts) i = Some v.
Proof.
  intros O D Hi. assert (V := run_viewed _ O D). unfold added in Hi. apply (proj1 (firsts_incl _ _)) in Hi.
  assert (L : exists m d, get_model (fst (run_acts start_session acts)) i = Some (m, d)).
  { clear O D V. induction acts as [|a acts IH] using rev_ind; [destruct Hi|]. rewrite added_app in Hi. apply in_app_or in Hi. destruct Hi as [Hi|Hi].
    - destruct (IH Hi) as (m & d & G). destruct (model_later acts a i m) as (m' & G' & _); [unfold model_of; now rewrite G|].
      unfold model_of in G'. destruct (get_model (fst (run_acts start_session (acts ++ [a]))) i) as [[m1 d1]|]; [eauto|discriminate].
    - cbn [added_from] in Hi. rewrite app_nil_r in Hi. destruct a; try destruct Hi.
      destruct (get_model (fst (run_acts start_session acts)) i0) as [[m d]|] eqn:G; [|destruct Hi]. destruct Hi as [->|[]].
      destruct (model_later acts (AAdd i) i m) as (m' & G' & _); [unfold model_of; now rewrite G|].
      unfold model_of in G'. destruct (get_model (fst (run_acts start_session (acts ++ [AAdd i]))) i) as [[m1 d1]|]; [eauto|discriminate]. }
  destruct L as (m & d & G). assert (Lt : (i < List.length (views acts))%nat) by (rewrite (vd_len _ _ V); apply nth_error_Some; unfold get_model in G; congruence).
  apply nth_error_Some in Lt. destruct (nth_error (views acts) i) as [v|]; [eauto|congruence].
Qed.

(** Every equation of the block was written or is a connection. *)
Lemma block_view_only acts s b e : resolved acts s b -> all_ok start_session acts -> distinct_models acts -> readable_program acts ->
  forallb by_declaration acts = true -> joins_unknowns acts -> In e (b_eqs b) ->
  (exists v x, written_in acts v x /\ eq_name e = full_name (wr_name x) (vw_name v) /\ says x e) \/
  (exists j os is, In j (added acts) /\ connected acts j os is /\ balances os is e).
Proof.
  intros R O D L P J He. destruct (block_equations _ _ _ R) as (_ & E & _). rewrite E in He. unfold equations_of in He. apply in_flat_map in He.
  destruct He as (i & Hi & He). unfold model_of in He. destruct (get_model (fst s) i) as [[m d]|] eqn:G; [|destruct He]. cbn [option_map fst] in He.
  apply in_map_iff in He. destruct He as ([k e'] & <- & Hin). cbn [snd].
  assert (So := resolved_sourced _ _ _ R P J). assert (Ad := added_member _ _ _ _ R D Hi).
  destruct (so_from _ _ So i m d k e' G Hin) as [(n & Hn & Ek)|(os & is & _ & _ & _ & Cn & B)].
  - left. destruct (viewed_model _ _ O D Ad) as [v Hv].
    destruct (resolved_view _ _ _ _ _ R O D Ad Hv (L i v Ad Hv)) as (m0 & m1 & d1 & _ & G1 & Nv & Dv & Nm & St & _).
    assert (X : Some (m, d) = Some (m1, d1)) by congruence. injection X as <- <-.
    assert (Hx : In n (map wr_name (view_writes v))) by (unfold view_writes; rewrite Dv, written_eq_names; exact Hn).
    apply in_map_iff in Hx. destruct Hx as (x & <- & Hx). exists v, x. destruct (St x Hx) as (e & Ee & Ne & Se).
    destruct (g_ok _ (resolved_good _ _ _ R)) as [W _]. destruct (W i m d G) as (_ & _ & _ & Nd & _).
    assert (e = e').
    { assert (Y := in_dget_nodup _ _ _ Nd Hin). fold (full_name (wr_name x) (vw_name v)) in Ee. rewrite Ek, Nm, <- Nv in Y. congruence. }
    subst e. split; [exists i; auto|]. auto.
  - right. exists i, os, is. split; [exact Ad|]. split; [now apply connected_resolved|exact B].
Qed.

(** A connection that was made is in the block. *)
Lemma block_view_connection acts s b j os is : resolved acts s b -> distinct_models acts ->
  forallb by_declaration acts = true -> joins_unknowns acts -> In j (added acts) -> connected acts j os is ->
  exists e, In e (b_eqs b) /\ balances os is e.
Proof.
  intros R D P J Hj (a1 & i & outs & ins & a2 & s1 & Ea & Ed & -> & ->). set (h := pw_heap (fst (run_acts start_session a1))) in *.
  set (c := mkConn i j outs ins None).
  assert (G0 : good (run_acts start_session a1)) by apply run_good, start_good.
  destruct (connect_accepted _ c _ G0 Ed) as (m1 & d1 & m2 & d2 & e & _ & G2 & _ & V & Hh & _ & _ & Gt & _). cbn [c_to c_outs c_ins joined fst snd c] in Gt, V.
  fold h in Gt, V. set (k := conn_name (var_names h (cv_list outs)) (var_names h (cv_list ins))) in *.
  assert (Gs : good s1) by (replace s1 with (fst (do_act (run_acts start_session a1) (AConn (CMModel i) j outs ins None))) by (now rewrite Ed); now apply do_act_good).
  assert (E1 : run_acts start_session acts = run_acts s1 a2) by (rewrite Ea, run_acts_app; cbn [run_acts]; now rewrite Ed).
  assert (Wr := proj1 R). rewrite E1 in Wr.
  assert (E2 : s = run_acts s1 (a2 ++ [AResolve])) by (rewrite run_acts_app; cbn [run_acts]; now rewrite Wr).
  destruct (as_models _ _ (run_step (a2 ++ [AResolve]) s1 Gs) j _ d2 Gt) as (m' & G' & _ & Kx). rewrite <- E2 in G'.
  destruct Kx as (_ & _ & _ & Kx).
  assert (Hk : In k (dkeys (m_eqs m'))) by (apply Kx; cbn [m_eqs with_eqs]; apply in_dkeys_dset; now left).
  apply in_keys_dget in Hk. destruct Hk as (e' & Ee).
  exists e'. split; [exact (member_equations _ _ _ _ _ _ R (member_added _ _ _ _ R D Hj) G' _ _ Ee)|].
  assert (So := resolved_sourced _ _ _ R P J).
  destruct (so_from _ _ So j m' d2 k e' G' (dget_some_in _ _ _ Ee)) as [(n & Hn & Ek)|(os & is & S1 & S2 & Ek & _ & B)].
  { exfalso. destruct (so_clean _ _ So j m' d2 G') as [C1 C2].
    assert (Cn : clean n = true).
    { unfold eq_names in Hn. apply in_flat_map in Hn. destruct Hn as (x & Hx & Hn). rewrite forallb_forall in C2. specialize (C2 x Hx).
      destruct x; try destruct Hn. subst. cbn in C2. apply andb_prop in C2. tauto. destruct H. }
    assert (X := clean_full _ _ Cn C1). rewrite <- Ek in X. apply clean_spec in X. assert (Y := conn_name_arrow (var_names h (cv_list outs)) (var_names h (cv_list ins))).
    fold k in Y. rewrite Y in X. destruct X. discriminate. }
  assert (A1 : sourced a1 (fst (run_acts start_session a1))).
  { rewrite Ea in P, J. rewrite forallb_app in P. apply andb_prop in P. apply run_sourced; [tauto|].
    intros b1 m j' outs' ins' b2 l q Eb. apply (J b1 m j' outs' ins' (b2 ++ AConn (CMModel i) j outs ins None :: a2)). rewrite Eb, <- app_assoc. reflexivity. }
  assert (Vn : forall ls, (forall l, In l ls -> is_variable h l = true) -> Forall simple_name (var_names h ls)).
  { intros ls Hl. apply variables_named; [exact (so_names _ _ A1)|]. now apply forallb_forall. }
  assert (Q := conn_name_inj _ _ _ _ (Vn _ (fun l H => V l (in_or_app _ _ _ (or_introl H)))) (Vn _ (fun l H => V l (in_or_app _ _ _ (or_intror H)))) S1 S2 Ek).
  injection Q as -> ->. exact B.
Qed.

Lemma asks_says x e en : says x e ->
  ((if eq_elementary e then exists a b, eq_elem e = Some (a, b) /\ den (nd_sym b) en = Some 0%R
    else exists n, eq_expr e = Some n /\ den (nd_sym n) en = Some 0%R) <-> asks x en).
Proof.
  intros [(n & En & Dn) Sd]. unfold asks. destruct (wr_sides x) as [[f g]|].
  - destruct Sd as (El & a & c & Ee & _ & Dc). rewrite El. split.
    + intros (a' & c' & E' & Z). rewrite Ee in E'. injection E' as <- <-. now rewrite <- Dc.
    + intros Z. exists a, c. split; [exact Ee|]. now rewrite Dc.
  - rewrite Sd. split.
    + intros (n' & En' & Z). assert (n' = n) by congruence. subst n'. now rewrite <- Dn.
    + intros Z. exists n. split; [exact En|]. now rewrite Dn.
Qed.

Lemma system_viewed acts s b en : resolved acts s b -> all_ok start_session acts -> distinct_models acts -> readable_program acts ->
  forallb by_declaration acts = true -> joins_unknowns acts ->
  (solved en b <->
   (forall x, program_writes acts x -> asks x en) /\
   (forall j os is, In j (added acts) -> connected acts j os is -> sum_named en is = sum_named en os)).
Proof.
  intros R O D L P J. rewrite (system_exact _ _ _ en R). split.
  - intros H. split.
    + intros x (v & Hx). destruct (block_view _ _ _ _ _ R O D L Hx) as (e & He & _ & Se). exact (proj1 (asks_says _ _ en Se) (H e He)).
    + intros j os is Hj Cn. destruct (block_view_connection _ _ _ _ _ _ R D P J Hj Cn) as (e & He & El & n & En & Dn).
      specialize (H e He). rewrite El in H. destruct H as (n' & En' & Z). assert (n' = n) by congruence. subst n'.
      rewrite Dn in Z. injection Z as Z. lra.
  - intros [H1 H2] e He. destruct (block_view_only _ _ _ _ R O D L P J He) as [(v & x & Hx & _ & Se)|(j & os & is & Hj & Cn & El & n & En & Dn)].
    + apply (proj2 (asks_says _ _ en Se)). apply H1. exists v. exact Hx.
    + rewrite El. exists n. split; [exact En|]. rewrite Dn, (H2 j os is Hj Cn). f_equal. lra.
Qed.

Lemma answer_viewed acts s b eng out x : resolved acts s b -> all_ok start_session acts -> distinct_models acts -> readable_program acts ->
  honest eng -> answer eng b out -> program_writes acts x -> asks x (bind_env out).
Proof.
  intros R O D L Hh A (v & Hx). destruct (block_view _ _ _ _ _ R O D L Hx) as (e & He & _ & Se).
  assert (S := answer_solves _ _ _ _ _ R Hh A). rewrite (system_exact _ _ _ _ R) in S. exact (proj1 (asks_says _ _ _ Se) (S e He)).
Qed.

(** ** Differential equations *)
Lemma rates_viewed acts s b t pn init tn compile ds ode Y tau en : resolved acts s b -> all_ok start_session acts -> distinct_models acts ->
  readable_program acts -> forallb by_declaration acts = true -> joins_unknowns acts ->
  prints_numbers pn -> one_word t = true -> str_contains "_" t = true -> pr_time (snd s) = Some [t] ->
  Forall2 (explicit t) (b_diff b) ode -> closed_system t ode -> b_eqs b = b_diff b -> ode_unknowns t ode (b_varlist b) -> ode <> [] ->
  dsolver_init b init tn compile = Ok ds -> state_of t ode Y tau en ->
  exists vs, ode_interface pn (snd s) b ds Y tau = (b, Ok vs) /\
    (forall j x r, nth_error ode j = Some (x, r) -> exists w g, program_writes acts w /\ rate w x t g /\ nth_error vs j = Some (g en)) /\
    (forall w x g, program_writes acts w -> rate w x t g -> exists j r, nth_error ode j = Some (x, r) /\ nth_error vs j = Some (g en)).
Proof.
  intros R O D L P J Pn W U T F C Eb Un Ne I St. exists (map (fun xr => den (snd xr) en) ode).
  split; [apply (OdeFacts.ode_rhs t pn (snd s) b init tn compile ds ode Y tau en); auto|].
  assert (Df : forall e, In e (b_diff b) -> In e (b_eqs b)) by (intros e He; now rewrite Eb). split.
  - intros j x r Hj. assert (X : exists e, In e (b_diff b) /\ explicit t e (x, r)).
    { apply nth_error_In in Hj. clear -F Hj. induction F as [|e y es ys H F IH]; [destruct Hj|]. destruct Hj as [->|Hj].
      - exists e. split; [now left|exact H].
      - destruct (IH Hj) as (e' & A & B). exists e'. split; [now right|exact B]. }
    destruct X as (e & He & (a & c & n & El & Ee & Ea & _ & Ec & _)). cbn [fst snd] in *.
    destruct (block_view_only _ _ _ _ R O D L P J (Df e He)) as [(v & w & Hw & _ & _ & Sd)|(j' & os & is & _ & _ & El' & _)]; [|congruence].
    destruct (wr_sides w) as [[f g]|] eqn:Es; [|congruence]. destruct Sd as (_ & a' & c' & Ee' & Dfn & Dg).
    rewrite Ee in Ee'. injection Ee' as <- <-. exists w, g. split; [exists v; exact Hw|]. split.
    + exists f. split; [exact Es|]. intros en'. rewrite <- Dfn, Ea. reflexivity.
    + rewrite (map_nth_error (fun xr => den (snd xr) en) j ode Hj). cbn [snd]. rewrite <- Dg, Ec. reflexivity.
  - intros w x g (v & Hw) (f & Es & Hf).
    destruct (block_view _ _ _ _ _ R O D L Hw) as (e & He & _ & _ & Sd).
    rewrite Es in Sd. destruct Sd as (El & a & c & Ee & Da & Dc). rewrite Eb in He.
    assert (X : exists j xr, nth_error ode j = Some xr /\ explicit t e xr).
    { clear -F He. induction F as [|e' y es ys H F IH]; [destruct He|]. destruct He as [->|He].
      - exists 0%nat, y. split; [reflexivity|exact H].
      - destruct (IH He) as (j & xr & A & B). exists (S j), xr. split; [exact A|exact B]. }
    destruct X as (j & [x' r] & Hj & (a' & c' & n & _ & Ee' & Ea & _ & Ec & _)). rewrite Ee in Ee'. injection Ee' as <- <-. cbn [fst snd] in *.
    assert (x' = x).
    { pose proof (Hf (only_der x')) as H1. rewrite <- Da, Ea in H1. cbn in H1. injection H1 as H1. rewrite String.eqb_refl in H1.
      destruct (String.eqb_spec x' x) as [->|]; [reflexivity|]. exfalso. lra. }
    subst x'. exists j, r. split; [exact Hj|]. rewrite (map_nth_error (fun xr => den (snd xr) en) j ode Hj). cbn [snd]. now rewrite <- Dc, Ec.
Qed.

Lemma residuals_viewed acts s b pn dae y yd en : resolved acts s b -> all_ok start_session acts -> distinct_models acts ->
  readable_program acts -> forallb by_declaration acts = true -> joins_unknowns acts ->
  Forall2 (residual_ode pn) (b_diff b) dae -> dae <> [] -> closed_dae b dae -> by_equation (b_varlist b) dae y yd en ->
  exists vs, dae_function pn b y yd = Ok vs /\ Forall2 (program_value acts en) (b_eqs b) vs.
Proof.
  intros R O D L P J F Ne C B. destruct (DaeFacts.dae_exact pn b dae y yd en F Ne C B) as (vs & Ev & Rv). exists vs. split; [exact Ev|].
  unfold residual_values in Rv. assert (Al : incl (b_eqs b) (b_eqs b)) by apply incl_refl. revert Al.
  assert (G : forall es vs, Forall2 (fun e v => exists n, eq_expr e = Some n /\ v = den (nd_sym n) en) es vs -> incl es (b_eqs b) ->
    Forall2 (program_value acts en) es vs).
  { clear -R O D P L J. induction 1 as [|e v es vs (n & En & ->) F IH]; intros Al; constructor; [|apply IH; intros x Hx; apply Al; now right].
    destruct (block_view_only _ _ _ _ R O D L P J (Al e (or_introl eq_refl))) as [(v & w & Hw & _ & Sw)|(j & os & is & Hj & Cn & _ & n' & En' & Dn)].
    - left. exists w. split; [exists v; exact Hw|]. split; [exact Sw|]. destruct Sw as [(n' & En' & Dn) _]. assert (n' = n) by congruence. subst n'. apply Dn.
    - right. exists j, os, is. split; [exact Hj|]. split; [exact Cn|]. assert (n' = n) by congruence. subst n'. apply Dn. }
  exact (G _ _ Rv).
Qed.
