(** Models do not share objects. *)
From Verif Require Import Base BaseFacts Num NumFacts UnitModel UnitFacts Sympy Node Build EquationModel ModelModel ProblemModel
  SpecUnits SpecExpr SpecModel SpecInc SpecCall SpecProblem SpecOwn QtyFacts ModelFacts IncFacts CallFacts ProblemFacts SessionFacts.

Record ot (h : heap) (m : mstate) (h' : heap) (m' : mstate) : Prop := mkOt {
  ot_len : (List.length h <= List.length h')%nat;
  ot_frame : forall l, (l < List.length h)%nat -> ~ holds_object m l -> hget h' l = hget h l;
  ot_own : forall l, holds_object m' l -> holds_object m l \/ (List.length h <= l < List.length h')%nat }.

Lemma ot_refl h m : ot h m h m.
Proof. constructor; auto. Qed.
Lemma ot_trans h m h1 m1 h2 m2 : ot h m h1 m1 -> ot h1 m1 h2 m2 -> ot h m h2 m2.
Proof.
  intros [A1 A2 A3] [B1 B2 B3]. constructor; [lia| |].
  - intros l L N. rewrite B2; [now apply A2|lia|]. intros H. destruct (A3 l H); [contradiction|lia].
  - intros l H. destruct (B3 l H) as [H1|H1]; [|right; lia]. destruct (A3 l H1); [now left|right; lia].
Qed.

Lemma snoc_frame (h : heap) q l : (l < List.length h)%nat -> hget (h ++ [q]) l = hget h l.
Proof. intros L. unfold hget. now rewrite nth_error_app1. Qed.

Definition attr_of (m : mstate) a l := dget a (m_attrs m) = Some (AQty l).
Lemma attr_holds m a l : attr_qty m a = Ok l -> holds_object m l.
Proof.
  unfold attr_qty. destruct (dget a (m_attrs m)) as [[l'|]|] eqn:E; try discriminate. intros H. injection H as ->.
  do 5 right. exists a. exact (dget_some_in _ _ _ E).
Qed.

(** One dictionary or attribute gains one location. *)
Lemma own_vars m k l l' : holds_object (with_vars m (dset k l (m_vars m))) l' -> l' = l \/ holds_object m l'.
Proof.
  unfold holds_object. simpl. intros [(k' & H)|H]; [|now right; right]. apply in_dset in H. destruct H as [[_ ->]|H]; [now left|]. right. left. eauto.
Qed.
Lemma own_pars m k l l' : holds_object (with_pars m (dset k l (m_pars m))) l' -> l' = l \/ holds_object m l'.
Proof.
  unfold holds_object. simpl. intros [H|[(k' & H)|H]]; [right; now left| |right; now (right; right)].
  apply in_dset in H. destruct H as [[_ ->]|H]; [now left|]. right. right. left. eauto.
Qed.
Lemma own_cons m k l l' : holds_object (with_cons m (dset k l (m_cons m))) l' -> l' = l \/ holds_object m l'.
Proof.
  unfold holds_object. simpl. intros [H|[H|[(k' & H)|H]]]; [right; now left|right; right; now left| |right; now (right; right; right)].
  apply in_dset in H. destruct H as [[_ ->]|H]; [now left|]. right. right. right. left. eauto.
Qed.
Lemma own_in m l l' : holds_object (with_in m (m_in m ++ [l])) l' -> l' = l \/ holds_object m l'.
Proof. unfold holds_object. simpl. rewrite in_app_iff. simpl. intuition. Qed.
Lemma own_out m l l' : holds_object (with_out m (m_out m ++ [l])) l' -> l' = l \/ holds_object m l'.
Proof. unfold holds_object. simpl. rewrite in_app_iff. simpl. intuition. Qed.
Lemma own_attr m a l l' : holds_object (set_attr m a (AQty l)) l' -> l' = l \/ holds_object m l'.
Proof.
  unfold holds_object, set_attr. simpl. intros [H|[H|[H|[H|[H|(a' & H)]]]]]; try (right; tauto).
  apply in_dset in H. destruct H as [[_ H]|H]; [injection H as ->; now left|]. right. do 5 right. eauto.
Qed.
Lemma own_attr_eqn m a e l' : holds_object (set_attr m a (AEqn e)) l' -> holds_object m l'.
Proof.
  unfold holds_object, set_attr. simpl. intros [H|[H|[H|[H|[H|(a' & H)]]]]]; try tauto.
  apply in_dset in H. destruct H as [[_ H]|H]; [discriminate|]. do 5 right. eauto.
Qed.
Lemma own_eqs m d l' : holds_object (with_eqs m d) l' <-> holds_object m l'.
Proof. reflexivity. Qed.

(** A new quantity. *)
Lemma ot_snoc h m q m' : (forall l, holds_object m' l -> l = List.length h \/ holds_object m l) -> ot h m (h ++ [q]) m'.
Proof.
  intros H. constructor; rewrite ?app_length; simpl; [lia| |].
  - intros l L _. now apply snoc_frame.
  - intros l Hl. destruct (H l Hl) as [->|]; [right; lia|now left].
Qed.
Lemma ot_hset h m l q : holds_object m l -> ot h m (hset h l q) m.
Proof.
  intros H. constructor; rewrite ?length_hset; [lia| |auto].
  intros l' _ N. apply hget_hset_neq. intros ->. contradiction.
Qed.
Lemma ot_same h m m' : (forall l, holds_object m' l -> holds_object m l) -> ot h m h m'.
Proof. intros H. constructor; auto. Qed.

Lemma cmd_ot w c w' r : run_cmd w c = (w', r) -> ot (w_heap w) (w_mod w) (w_heap w') (w_mod w').
Proof.
  destruct w as [h u m]. destruct c as [a n un ex ty v|a n un v|a n un v|a v un|a|a n q check]; cbn [run_cmd w_heap w_mod w_uids]; intros H.
  - unfold create_variable in H.
    set (q := mkQty _ _ _ _ _ _ _ _ _) in H. set (m1 := with_vars _ _) in H.
    assert (V : forall l, holds_object m1 l -> l = List.length h \/ holds_object m l) by (intros l; apply own_vars).
    destruct ex; [|injection H as <- _; apply ot_snoc; cbn [w_mod]; intros l Hl; apply own_attr in Hl; destruct Hl as [->|Hl]; auto].
    destruct (String.eqb ty "input").
    + injection H as <- _. apply ot_snoc. cbn [w_mod]. intros l Hl. apply own_attr in Hl. destruct Hl as [->|Hl]; auto.
      change (holds_object (with_in m1 (m_in m1 ++ [List.length h])) l) in Hl. apply own_in in Hl. destruct Hl as [->|Hl]; auto.
    + destruct (String.eqb ty "output").
      * injection H as <- _. apply ot_snoc. cbn [w_mod]. intros l Hl. apply own_attr in Hl. destruct Hl as [->|Hl]; auto.
        change (holds_object (with_out m1 (m_out m1 ++ [List.length h])) l) in Hl. apply own_out in Hl. destruct Hl as [->|Hl]; auto.
      * injection H as <- _. apply ot_snoc. exact V.
  - injection H as <- _. apply ot_snoc. cbn [w_mod]. intros l Hl. apply own_attr in Hl. destruct Hl as [->|Hl]; [auto|exact (own_pars _ _ _ _ Hl)].
  - injection H as <- _. apply ot_snoc. cbn [w_mod]. intros l Hl. apply own_attr in Hl. destruct Hl as [->|Hl]; [auto|exact (own_cons _ _ _ _ Hl)].
  - destruct (attr_qty m a) as [l|] eqn:A; [|injection H as <- _; apply ot_refl].
    destruct (match v with SANum _ => _ | SAAttr _ => _ end) as [sv|]; [|injection H as <- _; apply ot_refl].
    unfold heap_set_value in H. destruct (hget h l) as [q|]; [|injection H as <- _; apply ot_refl].
    destruct (set_value q sv un); injection H as <- _; [|apply ot_refl]. apply ot_hset. exact (attr_holds _ _ _ A).
  - destruct (attr_qty m a) as [l|] eqn:A; [|injection H as <- _; apply ot_refl]. destruct (hget h l) as [q|]; [|injection H as <- _; apply ot_refl].
    destruct (qkind_eqb _ _); injection H as <- _; [|apply ot_refl]. apply ot_hset. exact (attr_holds _ _ _ A).
  - destruct (rbind (resolve_eq (attr_qty m) q) _) as [arg|]; [|injection H as <- _; apply ot_refl].
    destruct (create_outcome (mkW h u m) n arg check) as [u' E].
    assert (C : forall wx rx, create_equation (mkW h u m) n (Some arg) check = (wx, rx) ->
      w_heap wx = h /\ forall l, holds_object (w_mod wx) l -> holds_object m l).
    { intros wx rx. rewrite E. destruct (set_residual _ arg) as [e [[]|]]; [|intros X; injection X as <- _; auto].
      destruct (eq_expr e); [|intros X; injection X as <- _; auto]. cbv zeta.
      destruct check; [destruct (forallb _ _)|]; intros X; injection X as <- _; auto. }
    destruct (create_equation (mkW h u m) n (Some arg) check) as [wx rx]. destruct (C wx rx eq_refl) as [C1 C2].
    destruct rx; injection H as <- _; cbn [w_heap w_mod]; rewrite C1; apply ot_same; [|exact C2].
    intros l Hl. apply own_attr_eqn in Hl. exact (C2 l Hl).
Qed.
Lemma cmds_ot cs : forall w w' r, run_cmds w cs = (w', r) -> ot (w_heap w) (w_mod w) (w_heap w') (w_mod w').
Proof.
  induction cs as [|c cs IH]; intros w w' r H; cbn [run_cmds] in H; [injection H as <- _; apply ot_refl|].
  destruct (run_cmd w c) as [w1 [[]|x]] eqn:E.
  - exact (ot_trans _ _ _ _ _ _ (cmd_ot _ _ _ _ E) (IH _ _ _ H)).
  - injection H as <- _. exact (cmd_ot _ _ _ _ E).
Qed.

Lemma add_all_ot add : (forall h m l rw h' m' r, add h m l rw = (h', m', r) -> ot h m h' m') ->
  forall ls h m rw h' m' r, add_all add h m ls rw = (h', m', r) -> ot h m h' m'.
Proof.
  intros A. induction ls as [|l ls IH]; intros h m rw h' m' r H; cbn [add_all] in H; [injection H as <- <- _; apply ot_refl|].
  destruct (add h m l rw) as [[h1 m1] [[]|x]] eqn:E.
  - exact (ot_trans _ _ _ _ _ _ (A _ _ _ _ _ _ _ E) (IH _ _ _ _ _ _ H)).
  - injection H as <- <- _. exact (A _ _ _ _ _ _ _ E).
Qed.
Lemma add_variable_ot h m l rw h' m' r : add_variable h m l rw = (h', m', r) -> ot h m h' m'.
Proof.
  unfold add_variable. destruct (hget h l) as [q|]; [|intros H; injection H as <- <- _; apply ot_refl].
  destruct (q_exposed q); intros H; injection H as <- <- _; apply ot_snoc; intros l' Hl; [exact (own_vars _ _ _ _ Hl)|].
  apply own_attr in Hl. destruct Hl as [->|Hl]; [auto|exact (own_vars _ _ _ _ Hl)].
Qed.
Lemma add_parameter_ot h m l rw h' m' r : add_parameter h m l rw = (h', m', r) -> ot h m h' m'.
Proof.
  unfold add_parameter. destruct (hget h l) as [q|]; [|intros H; injection H as <- <- _; apply ot_refl].
  intros H; injection H as <- <- _; apply ot_snoc; intros l' Hl.
  apply own_attr in Hl. destruct Hl as [->|Hl]; [auto|exact (own_pars _ _ _ _ Hl)].
Qed.
Lemma add_constant_ot h m l rw h' m' r : add_constant h m l rw = (h', m', r) -> ot h m h' m'.
Proof.
  unfold add_constant. destruct (hget h l) as [q|]; [|intros H; injection H as <- <- _; apply ot_refl].
  intros H; injection H as <- <- _; apply ot_snoc; intros l' Hl.
  apply own_attr in Hl. destruct Hl as [->|Hl]; [auto|exact (own_cons _ _ _ _ Hl)].
Qed.
Lemma add_equations_own es : forall m names objs rw m' r, add_equations m es names objs rw = (m', r) ->
  forall l, holds_object m' l -> holds_object m l.
Proof.
  induction es as [|e es IH]; intros m names objs rw m' r H l Hl; cbn [add_equations] in H; [now injection H as <- _|].
  assert (A : forall m1 r1, add_equation m e names objs rw = (m1, r1) -> forall l, holds_object m1 l -> holds_object m l).
  { intros m1 r1. unfold add_equation. destruct (convert_symbolic _ _ _); intros X; injection X as <- _; [|auto].
    intros l0 H0. apply own_attr_eqn in H0. exact H0. }
  destruct (add_equation m e names objs rw) as [m1 [[]|x]].
  - exact (A _ _ eq_refl l (IH _ _ _ _ _ _ H l Hl)).
  - injection H as <- _. exact (A _ _ eq_refl l Hl).
Qed.
Lemma incorporate_ot h m donor f h' m' r : incorporate h m donor f = (h', m', r) -> ot h m h' m'.
Proof.
  unfold incorporate.
  assert (S1 : forall h1 m1 r1, (if i_vars f then add_all add_variable h m (dvals (m_vars donor)) (i_rewrite f) else (h, m, Ok tt)) = (h1, m1, r1) -> ot h m h1 m1).
  { intros h1 m1 r1. destruct (i_vars f); [apply add_all_ot, add_variable_ot|intros X; injection X as <- <- _; apply ot_refl]. }
  destruct (if i_vars f then _ else _) as [[h1 m1] [[]|x]]; [|intros X; injection X as <- <- _; exact (S1 _ _ _ eq_refl)].
  specialize (S1 _ _ _ eq_refl).
  assert (S2 : forall h2 m2 r2, (if i_pars f then add_all add_parameter h1 m1 (dvals (m_pars donor)) (i_rewrite f) else (h1, m1, Ok tt)) = (h2, m2, r2) -> ot h1 m1 h2 m2).
  { intros h2 m2 r2. destruct (i_pars f); [apply add_all_ot, add_parameter_ot|intros X; injection X as <- <- _; apply ot_refl]. }
  destruct (if i_pars f then _ else _) as [[h2 m2] [[]|x]];
    [|intros X; injection X as <- <- _; exact (ot_trans _ _ _ _ _ _ S1 (S2 _ _ _ eq_refl))].
  specialize (S2 _ _ _ eq_refl).
  assert (S3 : forall h3 m3 r3, (if i_cons f then add_all add_constant h2 m2 (dvals (m_cons donor)) (i_rewrite f) else (h2, m2, Ok tt)) = (h3, m3, r3) -> ot h2 m2 h3 m3).
  { intros h3 m3 r3. destruct (i_cons f); [apply add_all_ot, add_constant_ot|intros X; injection X as <- <- _; apply ot_refl]. }
  destruct (if i_cons f then _ else _) as [[h3 m3] [[]|x]];
    [|intros X; injection X as <- <- _; exact (ot_trans _ _ _ _ _ _ S1 (ot_trans _ _ _ _ _ _ S2 (S3 _ _ _ eq_refl)))].
  specialize (S3 _ _ _ eq_refl). assert (S := ot_trans _ _ _ _ _ _ S1 (ot_trans _ _ _ _ _ _ S2 S3)).
  destruct (i_eqs f); [|intros X; injection X as <- <- _; exact S].
  destruct (add_equations _ _ _ _ _) as [m4 r4] eqn:E. intros X. injection X as <- <- _.
  exact (ot_trans _ _ _ _ _ _ S (ot_same _ _ _ (add_equations_own _ _ _ _ _ _ _ E))).
Qed.
Lemma connection_ot w outs ins a w' r : model_connection w outs ins a = (w', r) -> ot (w_heap w) (w_mod w) (w_heap w') (w_mod w').
Proof.
  unfold model_connection. destruct (_ && _); [|intros H; injection H as <- _; apply ot_refl].
  destruct (rbind _ _); [|intros H; injection H as <- _; apply ot_refl].
  destruct (connection_init _ _ _) as [u []]; intros H; injection H as <- _; apply ot_same; auto.
Qed.
Lemma equation_ot w n a check w' r : create_equation w n a check = (w', r) -> ot (w_heap w) (w_mod w) (w_heap w') (w_mod w').
Proof.
  unfold create_equation. destruct (equation_init _ _ _ _ _) as [u' [e0|]]; [|intros H; injection H as <- _; apply ot_refl].
  destruct (sweep_objects _) as [e2 [[]|]]; [|intros H; injection H as <- _; apply ot_refl].
  destruct check; [destruct (check_equation _ _)|]; intros H; injection H as <- _; apply ot_same; auto.
Qed.

(** Sessions. *)
Record apart (w : pworld) : Prop := mkApart {
  ap_in : forall i m d l, get_model w i = Some (m, d) -> holds_object m l -> (l < List.length (pw_heap w))%nat;
  ap_one : forall i j mi di mj dj l, get_model w i = Some (mi, di) -> get_model w j = Some (mj, dj) ->
    holds_object mi l -> holds_object mj l -> i = j }.

(** From [w] to [w'] only the models of [P] change. *)
Record only (P : nat -> Prop) (w w' : pworld) : Prop := mkOnly {
  on_apart : apart w';
  on_len : (List.length (pw_heap w) <= List.length (pw_heap w'))%nat;
  on_kept : forall j m d, get_model w j = Some (m, d) -> ~ P j ->
    get_model w' j = Some (m, d) /\ forall l, holds_object m l -> hget (pw_heap w') l = hget (pw_heap w) l }.

Lemma only_refl P w : apart w -> only P w w.
Proof. intros A. constructor; auto. Qed.
Lemma only_trans P w w1 w2 : only P w w1 -> only P w1 w2 -> only P w w2.
Proof.
  intros [A1 A2 A3] [B1 B2 B3]. constructor; [exact B1|lia|]. intros j m d G N.
  destruct (A3 j m d G N) as [G1 H1]. destruct (B3 j m d G1 N) as [G2 H2]. split; [exact G2|]. intros l Hl. now rewrite H2, H1.
Qed.
Lemma only_mono (P Q : nat -> Prop) w w' : (forall j, P j -> Q j) -> only P w w' -> only Q w w'.
Proof. intros S [A1 A2 A3]. constructor; auto. Qed.

Lemma on_model_only {A} w i (f : decls -> mworld -> mworld * res A) w2 r : apart w ->
  (forall m d w' r, get_model w i = Some (m, d) -> f d (mkW (pw_heap w) (pw_uids w) m) = (w', r) -> ot (pw_heap w) m (w_heap w') (w_mod w')) ->
  on_model w i f = (w2, r) -> only (fun j => i = j) w w2.
Proof.
  intros O HF H. apply on_model_spec in H. destruct H as [(_ & -> & _)|(m & d & w' & G & F & Hh & G2 & Go & L)]; [now apply only_refl|].
  destruct (HF m d w' r G F) as [T1 T2 T3]. constructor; [constructor| |].
  - intros j mj dj l Gj Hl. rewrite Hh. destruct (Nat.eq_dec j i) as [->|Hne].
    + assert (X : Some (mj, dj) = Some (w_mod w', d)) by congruence. injection X as -> ->.
      destruct (T3 l Hl) as [H1|H1]; [|lia]. pose proof (ap_in _ O i m d l G H1). lia.
    + rewrite Go in Gj by exact Hne. pose proof (ap_in _ O j mj dj l Gj Hl). lia.
  - assert (X : forall j mj dj l, j <> i -> get_model w2 j = Some (mj, dj) -> holds_object mj l -> ~ holds_object (w_mod w') l).
    { intros j mj dj l Hne Gj Hl H1. rewrite Go in Gj by exact Hne. destruct (T3 l H1) as [H2|H2].
      - exact (Hne (ap_one _ O j i _ _ _ _ l Gj G Hl H2)).
      - pose proof (ap_in _ O j mj dj l Gj Hl). lia. }
    intros j k mj dj mk dk l Gj Gk Hj Hk. destruct (Nat.eq_dec j i) as [->|Nj], (Nat.eq_dec k i) as [->|Nk]; [reflexivity| | |].
    + assert (Y : Some (mj, dj) = Some (w_mod w', d)) by congruence. injection Y as -> ->. destruct (X k mk dk l Nk Gk Hk Hj).
    + assert (Y : Some (mk, dk) = Some (w_mod w', d)) by congruence. injection Y as -> ->. destruct (X j mj dj l Nj Gj Hj Hk).
    + rewrite Go in Gj by exact Nj. rewrite Go in Gk by exact Nk. exact (ap_one _ O j k _ _ _ _ l Gj Gk Hj Hk).
  - rewrite Hh. exact T1.
  - intros j mj dj Gj Nj. rewrite Go by congruence. split; [exact Gj|]. intros l Hl. rewrite Hh. apply T2; [exact (ap_in _ O j mj dj l Gj Hl)|].
    intros Hm. exact (Nj (ap_one _ O i j _ _ _ _ l G Gj Hm Hl)).
Qed.
Lemma reload_only is : forall w w' r, apart w -> reload w is = (w', r) -> only (fun j => In j is) w w'.
Proof.
  induction is as [|i is IH]; intros w w' r O H; cbn [reload] in H; [injection H as <- _; now apply only_refl|].
  destruct (on_model w i model_call) as [w1 r1] eqn:E.
  assert (C : only (fun j => i = j) w w1).
  { apply (on_model_only w i model_call w1 r1 O); [|exact E]. intros m d w2 r2 _ F. exact (cmds_ot _ _ _ _ F). }
  assert (C' : only (fun j => In j (i :: is)) w w1) by (apply (only_mono (fun j => i = j)); [intros j; now left|exact C]).
  destruct r1 as [[]|x]; [|injection H as <- _; exact C'].
  apply (only_trans _ w w1 w' C'). apply (only_mono (fun j => In j is)); [intros j; now right|]. exact (IH w1 w' r (on_apart _ _ _ C) H).
Qed.

Lemma do_act_only s a s' r : apart (fst s) -> do_act s a = (s', r) -> only (about s a) (fst s) (fst s').
Proof.
  intros O H. destruct s as [w p]. destruct a as [n dd|k c|k|k j f|k|m1 m2 outs ins e|m1 m2 out inp|names|c|];
    cbn [do_act about fst snd] in *.
  - injection H as <- _. cbn [fst].
    assert (X : forall i m d, nth_error (pw_models w ++ [(new_model n, dd)]) i = Some (m, d) ->
                get_model w i = Some (m, d) \/ m = new_model n).
    { intros i m d H. unfold get_model. destruct (Nat.lt_ge_cases i (List.length (pw_models w))) as [L|L].
      - left. now rewrite nth_error_app1 in H by exact L.
      - right. rewrite nth_error_app2 in H by exact L. destruct (i - _)%nat as [|z]; [|destruct z; discriminate]. now injection H as <- <-. }
    assert (N : forall l, ~ holds_object (new_model n) l).
    { intros l [(? & [])|[(? & [])|[(? & [])|[[]|[[]|(? & [])]]]]]. }
    constructor; [constructor| |].
    + intros i m d l G Hl. destruct (X i m d G) as [G1| ->]; [exact (ap_in _ O i m d l G1 Hl)|destruct (N l Hl)].
    + intros i j mi di mj dj l Gi Gj Hi Hj. destruct (X i mi di Gi) as [G1| ->]; [|destruct (N l Hi)].
      destruct (X j mj dj Gj) as [G2| ->]; [|destruct (N l Hj)]. exact (ap_one _ O i j _ _ _ _ l G1 G2 Hi Hj).
    + cbn. lia.
    + intros j m d G _. split; [|auto]. unfold get_model in *. cbn. rewrite nth_error_app1; [exact G|]. apply nth_error_Some. congruence.
  - destruct (on_model w k _) as [w1 r1] eqn:E. injection H as <- _. cbn [fst].
    apply (on_model_only w k _ w1 r1 O) with (2 := E). intros m d w2 r2 _ F. exact (cmd_ot _ _ _ _ F).
  - destruct (on_model w k _) as [w1 r1] eqn:E. injection H as <- _. cbn [fst].
    apply (on_model_only w k _ w1 r1 O) with (2 := E). intros m d w2 r2 _ F. exact (cmds_ot _ _ _ _ F).
  - destruct (get_model w j) as [[dm ddm]|]; [|injection H as <- _; now apply only_refl].
    destruct (on_model w k _) as [w1 r1] eqn:E. injection H as <- _. cbn [fst].
    apply (on_model_only w k _ w1 r1 O) with (2 := E). intros m d w2 r2 _ F. cbn [w_heap w_mod w_uids] in F.
    destruct (incorporate (pw_heap w) m dm f) as [[h' m'] r'] eqn:I. injection F as <- _. exact (incorporate_ot _ _ _ _ _ _ _ I).
  - destruct (get_model w k); injection H as <- _; now apply only_refl.
  - destruct (match e with None => _ | Some _ => _ end) as [x|]; [|injection H as <- _; now apply only_refl].
    unfold connect_vars in H. destruct (get_model w m2) as [[s2 d2]|]; [|injection H as <- _; now apply only_refl].
    destruct (match m1 with CMName _ => _ | CMModel i => _ end); [|injection H as <- _; now apply only_refl].
    destruct (forallb _ (cv_list ins) && forallb _ (cv_list outs)).
    2: { destruct ins, outs; injection H as <- _; now apply only_refl. }
    destruct (match x with Some _ => _ | None => _ end) as [ar|]; [|injection H as <- _; now apply only_refl].
    destruct (rbind (qty_names (pw_heap w) (cv_list outs)) _) as [[o i']|]; [|injection H as <- _; now apply only_refl].
    destruct (on_model w m2 _) as [w1 r1] eqn:E.
    assert (C : only (fun j => m2 = j) w w1).
    { apply (on_model_only w m2 _ w1 r1 O) with (2 := E). intros m d w2 r2 _ F. exact (connection_ot _ _ _ _ _ _ F). }
    destruct r1; injection H as <- _; exact C.
  - destruct (rbind (build (pw_heap w) out) _) as [[o i]|]; [|injection H as <- _; now apply only_refl].
    unfold connect_nodes in H. destruct (get_model w m2) as [[s2 d2]|]; [|injection H as <- _; now apply only_refl].
    destruct (match m1 with CMName _ => _ | CMModel _ => _ end) as [pu rr].
    assert (O' : apart (mkPW (pw_heap w) (pw_uids w) pu (pw_models w))) by (destruct O as [O1 O2]; constructor; assumption).
    assert (R0 : only (fun j => m2 = j) w (mkPW (pw_heap w) (pw_uids w) pu (pw_models w))).
    { constructor; [exact O'|cbn; lia|]. intros j m d G _. split; [exact G|auto]. }
    destruct rr as [n1|]; [|injection H as <- _; exact R0].
    destruct (node_sub i (ONode o)) as [dn|]; [|injection H as <- _; exact R0].
    destruct (on_model _ m2 _) as [w1 r1] eqn:E.
    assert (C : only (fun j => m2 = j) (mkPW (pw_heap w) (pw_uids w) pu (pw_models w)) w1).
    { apply (on_model_only _ m2 _ w1 r1 O') with (2 := E). intros m d w2 r2 _ F. exact (equation_ot _ _ _ _ _ _ F). }
    assert (C' := only_trans _ _ _ _ R0 C). destruct r1; injection H as <- _; exact C'.
  - injection H as <- _. now apply only_refl.
  - injection H as <- _. now apply only_refl.
  - unfold presolve in H. destruct (reload w (dvals (pr_models p))) as [w1 r1] eqn:E.
    assert (C := reload_only _ _ _ _ O E).
    destruct r1 as [[]|x]; [|injection H as <- _; exact C]. destruct (build_block w1 p); [|injection H as <- _; exact C].
    destruct (block_call _) as [b' r']. injection H as <- _. exact C.
Qed.

Lemma run_apart acts : apart (fst (run_acts start_session acts)).
Proof.
  induction acts as [|a acts IH] using rev_ind.
  - constructor.
    + intros i m d l H. unfold get_model in H; destruct i; discriminate.
    + intros i j mi di mj dj l H. unfold get_model in H; destruct i; discriminate.
  - rewrite run_acts_app. cbn [run_acts]. destruct (do_act (run_acts start_session acts) a) as [s' r] eqn:E.
    exact (on_apart _ _ _ (do_act_only _ _ _ _ IH E)).
Qed.

Lemma others_kept acts a s' r j m d : let s := run_acts start_session acts in do_act s a = (s', r) -> ~ about s a j ->
  get_model (fst s) j = Some (m, d) ->
  get_model (fst s') j = Some (m, d) /\ forall l, holds_object m l -> hget (pw_heap (fst s')) l = hget (pw_heap (fst s)) l.
Proof. intros s H N G. exact (on_kept _ _ _ (do_act_only _ _ _ _ (run_apart acts) H) j m d G N). Qed.
Lemma objects_apart acts i j mi mj l : let s := run_acts start_session acts in
  model_of s i = Some mi -> model_of s j = Some mj -> holds_object mi l -> holds_object mj l -> i = j.
Proof.
  intros s Hi Hj. unfold model_of in *. destruct (get_model (fst s) i) as [[mi' di]|] eqn:Gi; [|discriminate Hi].
  destruct (get_model (fst s) j) as [[mj' dj]|] eqn:Gj; [|discriminate Hj]. injection Hi as <-. injection Hj as <-.
  exact (ap_one _ (run_apart acts) i j _ _ _ _ l Gi Gj).
Qed.
