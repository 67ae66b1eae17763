(** Facts about printed units, reports, tables and plots (C59-C63). *)
From Verif Require Import Base BaseFacts Num NumFacts UnitModel UnitFacts Sympy Node Build EquationModel ModelModel ProblemModel
  SolverModel DomainModel SimModel ReportModel
  SpecUnits UnitThms SpecExpr SpecQty QtyFacts SpecModel BuildFacts EquationFacts ModelFacts SpecInc IncFacts SpecCall CallFacts
  SpecProblem ProblemFacts SessionFacts ConnFacts EqClassFacts SpecSolver SolverFacts DomainFacts SpecSymbols SymbolFacts SpecReport.
From Coq Require Import Reals.
Notation num := Verif.Num.num.

(** ** Units *)
Lemma join_words l : forall l', (forall x, In x l -> x <> "" /\ has_char " " x = false) ->
  (forall x, In x l' -> x <> "" /\ has_char " " x = false) -> join " " l = join " " l' -> l = l'.
Proof.
  assert (L0 : forall x l, (forall y, In y (x :: l) -> y <> "" /\ has_char " " y = false) -> join " " (x :: l) <> "").
  { intros x [|y r] H; [apply H; now left|]. rewrite join_cons. destruct x; [now destruct (H "" (or_introl eq_refl))|discriminate]. }
  assert (L1 : forall x y r z, has_char " " z = false -> join " " (x :: y :: r) <> z).
  { intros x y r z Hz E. rewrite <- E, join_cons, !has_char_app in Hz. cbn [has_char] in Hz. simpl in Hz. now rewrite Bool.orb_true_r in Hz. }
  induction l as [|x [|y l] IH]; intros [|x' [|y' l']] H H' E; try reflexivity.
  - now destruct (L0 _ _ H').
  - now destruct (L0 _ _ H').
  - now destruct (L0 _ _ H).
  - simpl in E. now subst.
  - destruct (L1 x' y' l' x); [apply H; now left|]. now rewrite <- E.
  - now destruct (L0 _ _ H).
  - destruct (L1 x y l x'); [apply H'; now left|exact E].
  - rewrite !join_cons in E. change (" " ++ join " " (y :: l))%string with (String " " (join " " (y :: l))) in E.
    change (" " ++ join " " (y' :: l'))%string with (String " " (join " " (y' :: l'))) in E.
    apply split_char in E; [|apply H; now left|apply H'; now left]. destruct E as [-> E]. f_equal.
    apply IH; [intros z Hz; apply H; now right|intros z Hz; apply H'; now right|exact E].
Qed.

Definition plain_word (k : string) : Prop := has_char "^" k = false /\ has_char " " k = false.

Lemma words_shape pn u : forall ks l, unit_words pn u ks = Ok l ->
  forall w, In w l -> exists k x, In k ks /\ exponent u k = Some x /\ neqb x (PInt 0) = false /\ w = (k ++ "^" ++ pn x)%string.
Proof.
  induction ks as [|k ks IH]; intros l H w Hw; cbn [unit_words] in H; [injection H as <-; destruct Hw|].
  destruct (dget k (u_dim u)) as [x|] eqn:E; [|discriminate]. binv. destruct (neqb x (PInt 0)) eqn:Ez.
  - destruct (IH _ Hb w Hw) as (k' & x' & Hk & R). exists k', x'. split; [now right|exact R].
  - destruct Hw as [<-|Hw].
    + exists k, x. repeat split; auto. now left.
    + destruct (IH _ Hb w Hw) as (k' & x' & Hk & R). exists k', x'. split; [now right|exact R].
Qed.

Lemma words_total pn u : forall ks, (forall k, In k ks -> exponent u k <> None) -> exists l, unit_words pn u ks = Ok l.
Proof.
  induction ks as [|k ks IH]; intros H; cbn [unit_words]; [eauto|].
  destruct (dget k (u_dim u)) as [x|] eqn:E; [|now destruct (H k (or_introl eq_refl))].
  destruct IH as [l ->]; [intros j Hj; apply H; now right|]. cbn [rbind]. eauto.
Qed.

(** The words of two units are the same. *)
Lemma words_same pn u v : (forall x, has_char " " (pn x) = false) -> forall ks lu lv,
  NoDup ks -> (forall k, In k ks -> plain_word k) -> unit_words pn u ks = Ok lu -> unit_words pn v ks = Ok lv -> lu = lv ->
  forall k x y, In k ks -> exponent u k = Some x -> exponent v k = Some y ->
  (neqb x (PInt 0) = true /\ neqb y (PInt 0) = true) \/ (neqb x (PInt 0) = false /\ neqb y (PInt 0) = false /\ pn x = pn y).
Proof.
  intros P. induction ks as [|k ks IH]; intros lu lv N W Hu Hv E k' x' y' Hk; [destruct Hk|].
  cbn [unit_words] in Hu, Hv.
  destruct (dget k (u_dim u)) as [x|] eqn:Ex; [|discriminate]. destruct (dget k (u_dim v)) as [y|] eqn:Ey; [|discriminate].
  destruct (unit_words pn u ks) as [l1|] eqn:U1; [|discriminate]. destruct (unit_words pn v ks) as [l2|] eqn:U2; [|discriminate].
  cbn [rbind] in Hu, Hv. injection Hu as Hu. injection Hv as Hv. apply NoDup_cons_iff in N. destruct N as [Nk N'].
  assert (Cross : forall l z w, (unit_words pn w ks = Ok l) -> ~ In (k ++ "^" ++ z)%string l).
  { intros l z w Hl Hin. destruct (words_shape _ _ _ _ Hl _ Hin) as (k2 & x2 & Hk2 & _ & _ & E2).
    apply (split_char "^" k k2 (proj1 (W k (or_introl eq_refl))) (proj1 (W k2 (or_intror Hk2)))) in E2. destruct E2 as [<- _]. contradiction. }
  assert (X : ((neqb x (PInt 0) = true /\ neqb y (PInt 0) = true) \/ (neqb x (PInt 0) = false /\ neqb y (PInt 0) = false /\ pn x = pn y)) /\
              l1 = l2).
  { rewrite <- Hu, <- Hv in E. destruct (neqb x (PInt 0)) eqn:Zx, (neqb y (PInt 0)) eqn:Zy.
    - split; [now left|exact E].
    - exfalso. apply (Cross _ (pn y) u U1). rewrite E. now left.
    - exfalso. apply (Cross _ (pn x) v U2). rewrite <- E. now left.
    - injection E as E1 E2.
      change (k ++ String "^" (pn x) = k ++ String "^" (pn y))%string in E1.
      apply (split_char "^" k k (proj1 (W k (or_introl eq_refl))) (proj1 (W k (or_introl eq_refl)))) in E1.
      split; [right; repeat split; tauto|exact E2]. }
  destruct X as [X1 X2]. destruct Hk as [<-|Hk].
  - intros Gx Gy. unfold exponent in Gx, Gy. rewrite Ex in Gx. rewrite Ey in Gy. injection Gx as <-. injection Gy as <-. exact X1.
  - intros Gx Gy. exact (IH l1 l2 N' (fun j Hj => W j (or_intror Hj)) eq_refl eq_refl X2 k' x' y' Hk Gx Gy).
Qed.

Lemma si_plain k : In k si_names -> plain_word k.
Proof. intros H. repeat (destruct H as [<-|H]; [split; reflexivity|]). destruct H. Qed.
Lemma si_nodup : NoDup si_names.
Proof. unfold si_names. repeat (constructor; [simpl; intuition discriminate|]). constructor. Qed.
Lemma si_keys : dkeys null_dimension = si_names.
Proof. reflexivity. Qed.
Lemma word_proper (pn : num -> string) k x : (forall x, has_char " " (pn x) = false) -> In k si_names ->
  (k ++ "^" ++ pn x)%string <> "" /\ has_char " " (k ++ "^" ++ pn x)%string = false.
Proof.
  intros P H. split; [destruct k; discriminate|]. rewrite !has_char_app, P, (proj2 (si_plain k H)). reflexivity.
Qed.

Lemma unit_text pn u : a_unit u -> exists l, unit_words pn u si_names = Ok l /\ unit_str pn u = Ok (join " " l).
Proof.
  intros A. destruct (words_total pn u si_names) as [l Hl].
  - intros k Hk H. apply a_unit_wf in A. destruct A as [_ Hi]. unfold exponent in H. apply dget_none_iff in H. apply H, Hi. exact Hk.
  - exists l. split; [exact Hl|]. unfold unit_str. rewrite si_keys, Hl. reflexivity.
Qed.

Lemma text_tells pn u v t : honest_print pn -> a_unit u -> a_unit v -> unit_str pn u = Ok t -> unit_str pn v = Ok t ->
  forall k x y r s, In k si_names -> exponent u k = Some x -> exponent v k = Some y -> nvalue x r -> nvalue y s -> r = s.
Proof.
  intros [P1 P2] Au Av Eu Ev k x y r s Hk Ex Ey Hr Hs.
  destruct (unit_text pn u Au) as (lu & Lu & Tu), (unit_text pn v Av) as (lv & Lv & Tv).
  rewrite Eu in Tu. rewrite Ev in Tv. injection Tu as Tu. injection Tv as Tv.
  assert (W : forall w l, unit_words pn w si_names = Ok l -> forall z, In z l -> z <> "" /\ has_char " " z = false).
  { intros w l Hl z Hz. destruct (words_shape _ _ _ _ Hl z Hz) as (k' & x' & Hk' & _ & _ & ->). exact (word_proper pn k' x' P2 Hk'). }
  assert (E : lu = lv) by (apply join_words; [exact (W _ _ Lu)|exact (W _ _ Lv)|congruence]).
  destruct (words_same pn u v P2 si_names lu lv si_nodup si_plain Lu Lv E k x y Hk Ex Ey) as [[Zx Zy]|(_ & _ & Ep)].
  - apply (neqb_value x (PInt 0) r 0%R Hr eq_refl) in Zx. apply (neqb_value y (PInt 0) s 0%R Hs eq_refl) in Zy. congruence.
  - exact (P1 x y r s Hr Hs Ep).
Qed.

Lemma words_equal pn u v : forall ks, (forall k, In k ks -> exponent u k = exponent v k) -> unit_words pn u ks = unit_words pn v ks.
Proof.
  induction ks as [|k ks IH]; intros H; cbn [unit_words]; [reflexivity|].
  pose proof (H k (or_introl eq_refl)) as E. unfold exponent in E. rewrite E, IH; [reflexivity|]. intros j Hj. apply H. now right.
Qed.

Lemma whole_text pn u v : a_unit u -> a_unit v -> whole u -> whole v -> same_dimension u v -> unit_str pn u = unit_str pn v.
Proof.
  intros Au Av Wu Wv S. unfold unit_str. rewrite (words_equal pn u v); [reflexivity|]. intros k Hk.
  apply a_unit_wf in Au, Av. destruct Au as [_ Iu], Av as [_ Iv].
  destruct (in_keys_dget _ _ (Iu k Hk)) as [x Hx], (in_keys_dget _ _ (Iv k Hk)) as [y Hy].
  destruct (Wu k x Hx) as [a ->], (Wv k y Hy) as [b ->]. unfold exponent. rewrite Hx, Hy. do 2 f_equal.
  apply eq_IZR. exact (S k _ _ _ _ Hx Hy eq_refl eq_refl).
Qed.

(** ** Reports *)
(** What the report reads agrees with what the equation carries. *)
Definition tidy (e : eqn) : Prop :=
  exists n, eq_expr e = Some n /\ eq_objs e = Some (nd_smap n) /\ one_class (nd_ty n) /\ eq_type e = type_of n.
Definition mtidy (m : mstate) : Prop := forall k e, In (k, e) (m_eqs m) -> tidy e.

Lemma create_tidy w n h q arg check w' r : build_eq h q = Ok arg -> mtidy (w_mod w) ->
  create_equation w n (Some arg) check = (w', r) -> mtidy (w_mod w').
Proof.
  intros Hb M H. destruct (create_outcome w n arg check) as [u' E]. rewrite E in H. clear E.
  destruct (set_residual _ arg) as [e0 [[]|x2]] eqn:Er; [|injection H as <- _; exact M].
  destruct (eq_expr e0) as [nn|] eqn:En; [|injection H as <- _; exact M]. cbv zeta in H.
  destruct (eq_data _ _ _ _ _ Hb Er) as (n' & En' & _ & T & O & _). assert (n' = nn) by congruence. subst n'.
  set (e2 := mkEqn (stored_name w n) (Some nn) (eq_elem e0) (eq_elementary e0) (eq_type e0) (Some (nd_smap nn)) (m_name (w_mod w))) in *.
  assert (S : mtidy (with_eqs (w_mod w) (dset (stored_name w n) e2 (m_eqs (w_mod w))))).
  { intros k e Hin. cbn [m_eqs with_eqs] in Hin. apply in_dset in Hin. destruct Hin as [[_ ->]|Hin]; [|exact (M k e Hin)].
    exists nn. auto. }
  destruct check; [destruct (forallb _ _)|]; injection H as <- _; [exact S|exact M|exact S].
Qed.

Lemma cmd_tidy w c w' r : mtidy (w_mod w) -> run_cmd w c = (w', r) -> mtidy (w_mod w').
Proof.
  intros M H. destruct c as [a n u ex ty v|a n u v|a n u v|a v u|a|a n q check]; cbn [run_cmd] in H.
  - unfold assign_qty, create_variable in H.
    destruct ex; [destruct (String.eqb ty "input"); [|destruct (String.eqb ty "output")]|]; injection H as <- _; exact M.
  - injection H as <- _; exact M.
  - injection H as <- _; exact M.
  - destruct (attr_qty (w_mod w) a) as [l|x]; [|injection H as <- _; exact M].
    destruct (match v with SANum n => _ | SAAttr b => _ end) as [sv|x]; [|injection H as <- _; exact M].
    destruct (heap_set_value _ _ _ _) as [h' r']. injection H as <- _. exact M.
  - destruct (attr_qty (w_mod w) a) as [l|x]; [|injection H as <- _; exact M].
    destruct (hget (w_heap w) l) as [q|]; [|injection H as <- _; exact M].
    destruct (qkind_eqb (q_kind q) KVariable); injection H as <- _; exact M.
  - destruct (rbind (resolve_eq (attr_qty (w_mod w)) q) (fun q' => build_eq (w_heap w) q')) as [arg|x] eqn:Eb;
      [|injection H as <- _; exact M].
    binv. destruct (create_equation w n (Some arg) check) as [w2 r2] eqn:Ec.
    assert (M2 := create_tidy _ _ _ _ _ _ _ _ Eb M Ec). destruct r2; injection H as <- _; exact M2.
Qed.
Lemma cmds_tidy cs : forall w w' r, mtidy (w_mod w) -> run_cmds w cs = (w', r) -> mtidy (w_mod w').
Proof.
  induction cs as [|c cs IH]; intros w w' r M H; cbn [run_cmds] in H; [injection H as <- _; exact M|].
  destruct (run_cmd w c) as [w1 r1] eqn:E. assert (M1 := cmd_tidy _ _ _ _ M E).
  destruct r1; [exact (IH _ _ _ M1 H)|injection H as <- _; exact M1].
Qed.
Lemma call_tidy d w w' r : mtidy (w_mod w) -> model_call d w = (w', r) -> mtidy (w_mod w').
Proof. intros M H. exact (cmds_tidy _ _ _ _ M H). Qed.

Lemma convert_tidy names w e e2 : tidy e -> convert_symbolic names w e = Ok e2 -> tidy e2.
Proof.
  intros (n & En & _ & O & T) H. unfold convert_symbolic in H. rewrite En in H.
  destruct (subs_obj names (nd_repr n)) as [r|]; [|discriminate]. destruct (subs_obj names (nd_sym n)) as [s|]; [|discriminate].
  cbn [rbind] in H. destruct (match eq_elem e with None => _ | Some _ => _ end) as [el|]; [|discriminate]. cbn [rbind] in H.
  destruct (pick_all w (uniq (fsyms r))) as [sm|]; [|discriminate]. cbn [rbind] in H. injection H as <-.
  eexists. split; [reflexivity|]. split; [reflexivity|]. split; [exact O|exact T].
Qed.
Lemma add_equations_tidy names w rw es : (forall e, In e es -> tidy e) ->
  forall m m' r, mtidy m -> add_equations m es names w rw = (m', r) -> mtidy m'.
Proof.
  induction es as [|e es IH]; intros He m m' r M H; cbn [add_equations] in H; [injection H as <- _; exact M|].
  unfold add_equation in H.
  destruct (convert_symbolic names w _) as [e2|x] eqn:Ec; [|injection H as <- _; exact M].
  assert (O : tidy e2). { apply convert_tidy with (2 := Ec). destruct (He e (or_introl eq_refl)) as (n & R). exists n. exact R. }
  refine (IH (fun x Hx => He x (or_intror Hx)) _ _ _ _ H).
  intros k e' Hin. cbn [m_eqs with_eqs set_attr with_attrs] in Hin. apply in_dset in Hin. destruct Hin as [[_ ->]|Hin]; [exact O|exact (M k e' Hin)].
Qed.

Lemma add_all_eqs add : (forall h m l rw h' m' r, add h m l rw = (h', m', r) -> m_eqs m' = m_eqs m) ->
  forall ls h m rw h' m' r, add_all add h m ls rw = (h', m', r) -> m_eqs m' = m_eqs m.
Proof.
  intros A. induction ls as [|l ls IH]; intros h m rw h' m' r H; cbn [add_all] in H; [injection H as _ <- _; reflexivity|].
  destruct (add h m l rw) as [[h1 m1] [[]|x]] eqn:E; assert (X := A _ _ _ _ _ _ _ E).
  - rewrite <- X. exact (IH _ _ _ _ _ _ H).
  - injection H as _ <- _. exact X.
Qed.
Lemma add_variable_eqs h m l rw h' m' r : add_variable h m l rw = (h', m', r) -> m_eqs m' = m_eqs m.
Proof.
  unfold add_variable. destruct (hget h l) as [q|]; [|intros H; now injection H as _ <- _].
  destruct (q_exposed q); intros H; injection H as _ <- _; reflexivity.
Qed.
Lemma add_parameter_eqs h m l rw h' m' r : add_parameter h m l rw = (h', m', r) -> m_eqs m' = m_eqs m.
Proof. unfold add_parameter. destruct (hget h l) as [q|]; intros H; now injection H as _ <- _. Qed.
Lemma add_constant_eqs h m l rw h' m' r : add_constant h m l rw = (h', m', r) -> m_eqs m' = m_eqs m.
Proof. unfold add_constant. destruct (hget h l) as [q|]; intros H; now injection H as _ <- _. Qed.

Lemma same_tidy m m' : m_eqs m' = m_eqs m -> mtidy m -> mtidy m'.
Proof. intros E M k e H. apply (M k). now rewrite <- E. Qed.

Lemma incorporate_tidy h m donor f h' m' r : mtidy m -> mtidy donor -> incorporate h m donor f = (h', m', r) -> mtidy m'.
Proof.
  intros M D H. unfold incorporate in H.
  destruct (if i_vars f then _ else _) as [[h1 m1] r1] eqn:E1.
  assert (T1 : mtidy m1).
  { destruct (i_vars f); [|injection E1 as _ <- _; exact M]. exact (same_tidy _ _ (add_all_eqs _ add_variable_eqs _ _ _ _ _ _ _ E1) M). }
  destruct r1 as [[]|x]; [|injection H as _ <- _; exact T1].
  destruct (if i_pars f then _ else _) as [[h2 m2] r2] eqn:E2.
  assert (T2 : mtidy m2).
  { destruct (i_pars f); [|injection E2 as _ <- _; exact T1]. exact (same_tidy _ _ (add_all_eqs _ add_parameter_eqs _ _ _ _ _ _ _ E2) T1). }
  destruct r2 as [[]|x]; [|injection H as _ <- _; exact T2].
  destruct (if i_cons f then _ else _) as [[h3 m3] r3] eqn:E3.
  assert (T3 : mtidy m3).
  { destruct (i_cons f); [|injection E3 as _ <- _; exact T2]. exact (same_tidy _ _ (add_all_eqs _ add_constant_eqs _ _ _ _ _ _ _ E3) T2). }
  destruct r3 as [[]|x]; [|injection H as _ <- _; exact T3].
  destruct (i_eqs f); [|injection H as _ <- _; exact T3].
  destruct (add_equations m3 _ _ _ _) as [m4 r4] eqn:E4. injection H as _ <- _.
  refine (add_equations_tidy _ _ _ _ _ _ _ _ T3 E4).
  intros e He. apply in_map_iff in He. destruct He as [[k e'] [<- Hin]]. exact (D k e' Hin).
Qed.

Lemma connection_tidy w outs ins a w' r : (a = EAOther \/ exists q, build_eq (w_heap w) q = Ok a) -> mtidy (w_mod w) ->
  model_connection w outs ins a = (w', r) -> mtidy (w_mod w').
Proof.
  intros Ba M H. unfold model_connection in H.
  destruct (forallb (is_variable (w_heap w)) ins && forallb (is_variable (w_heap w)) outs); [|injection H as <- _; exact M].
  destruct (rbind (qty_names (w_heap w) outs) _) as [name|x] eqn:En; [|injection H as <- _; exact M].
  assert (Ne : name <> "") by (binv; apply append_ne).
  destruct (connection_init (w_uids w) name a) as [u [e|x]] eqn:Ec; injection H as <- _; [|exact M].
  destruct Ba as [->|(q & Hb)].
  { exfalso. unfold connection_init, equation_init in Ec. destruct (String.eqb name ""); simpl in Ec; discriminate. }
  unfold connection_init in Ec.
  destruct (init_outcome (w_uids w) main_thread name a "") as [u1 E]. rewrite E in Ec. clear E.
  apply String.eqb_neq in Ne. rewrite Ne in Ec.
  destruct (set_residual (blank_eqn name) a) as [e1 [[]|x]] eqn:Er; [|discriminate].
  destruct (residual_again a _ _ (with_eowner e1 "") (built_not_other _ _ _ Hb) Er) as (e2 & E2 & X & T & N & _ & El & Ef).
  rewrite E2 in Ec. assert (D := Er). apply (eq_data _ _ _ _ _ Hb) in D. destruct D as (n & Enn & _ & Ty & O & _).
  unfold sweep_objects in Ec. rewrite X, Enn in Ec. injection Ec as _ <-.
  intros k e Hin. cbn [w_mod m_eqs with_eqs] in Hin. apply in_dset in Hin. destruct Hin as [[_ ->]|Hin]; [|exact (M k e Hin)].
  exists n. split; [cbn; rewrite X; exact Enn|]. split; [reflexivity|]. split; [exact O|]. cbn. rewrite T. exact Ty.
Qed.

Definition wtidy (w : pworld) : Prop := forall i m d, get_model w i = Some (m, d) -> mtidy m.
Lemma on_model_tidy {A} w i (f : decls -> mworld -> mworld * res A) w2 r : wtidy w ->
  (forall m d w' r, get_model w i = Some (m, d) -> f d (mkW (pw_heap w) (pw_uids w) m) = (w', r) -> mtidy m -> mtidy (w_mod w')) ->
  on_model w i f = (w2, r) -> wtidy w2.
Proof.
  intros O HF H. apply on_model_spec in H. destruct H as [(_ & -> & _)|(m & d & w' & G & F & Hh & G2 & Go & L)]; [exact O|].
  assert (K := HF m d w' r G F (O i m d G)). intros j mj dj Gj. destruct (Nat.eq_dec j i) as [->|Hne].
  - assert (X : Some (mj, dj) = Some (w_mod w', d)) by congruence. injection X as -> ->. exact K.
  - rewrite Go in Gj by exact Hne. exact (O j mj dj Gj).
Qed.
Lemma reload_tidy is : forall w w' r, wtidy w -> reload w is = (w', r) -> wtidy w'.
Proof.
  induction is as [|i is IH]; intros w w' r O H; simpl in H; [now injection H as <- _|].
  destruct (on_model w i model_call) as [w1 r1] eqn:E.
  assert (O1 : wtidy w1).
  { apply (on_model_tidy _ _ _ _ _ O) with (2 := E). intros m d w2 r2 _ F M. exact (call_tidy _ (mkW (pw_heap w) (pw_uids w) m) _ _ M F). }
  destruct r1 as [[]|x]; [exact (IH _ _ _ O1 H)|injection H as <- _; exact O1].
Qed.

Lemma do_act_tidy s a : wtidy (fst s) -> wtidy (fst (fst (do_act s a))).
Proof.
  intros O. destruct s as [w p]. destruct (do_act (w, p) a) as [[w' p'] r] eqn:E. simpl in *.
  destruct a as [n dd|k c|k|k j f|k|m1 m2 outs ins e|m1 m2 out inp|names|c|]; simpl in E.
  - injection E as <- _ _. intros i m d H. unfold get_model in H. simpl in H. destruct (Nat.lt_ge_cases i (List.length (pw_models w))) as [L|L].
    + rewrite nth_error_app1 in H by exact L. exact (O i m d H).
    + rewrite nth_error_app2 in H by exact L. destruct (i - _)%nat as [|z]; [|destruct z; discriminate]. injection H as <- <-. intros k e [].
  - destruct (on_model w k _) as [w1 r1] eqn:E1. injection E as <- _ _.
    apply (on_model_tidy _ _ _ _ _ O) with (2 := E1). intros m d w2 r2 _ F M. exact (cmd_tidy (mkW (pw_heap w) (pw_uids w) m) _ _ _ M F).
  - destruct (on_model w k _) as [w1 r1] eqn:E1. injection E as <- _ _.
    apply (on_model_tidy _ _ _ _ _ O) with (2 := E1). intros m d w2 r2 _ F M. exact (call_tidy _ (mkW (pw_heap w) (pw_uids w) m) _ _ M F).
  - destruct (get_model w j) as [[dm dd]|] eqn:Gj; [|injection E as <- _ _; exact O].
    destruct (on_model w k _) as [w1 r1] eqn:E1. injection E as <- _ _.
    apply (on_model_tidy _ _ _ _ _ O) with (2 := E1). intros m d w3 r3 Gi F M.
    simpl in F. destruct (incorporate (pw_heap w) m dm f) as [[h3 m3] r4] eqn:Ei. injection F as <- _.
    exact (incorporate_tidy _ _ _ _ _ _ _ M (O j dm dd Gj) Ei).
  - destruct (get_model w k); injection E as <- _ _; exact O.
  - destruct (match e with None => Ok None | Some q => _ end) as [x|x] eqn:Ex; [|injection E as <- _ _; exact O].
    unfold connect_vars in E. destruct (get_model w m2) as [[s2 d2]|]; [|injection E as <- _ _; exact O].
    destruct (match m1 with CMName _ => _ | CMModel i => _ end); [|injection E as <- _ _; exact O].
    destruct (forallb _ (cv_list ins) && forallb _ (cv_list outs)).
    2: { destruct ins, outs; injection E as <- _ _; exact O. }
    destruct (match x with Some a => Ok a | None => balance _ _ _ end) as [ar|] eqn:Ba; [|injection E as <- _ _; exact O].
    assert (Ha : ar = EAOther \/ exists q, build_eq (pw_heap w) q = Ok ar).
    { destruct x as [a'|].
      - injection Ba as ->. destruct e as [q|]; [|discriminate]. binv. right. exists q. rewrite Hb. congruence.
      - apply balance_built in Ba. destruct Ba as [(-> & _)|(q & _ & Hb)]; [now left|right; eauto]. }
    destruct (rbind (qty_names (pw_heap w) (cv_list outs)) _) as [[o i']|]; [|injection E as <- _ _; exact O].
    destruct (on_model w m2 _) as [w1 r1] eqn:E1.
    assert (Q : wtidy w1).
    { apply (on_model_tidy _ _ _ _ _ O) with (2 := E1). intros m d w2 r2 _ F M.
      exact (connection_tidy (mkW (pw_heap w) (pw_uids w) m) _ _ _ _ _ Ha M F). }
    destruct r1; injection E as <- _ _; exact Q.
  - destruct (rbind (build (pw_heap w) out) _) as [[o i]|x] eqn:Ex; [|injection E as <- _ _; exact O].
    destruct (build (pw_heap w) out) as [o'|] eqn:Ho; [|discriminate]. cbn [rbind] in Ex.
    destruct (build (pw_heap w) inp) as [i'|] eqn:Hi; [|discriminate]. cbn [rbind] in Ex. injection Ex as -> ->.
    unfold connect_nodes in E. destruct (get_model w m2) as [[s2 d2]|]; [|injection E as <- _ _; exact O].
    destruct (match m1 with CMName _ => _ | CMModel i => _ end) as [pu r0].
    set (w0 := mkPW (pw_heap w) (pw_uids w) pu (pw_models w)) in *.
    assert (O0 : wtidy w0) by exact O.
    destruct r0 as [n1|e]; [|injection E as <- _ _; exact O0].
    destruct (node_sub i (ONode o)) as [d|e] eqn:Ed; [|injection E as <- _ _; exact O0].
    assert (Hb : build_eq (pw_heap w) (UResid (UBin BSub inp out)) = Ok (EANode d)).
    { cbn [build_eq build]. rewrite Hi, Ho. cbn [rbind node_op]. now rewrite Ed. }
    destruct (on_model w0 m2 _) as [w2 r2] eqn:E2.
    assert (Q : wtidy w2).
    { apply (on_model_tidy _ _ _ _ _ O0) with (2 := E2). intros m dd w3 r3 _ F M.
      exact (create_tidy (mkW (pw_heap w) (pw_uids w) m) _ _ _ _ _ _ _ Hb M F). }
    destruct r2 as [e|e]; injection E as <- _ _; exact Q.
  - injection E as <- _ _. exact O.
  - injection E as <- _ _. exact O.
  - unfold presolve in E. destruct (reload w (dvals (pr_models p))) as [w1 r1] eqn:E1.
    assert (Q := reload_tidy _ _ _ _ O E1).
    destruct r1 as [[]|x]; [|injection E as <- _ _; exact Q]. destruct (build_block w1 p); [|injection E as <- _ _; exact Q].
    destruct (block_call _) as [b' r']. injection E as <- _ _. exact Q.
Qed.

Lemma run_tidy acts : wtidy (fst (run_acts start_session acts)).
Proof.
  induction acts as [|a acts IH] using rev_ind.
  - intros i m d H. unfold get_model in H; destruct i; discriminate.
  - rewrite run_acts_app. simpl. now apply do_act_tidy.
Qed.

Lemma listed_exact h k mark d : objs_ok h d -> exists l, listed h k mark d = Ok l /\
  (forall x, In x l <-> exists q k' i, In (k', i) d /\ hget h i = Some q /\ q_kind q = k /\
                                     (if mark && q_spec q then (q_name q ++ "(*)")%string else q_name q) = x) /\
  (mark = false -> NoDup l).
Proof.
  unfold objs_ok. induction d as [|[a i] d IH]; intros [N O].
  - exists []. split; [reflexivity|]. split; [|constructor]. intros x. split; [intros []|intros (q & k' & j & [] & _)].
  - cbn [dkeys map fst] in N. apply NoDup_cons_iff in N. destruct N as [Na N].
    destruct IH as (l & L & S & D); [split; [exact N|intros x j Hj; apply (O x j); now right]|].
    destruct (O a i (or_introl eq_refl)) as (q & G & E). cbn [listed]. rewrite G, L. cbn [rbind].
    eexists. split; [reflexivity|]. destruct (qkind_eqb (q_kind q) k) eqn:Ek.
    + assert (K : q_kind q = k) by (destruct (q_kind q), k; try reflexivity; discriminate Ek). split.
      * intros x. split.
        -- intros [H|H].
           ++ exists q, a, i. split; [now left|]. split; [exact G|]. split; [exact K|]. now rewrite E.
           ++ apply S in H. destruct H as (q' & k' & j & Hin & R). exists q', k', j. split; [now right|exact R].
        -- intros (q' & k' & j & [Hin|Hin] & G' & K' & R).
           ++ injection Hin as <- <-. assert (q' = q) by congruence. subst q'. left. now rewrite <- R, E.
           ++ right. apply S. exists q', k', j. auto.
      * intros ->. cbn [andb]. constructor; [|now apply D]. intros H. apply S in H.
        destruct H as (q' & k' & j & Hin & G' & _ & R). cbn [andb] in R. destruct (O k' j (or_intror Hin)) as (q2 & G2 & E2).
        assert (q2 = q') by congruence. subst q2. apply Na. apply in_map_iff. exists (k', j). split; [simpl; congruence|exact Hin].
    + split; [|exact D]. intros x. rewrite S. split.
      * intros (q' & k' & j & Hin & R). exists q', k', j. split; [now right|exact R].
      * intros (q' & k' & j & [Hin|Hin] & G' & K' & R).
        -- exfalso. injection Hin as <- <-. assert (q' = q) by congruence. subst q'. rewrite K' in Ek. destruct k; discriminate Ek.
        -- exists q', k', j. auto.
Qed.

Lemma class_words n : one_class (nd_ty n) -> true_types (nd_ty n) = [class_word (type_of n)].
Proof. unfold type_of, true_types. intros [E|[E|E]]; rewrite E; reflexivity. Qed.

Lemma row_describes_objs h e n : eq_expr e = Some n -> objs_ok h (nd_smap n) -> tidy e -> exists r, report_row h e = Ok r /\ describes h e r.
Proof.
  intros En O (n' & En' & Ed & C & T). assert (n' = n) by congruence. subst n'.
  destruct (listed_exact h KVariable false _ O) as (vs & V1 & V2 & V3).
  destruct (listed_exact h KParameter true _ O) as (ps & P1 & P2 & _).
  destruct (listed_exact h KConstant true _ O) as (cs & C1 & C2 & _).
  unfold report_row. rewrite En, V1. cbn [rbind]. rewrite P1. cbn [rbind]. rewrite C1. cbn [rbind]. rewrite (class_words n C).
  eexists. split; [reflexivity|].
  assert (U : forall q, uses_object h e q <-> exists k i, In (k, i) (nd_smap n) /\ hget h i = Some q).
  { intros q. split.
    - intros (d & k & i & D & R). assert (d = nd_smap n) by congruence. subst d. eauto.
    - intros (k & i & R). exists (nd_smap n), k, i. tauto. }
  constructor; cbn [r_name r_repr r_vars r_pars r_cons r_type].
  - reflexivity.
  - eauto.
  - split; [now apply V3|]. intros x. rewrite V2. cbn [andb]. split.
    + intros (q & k & i & R). exists q. rewrite U. split; [|tauto]. exists k, i. tauto.
    + intros (q & Hq & R). apply U in Hq. destruct Hq as (k & i & R'). exists q, k, i. tauto.
  - intros x. rewrite P2. cbn [andb]. unfold starred. split.
    + intros (q & k & i & R). exists q. rewrite U. split; [|tauto]. exists k, i. tauto.
    + intros (q & Hq & R). apply U in Hq. destruct Hq as (k & i & R'). exists q, k, i. tauto.
  - intros x. rewrite C2. cbn [andb]. unfold starred. split.
    + intros (q & k & i & R). exists q. rewrite U. split; [|tauto]. exists k, i. tauto.
    + intros (q & Hq & R). apply U in Hq. destruct Hq as (k & i & R'). exists q, k, i. tauto.
  - now rewrite T.
Qed.

Lemma row_describes h e : eqn_ok h e -> tidy e -> exists r, report_row h e = Ok r /\ describes h e r.
Proof.
  intros (n & d & En & Ed & O & _ & _) T. apply (row_describes_objs h e n En); [|exact T]. destruct T as (n' & En' & Ed' & _).
  replace (nd_smap n) with d by congruence. exact O.
Qed.

Lemma rows_describe h es : (forall e, In e es -> eqn_ok h e /\ tidy e) -> exists rs, map_res (report_row h) es = Ok rs /\ Forall2 (describes h) es rs.
Proof.
  induction es as [|e es IH]; intros H; [exists []; split; [reflexivity|constructor]|].
  destruct (H e (or_introl eq_refl)) as [O T]. destruct (row_describes h e O T) as (r & R & D).
  destruct IH as (rs & Rs & Ds); [intros x Hx; apply H; now right|]. exists (r :: rs). cbn [map_res]. rewrite R. cbn [rbind]. rewrite Rs.
  split; [reflexivity|now constructor].
Qed.

Lemma model_describes w i m d : wok w -> wtidy w -> get_model w i = Some (m, d) ->
  exists rs, model_report (pw_heap w) m = Ok rs /\ Forall2 (describes (pw_heap w)) (dvals (m_eqs m)) rs.
Proof.
  intros O T G. apply rows_describe. intros e He. apply in_map_iff in He. destruct He as [[k e'] [<- Hin]].
  split; [exact (proj2 (proj2 (proj2 (proj2 (proj1 O i m d G)))) k e' Hin)|exact (T i m d G k e' Hin)].
Qed.

Lemma reports_models acts i m d : let s := run_acts start_session acts in get_model (fst s) i = Some (m, d) ->
  exists rs, model_report (pw_heap (fst s)) m = Ok rs /\ Forall2 (describes (pw_heap (fst s))) (dvals (m_eqs m)) rs.
Proof. intros s G. exact (model_describes _ i m d (g_ok _ (run_good acts _ start_good)) (run_tidy acts) G). Qed.

Lemma resolved_run acts s b : resolved acts s b -> s = run_acts start_session (acts ++ [AResolve]).
Proof. intros [H _]. rewrite run_acts_app. simpl. now rewrite H. Qed.

Lemma report_problem acts s b : resolved acts s b -> exists ts,
  problem_report (fst s) (snd s) = Ok (problem_type b, ts) /\ map fst ts = dkeys (pr_models (snd s)) /\
  Forall2 (describes (pw_heap (fst s))) (b_eqs b) (List.concat (map snd ts)).
Proof.
  intros R. destruct (resolved_block _ _ _ R) as (G & B & _ & _). assert (E := resolved_run _ _ _ R).
  assert (T : wtidy (fst s)) by (rewrite E; apply run_tidy).
  unfold problem_report. rewrite (proj2 R), (bf_eqs _ _ B).
  assert (N := g_named _ G). revert N. generalize (pr_models (snd s)) as pm. clear B E.
  destruct s as [w p]. cbn [fst snd] in *. induction pm as [|[k i] pm IH]; intros N.
  - exists []. repeat split. constructor.
  - destruct (N k i (or_introl eq_refl)) as (m & d & Gm & _).
    destruct (model_describes w i m d (g_ok _ G) T Gm) as (rs & Rs & Ds).
    destruct IH as (ts & P & F & D); [intros k' i' Hin; apply N; now right|].
    cbn [map_res snd]. rewrite Gm, Rs. cbn [rbind fst]. destruct (map_res _ pm) as [l|] eqn:El; [|discriminate].
    cbn [rbind] in *. injection P as ->. eexists. split; [reflexivity|]. cbn [map fst snd dkeys List.concat dvals]. split; [now f_equal|].
    unfold equations_of. cbn [flat_map]. apply Forall2_app; [|exact D]. unfold model_of. cbn [fst]. rewrite Gm. exact Ds.
Qed.

(** The row of a new equation is about the quantities it was written with. *)
Lemma report_written w a n q check w' : run_cmd w (CEq a n q check) = (w', Ok tt) ->
  exists q' e, resolve_eq (attr_qty (w_mod w)) q = Ok q' /\ dget (eq_name e) (m_eqs (w_mod w')) = Some e /\
    dget a (m_attrs (w_mod w')) = Some (AEqn e) /\
    forall h', keeps_objects (w_heap w) h' ->
      (forall l1 l2 o1 o2, eq_occurs l1 q' -> eq_occurs l2 q' -> hget h' l1 = Some o1 -> hget h' l2 = Some o2 -> q_name o1 = q_name o2 -> l1 = l2) ->
      exists r, report_row h' e = Ok r /\ describes h' e r /\
        (forall o, uses_object h' e o <-> exists l, eq_occurs l q' /\ hget h' l = Some o).
Proof.
  intros H. cbn [run_cmd] in H.
  destruct (resolve_eq (attr_qty (w_mod w)) q) as [q'|] eqn:Eq; [|discriminate]. cbn [rbind] in H.
  destruct (build_eq (w_heap w) q') as [arg|] eqn:Eb; [|discriminate].
  destruct (create_outcome w n arg check) as [u' E]. rewrite E in H. clear E.
  destruct (set_residual _ arg) as [e0 [[]|x2]] eqn:Er; [|discriminate].
  destruct (eq_expr e0) as [nn|] eqn:En; [|discriminate]. cbv zeta in H.
  destruct (eq_data _ _ _ _ _ Eb Er) as (n' & En' & _ & T & O & M & _). assert (n' = nn) by congruence. subst n'.
  set (e2 := mkEqn (stored_name w n) (Some nn) (eq_elem e0) (eq_elementary e0) (eq_type e0) (Some (nd_smap nn)) (m_name (w_mod w))) in *.
  exists q', e2. split; [reflexivity|].
  assert (A : dget (eq_name e2) (m_eqs (w_mod w')) = Some e2 /\ dget a (m_attrs (w_mod w')) = Some (AEqn e2)).
  { destruct check; [destruct (forallb _ _)|]; try discriminate H; apply (f_equal fst) in H; cbn [fst] in H; subst w';
      cbn [w_mod m_eqs m_attrs set_attr with_attrs with_eqs eq_name e2]; split; rewrite dget_dset, String.eqb_refl; reflexivity. }
  split; [exact (proj1 A)|]. split; [exact (proj2 A)|]. intros h' K U.
  assert (T2 : tidy e2) by (exists nn; auto).
  assert (O2 : objs_ok h' (nd_smap nn)) by exact (objs_grow _ _ _ K (exact_objs _ _ _ M)).
  destruct (row_describes_objs h' e2 nn eq_refl O2 T2) as (r & R & D). exists r. split; [exact R|]. split; [exact D|].
  destruct M as (Nd & M1 & M2). intros o. split.
  - intros (d & k & l & Ed & Hin & G). injection Ed as <-. assert (Hg := in_dget_nodup _ _ _ Nd Hin). exists l. split; [exact (proj1 (M1 k l Hg))|exact G].
  - intros (l & Ol & G). destruct (M2 l Ol) as (o1 & G1 & Hd). destruct (dget (q_name o1) (nd_smap nn)) as [l'|] eqn:Eg; [|congruence].
    destruct (M1 _ _ Eg) as [Ol' (o' & G' & N')]. destruct (K l o1 G1) as (o2 & G2 & N2 & _). destruct (K l' o' G') as (o3 & G3 & N3 & _).
    assert (l' = l) by (apply (U l' l o3 o2 Ol' Ol G3 G2); congruence). subst l'.
    exists (nd_smap nn), (q_name o1), l. split; [reflexivity|]. split; [now apply dget_some_in|exact G].
Qed.

(** ** Results *)
Definition vars_known (s : SpecProblem.session) : Prop :=
  forall x l, In (x, l) (pr_vars (snd s)) -> exists q, hget (pw_heap (fst s)) l = Some q /\ q_name q = x /\ q_kind q = KVariable.
Lemma do_act_known s a : good s -> vars_known s -> vars_known (fst (do_act s a)).
Proof.
  intros [O _ _ _ _] V. destruct s as [w p]. unfold vars_known in *. destruct (do_act (w, p) a) as [[w' p'] r] eqn:E. simpl in *.
  destruct (do_act_step _ _ _ _ _ _ O E) as [S [(i & -> & -> & -> & G)|((E1 & E2 & E3) & _)]].
  - unfold add_model. destruct (get_model w i) as [[m d]|] eqn:Gi; [|congruence]. simpl.
    intros x l Hin. apply in_dupdate in Hin. destruct Hin as [Hin|Hin]; [now apply (V x)|].
    destruct (proj1 O i m d Gi) as ([_ Hv] & _). exact (Hv x l Hin).
  - rewrite E2. intros x l Hin. destruct (V x l Hin) as (q & Hq & N & K).
    destruct (as_grows _ _ S l q Hq) as (q' & Hq' & N' & K'). exists q'. repeat split; congruence.
Qed.
Lemma run_known acts : vars_known (run_acts start_session acts).
Proof.
  induction acts as [|a acts IH] using rev_ind; [intros x l []|].
  rewrite run_acts_app. simpl. apply do_act_known; [apply run_good, start_good|exact IH].
Qed.

Lemma block_known acts s b x : resolved acts s b -> In x (b_varlist b) ->
  exists l q, dget x (b_vars b) = Some l /\ hget (pw_heap (fst s)) l = Some q /\ q_name q = x /\ q_kind q = KVariable.
Proof.
  intros R Hx. destruct (resolved_block _ _ _ R) as (_ & B & _). rewrite (bf_varlist _ _ B) in Hx.
  destruct (in_keys_dget _ _ Hx) as [l Hl]. exists l. destruct (bf_vardict _ _ B) as [vs Ev].
  assert (Hin := dget_some_in _ _ _ Hl). rewrite Ev in Hin. unfold restrict in Hin. apply filter_In in Hin.
  assert (K := run_known (acts ++ [AResolve])). rewrite <- (resolved_run _ _ _ R) in K.
  destruct (K x l (proj1 Hin)) as (q & Hq). exists q. tauto.
Qed.

Lemma steady_rows pn acts s b : resolved acts s b -> proper_units (pw_heap (fst s)) -> forall out, incl (dkeys out) (b_varlist b) ->
  exists rows, result_rows pn (pw_heap (fst s)) b out = Ok rows /\ Forall2 (states_value pn (pw_heap (fst s)) b) out rows.
Proof.
  intros R U. induction out as [|[x v] out IH]; intros I; cbn [result_rows]; [exists []; split; [reflexivity|constructor]|].
  destruct (block_known _ _ _ x R) as (l & q & El & Eq & N & K); [apply I; now left|]. rewrite El, Eq.
  destruct (unit_text pn (q_units q) (U l q Eq)) as (ws & _ & Et). rewrite Et. cbn [rbind].
  destruct IH as (rows & Er & F); [intros y Hy; apply I; now right|]. rewrite Er. cbn [rbind]. eexists. split; [reflexivity|].
  constructor; [|exact F]. exists l, q. cbn [fst snd]. repeat split; assumption.
Qed.

Lemma steady_table pn st acts s b sm c d out : resolved acts s b -> proper_units (pw_heap (fst s)) ->
  sm_problem sm = Some (snd s) -> sm_output sm = Some (OutDict out) -> sm_conf sm = Some c -> opt c "is_dynamic" = Ok d -> is_true d = false ->
  incl (dkeys out) (b_varlist b) ->
  exists rows, show_results pn (pw_heap (fst s)) st sm = Ok (TSteady rows) /\ Forall2 (states_value pn (pw_heap (fst s)) b) out rows.
Proof.
  intros R U Ep Eo Ec Ed Et I. unfold show_results. rewrite Eo, Ec, Ed. cbn [rbind]. rewrite Et.
  destruct (is_empty out) eqn:Em.
  - exists []. split; [reflexivity|]. destruct out; [constructor|discriminate].
  - rewrite Ep, (proj2 R). destruct (steady_rows pn _ _ _ R U out I) as (rows & Er & F). rewrite Er. exists rows. split; [reflexivity|exact F].
Qed.

Lemma run_rows_same times : forall y, List.length times = List.length y ->
  run_rows times y = Ok (map (fun p => fst p :: snd p) (List.combine times y)).
Proof.
  induction times as [|t ts IH]; intros [|r rs] L; try discriminate L; [reflexivity|]. cbn [run_rows]. injection L as L. now rewrite (IH rs L).
Qed.
Lemma add_rows_same {A} names (rows : list (list A)) : names <> [] -> (forall r, In r rows -> List.length r = List.length names) ->
  add_rows names rows = Ok (names, rows).
Proof.
  intros N. induction rows as [|r rs IH]; intros H; [reflexivity|]. cbn [add_rows].
  replace (is_empty names) with false by (destruct names; [contradiction|reflexivity]). cbv zeta.
  rewrite (H r (or_introl eq_refl)), Nat.eqb_refl, IH by (intros x Hx; apply H; now right). reflexivity.
Qed.
Lemma strings_names ns : map_res (fun x => match x with VStr s => Ok s | _ => Raise EType end) (map VStr ns) = Ok ns.
Proof. induction ns as [|n ns IH]; cbn [map map_res]; [reflexivity|]. cbn [rbind]. rewrite IH. reflexivity. Qed.

Lemma run_table pn h st sm c d times y names : sm_output sm = Some (OutRun times y) -> sm_conf sm = Some c ->
  opt c "is_dynamic" = Ok d -> is_true d = true -> opt c "output_headers" = Ok (VList (map VStr names)) ->
  NoDup names -> names <> [] -> List.length times = List.length y -> (forall r, In r y -> S (List.length r) = List.length names) ->
  show_results pn h st sm = Ok (TRun names (map (fun p => fst p :: snd p) (List.combine times y))).
Proof.
  intros Eo Ec Ed Et Eh N N0 L W. unfold show_results. rewrite Eo, Ec, Ed. cbn [rbind]. rewrite Et, Eh. cbn [rbind].
  unfold header_names. rewrite strings_names. cbn [rbind].
  replace (nodup string_dec names) with names by (symmetry; now apply nodup_fixed_point). rewrite Nat.eqb_refl. cbn [rbind].
  rewrite (run_rows_same _ _ L). cbn [rbind]. rewrite add_rows_same; [reflexivity|exact N0|].
  intros r Hr. apply in_map_iff in Hr. destruct Hr as ([t z] & <- & Hin). apply in_combine_r in Hin. simpl. now apply W.
Qed.

(** Without headers there is no table. *)
Lemma run_table_none pn h st sm c d times y : sm_output sm = Some (OutRun times y) -> sm_conf sm = Some c ->
  opt c "is_dynamic" = Ok d -> is_true d = true -> opt c "output_headers" = Ok VNone -> show_results pn h st sm = Raise EType.
Proof. intros Eo Ec Ed Et Eh. unfold show_results. rewrite Eo, Ec, Ed. cbn [rbind]. rewrite Et, Eh. reflexivity. Qed.

(** ** Residuals *)
Lemma bind_results (out : dict R) : NoDup (dkeys out) -> bind_env (results_dict out) = bind_env out.
Proof.
  intros N. destruct (results_same out N) as [_ D]. unfold bind_env. f_equal. apply FunctionalExtensionality.functional_extensionality.
  intros x. now rewrite D.
Qed.

Lemma rows_residual m es : forall xs, map_res (fun e => get_symbolic e None SRhs) es = Ok xs -> (forall e, In e es -> eq_elementary e = false) ->
  (forall x, In x xs -> is_raw x = false /\ closed (dkeys m) x = true) ->
  exists rows, residual_rows es xs m = Ok rows /\ Forall2 (states_residual (bind_env m)) es rows.
Proof.
  induction es as [|e es IH]; intros xs H El C; cbn [map_res] in H.
  - injection H as <-. exists []. split; [reflexivity|constructor].
  - destruct (get_symbolic e None SRhs) as [x|] eqn:Ex; [|discriminate]. cbn [rbind] in H.
    destruct (map_res _ es) as [xs'|] eqn:Exs; [|discriminate]. cbn [rbind] in H. injection H as <-.
    destruct (IH xs' eq_refl) as (rows & Er & F); [intros y Hy; apply El; now right|intros y Hy; apply C; now right|].
    destruct (C x (or_introl eq_refl)) as [Ra Cl]. cbn [residual_rows]. rewrite Ra, Er. cbn [rbind]. eexists. split; [reflexivity|].
    constructor; [|exact F]. split; [reflexivity|]. unfold get_symbolic in Ex. rewrite (El e (or_introl eq_refl)) in Ex.
    destruct (eq_expr e) as [n|]; [|discriminate]. exists n. split; [reflexivity|]. injection Ex as <-. cbn [snd]. unfold eval_at. now rewrite Cl.
Qed.

Lemma residuals_shown fx acts s b out : resolved acts s b -> forallb (ordinary fx) acts = true -> called_then_added acts ->
  (forall e, In e (b_eqs b) -> eq_elementary e = false) -> (forall x, In x (b_exprs b) -> has_der x = false /\ is_raw x = false) ->
  NoDup (dkeys out) -> incl (b_varlist b) (dkeys out) ->
  exists rows, final_residuals b out = Ok rows /\ Forall2 (states_residual (bind_env out)) (b_eqs b) rows.
Proof.
  intros R P C El D N I. destruct (resolved_block _ _ _ R) as (_ & B & _). unfold final_residuals.
  rewrite <- (bind_results out N). apply (rows_residual _ _ _ (bf_list _ _ B) El). intros x Hx. destruct (D x Hx) as [Dx Rx].
  split; [exact Rx|]. unfold closed. rewrite Dx, Bool.andb_true_r. apply forallb_forall. intros y Hy. apply existsb_exists. exists y.
  split; [|apply String.eqb_refl]. destruct (results_same out N) as [_ G].
  assert (Hin : In y (dkeys out)) by (apply I; exact (exprs_closed fx _ _ _ R P C x Hx y Hy)).
  destruct (in_keys_dget _ _ Hin) as [v Hv]. rewrite <- G in Hv. now apply dget_in_keys in Hv.
Qed.

(** At a solution all residuals shown are zero. *)
Lemma residuals_zero fx acts s b out : resolved acts s b -> forallb (ordinary fx) acts = true -> called_then_added acts ->
  (forall e, In e (b_eqs b) -> eq_elementary e = false) -> (forall x, In x (b_exprs b) -> has_der x = false /\ is_raw x = false) ->
  NoDup (dkeys out) -> incl (b_varlist b) (dkeys out) -> (forall e, In e (b_eqs b) -> SpecSolver.holds (bind_env out) e) ->
  final_residuals b out = Ok (map (fun e => (eq_name e, Some 0%R)) (b_eqs b)).
Proof.
  intros R P C El D N I H. destruct (residuals_shown fx _ _ _ out R P C El D N I) as (rows & E & F). rewrite E. f_equal.
  clear - F H. induction F as [|e [a v] es rows [E1 (n & En & E2)] F IH]; [reflexivity|]. cbn [map fst snd] in *. f_equal.
  - destruct (H e (or_introl eq_refl)) as (n' & En' & Hn). assert (n' = n) by congruence. subst n'. congruence.
  - apply IH. intros x Hx. apply H. now right.
Qed.

(** ** Plots *)
Section Plots.
Context {V : Type}.

Lemma items_named (d : domain V) t ns : d_values d <> None -> (forall n, In n ns -> column d t (LName n) <> None) ->
  exists cs, domain_getitem d (NOne t) (NMany ns) = Ok cs /\ Forall2 (fun n c => column d t (LName n) = Some c) ns cs.
Proof.
  intros Hv. unfold domain_getitem. cbn [names_list list_prod]. rewrite app_nil_r. induction ns as [|n ns IH]; intros H.
  - exists []. split; [reflexivity|constructor].
  - cbn [map map_res fst snd]. destruct (d_values d) eqn:Ev; [|contradiction].
    destruct (column d t (LName n)) as [c|] eqn:Ec; [|now destruct (H n (or_introl eq_refl))]. cbn [rbind].
    destruct IH as (cs & E & F); [intros z Hz; apply H; now right|]. rewrite E. cbn [rbind]. exists (c :: cs). split; [reflexivity|now constructor].
Qed.
Lemma item_named (d : domain V) t n c : d_values d <> None -> column d t (LName n) = Some c -> domain_getitem d (NOne t) (NOne n) = Ok [c].
Proof.
  intros Hv Hc. unfold domain_getitem. cbn [names_list list_prod map map_res fst snd app]. destruct (d_values d); [|contradiction]. now rewrite Hc.
Qed.

Lemma plot_curves x labels markers : (markers = None \/ exists ms, markers = Some ms /\ (List.length labels <= List.length ms)%nat) -> x <> [] ->
  forall ys i, (i + List.length ys <= List.length labels)%nat -> (forall y, In y ys -> List.length y = List.length x) ->
  exists cs, map_res (fun jb => plot_one x (snd jb) markers (Some labels) (fst jb)) (List.combine (seq i (List.length ys)) ys) = Ok cs /\
    List.length cs = List.length ys /\
    forall j y, nth_error ys j = Some y -> exists l (c : curve V), nth_error labels (i + j) = Some l /\ nth_error cs j = Some c /\ is_curve x y l c.
Proof.
  intros M Nx. induction ys as [|y ys IH]; intros i L W.
  - exists []. split; [reflexivity|]. split; [reflexivity|]. intros [|j] y H; discriminate H.
  - cbn [List.length] in L. cbn [List.length seq List.combine map_res fst snd].
    destruct (nth_error labels i) as [l|] eqn:El; [|apply nth_error_None in El; lia].
    assert (Hm : exists mk, match markers with None => Ok None
             | Some l => match nth_error l i with Some s => Ok (Some s) | None => Raise EIndex end end = Ok mk).
    { destruct M as [->|(ms & -> & Lm)]; [eauto|]. destruct (nth_error ms i) eqn:Em; [eauto|]. apply nth_error_None in Em. lia. }
    destruct Hm as [mk Hm]. unfold plot_one at 1. rewrite Hm. cbn [rbind]. rewrite El. cbn [rbind].
    rewrite (W y (or_introl eq_refl)), Nat.eqb_refl. replace (is_empty x) with false by (destruct x; [contradiction|reflexivity]). cbn [rbind].
    destruct (IH (S i)) as (cs & E & Lc & F); [lia|intros z Hz; apply W; now right|]. rewrite E. cbn [rbind].
    eexists. split; [reflexivity|]. split; [simpl; now rewrite Lc|]. intros [|j] y' H; cbn [nth_error] in *.
    + injection H as <-. exists l. eexists. replace (i + 0)%nat with i by lia. split; [exact El|]. split; [reflexivity|]. now repeat split.
    + destruct (F j y' H) as (l' & c & A & B). exists l', c. replace (i + S j)%nat with (S i + j)%nat by lia. auto.
Qed.

Lemma plot_named (d : domain V) t ts x cx ys labels markers : d_ind d = t :: ts -> d_values d <> None ->
  column d t (LName x) = Some cx -> cx <> [] ->
  (forall n, In n ys -> exists c, column d t (LName n) = Some c /\ List.length c = List.length cx) ->
  (List.length ys <= List.length labels)%nat -> (markers = None \/ exists ms, markers = Some ms /\ (List.length labels <= List.length ms)%nat) ->
  exists cs, plot_time_series (PName x) (PNames ys) (Some labels) markers (Some d) = Ok cs /\ List.length cs = List.length ys /\
    forall j n, nth_error ys j = Some n -> exists l c (cu : curve V), nth_error labels j = Some l /\ column d t (LName n) = Some c /\
      nth_error cs j = Some cu /\ is_curve cx c l cu.
Proof.
  intros Ei Ev Ex Nx Hy L M. unfold plot_time_series. cbn [fetch]. rewrite Ei, (item_named d t x cx Ev Ex). cbn [rbind].
  destruct (items_named d t ys Ev) as (cols & E & F).
  { intros n Hn. destruct (Hy n Hn) as (c & Hc & _). congruence. }
  rewrite E. cbn [rbind].
  assert (Lc : List.length cols = List.length ys) by (clear - F; induction F; simpl; congruence).
  destruct (plot_curves cx labels markers M Nx cols 0%nat) as (cs & Ecs & Ls & G).
  { simpl. lia. }
  { intros c Hc. destruct (In_nth_error _ _ Hc) as [j Hj]. destruct (nth_error ys j) as [n|] eqn:En.
    - assert (X := Hy n (nth_error_In _ _ En)). destruct X as (c' & Hc' & Lc').
      enough (column d t (LName n) = Some c) by congruence. clear - F Hj En. revert j Hj En.
      induction F as [|n0 c0 ys cols Hcol F IH]; intros [|j] Hj En; try discriminate; cbn [nth_error] in *; [|eauto].
      injection Hj as ->. injection En as ->. exact Hcol.
    - apply nth_error_None in En. assert (nth_error cols j <> None) by congruence. apply nth_error_Some in H. lia. }
  cbn [map_res]. rewrite Ecs. cbn [rbind List.concat]. rewrite app_nil_r. exists cs. split; [reflexivity|]. split; [lia|].
  intros j n Hn. destruct (nth_error cols j) as [c|] eqn:Ec.
  - destruct (G j c Ec) as (l & cu & A & B & D). exists l, c, cu. split; [exact A|]. split; [|auto].
    clear - F Ec Hn. revert j Ec Hn. induction F as [|n0 c0 ys cols Hcol F IH]; intros [|j] Ec Hn; try discriminate; cbn [nth_error] in *; [|eauto].
    injection Ec as ->. injection Hn as ->. exact Hcol.
  - apply nth_error_None in Ec. assert (X : nth_error ys j <> None) by congruence. apply nth_error_Some in X. lia.
Qed.

(** The curves of a recorded run: time against the trajectories of the variables
    asked for. *)
Lemma plot_recorded (d d' : domain V) t times y names ys labels : cleared d -> d_ind d = [t] -> mx_ok y -> record_run d times y names = (d', Ok tt) ->
  NoDup (map (header names) (d_ind d ++ d_dep d)) -> times <> [] -> dget t names = None -> (List.length ys <= List.length labels)%nat ->
  (forall n, In n ys -> exists x, In x (d_dep d) /\ header names x = n) ->
  exists cs, plot_time_series (PName t) (PNames ys) (Some labels) None (Some d') = Ok cs /\ List.length cs = List.length ys /\
    forall i n j x, nth_error ys i = Some n -> nth_error (d_dep d) j = Some x -> header names x = n ->
      exists l col (cu : curve V), nth_error labels i = Some l /\ trajectory j (mx_rows y) col /\ nth_error cs i = Some cu /\ is_curve times col l cu.
Proof.
  intros C I O E N Nt Nn L Hy. destruct (record_exact d t times y names d' C I O E N) as (I' & _ & _ & Lt & Ct & Cx).
  assert (Rt : header names t = t) by (unfold header; now rewrite Nn). rewrite Rt in Ct.
  assert (Tl : forall j col, trajectory j (mx_rows y) col -> List.length col = List.length times).
  { intros j col T. rewrite Lt. unfold trajectory in T. clear - T. induction T; simpl; congruence. }
  destruct (plot_named d' t [] t times ys labels None) as (cs & Ecs & Ls & F); try assumption.
  - now rewrite I', I.
  - intros Hv. unfold column in Ct. rewrite Hv in Ct. discriminate Ct.
  - intros n Hn. destruct (Hy n Hn) as (x & Hx & R). destruct (In_nth_error _ _ Hx) as [j Hj]. destruct (Cx j x Hj) as (col & Ec & T).
    rewrite R in Ec. exists col. split; [exact Ec|exact (Tl j col T)].
  - now left.
  - exists cs. split; [exact Ecs|]. split; [exact Ls|]. intros i n j x Hi Hj R. destruct (F i n Hi) as (l & c & cu & A & B & D & G).
    destruct (Cx j x Hj) as (col & Ec & T). rewrite R in Ec. assert (c = col) by congruence. subst c. exists l, col, cu. auto.
Qed.

Lemma plot_unlabelled x (y : list V) ys markers : exists e,
  plot_time_series (PCols [x]) (PCols (y :: ys)) None markers None = Raise e /\ (markers = None -> e = EType).
Proof.
  unfold plot_time_series. cbn [rbind map_res List.length seq List.combine fst snd]. unfold plot_one at 1.
  destruct markers as [[|m ms]|]; cbn [nth_error rbind]; eexists; (split; [reflexivity|]); intros H; try discriminate H; reflexivity.
Qed.
End Plots.

Lemma whole_tells pn u v : honest_print pn -> a_unit u -> a_unit v -> whole u -> whole v -> si_only u ->
  (unit_str pn u = unit_str pn v <-> same_dimension u v).
Proof.
  intros P Au Av Wu Wv Su. split; [|exact (whole_text pn u v Au Av Wu Wv)]. intros E.
  destruct (unit_text pn u Au) as (l & _ & T). rewrite E in T. assert (T' := T). rewrite <- E in T'.
  intros k x y r s Ex Ey. exact (text_tells pn u v _ P Au Av T' T k x y r s (Su k ltac:(congruence)) Ex Ey).
Qed.
