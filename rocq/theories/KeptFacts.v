(** Proofs: incorporation without renaming (C22). *)
From Verif Require Import Base BaseFacts Num UnitModel Sympy Node Build EquationModel ModelModel SpecUnits SpecExpr SpecQty
  SpecModel SpecInc BuildFacts EquationFacts ModelFacts IncFacts ComposeFacts.
From Coq Require Import Reals.
Notation num := Verif.Num.num.

Lemma kept_one kd h m l q h' m' : kd <> KQuantity -> add_of kd h m l false = (h', m', Ok tt) -> hget h l = Some q ->
  h' = h ++ [reown q (m_name m) false] /\ m_name m' = m_name m /\ m_eqs m' = m_eqs m /\
  reg kd m' = dset (q_name q) (List.length h) (reg kd m) /\ forall k, k <> kd -> reg k m' = reg k m.
Proof.
  intros Nk H G. destruct kd; [congruence|..]; cbn [add_of] in H; unfold add_variable, add_parameter, add_constant in H; rewrite G in H.
  1: destruct (q_exposed q); [discriminate|].
  all: injection H as <- <-; split; [reflexivity|]; split; [reflexivity|]; split; [reflexivity|]; split; [reflexivity|]; intros []; try reflexivity; congruence.
Qed.

Lemma kept_many kd ls : kd <> KQuantity -> forall h m h' m', add_all (add_of kd) h m ls false = (h', m', Ok tt) ->
  (forall l, In l ls -> exists q, hget h l = Some q) ->
  m_name m' = m_name m /\ m_eqs m' = m_eqs m /\ (exists t, h' = h ++ t) /\ (forall k, k <> kd -> reg k m' = reg k m) /\
  (forall x, dget x (reg kd m') = dget x (reg kd m) \/
     exists l q l', In l ls /\ hget h l = Some q /\ q_name q = x /\ dget x (reg kd m') = Some l' /\ (List.length h <= l')%nat /\ hget h' l' = Some (reown q (m_name m) false)) /\
  (forall l q, In l ls -> hget h l = Some q -> exists l0 q0 l', In l0 ls /\ hget h l0 = Some q0 /\ q_name q0 = q_name q /\
     dget (q_name q) (reg kd m') = Some l' /\ (List.length h <= l')%nat /\ hget h' l' = Some (reown q0 (m_name m) false)).
Proof.
  intros Nk. induction ls as [|l ls IH]; intros h m h' m' H He; cbn [add_all] in H.
  - injection H as <- <-. split; [reflexivity|]. split; [reflexivity|]. split; [exists []; now rewrite app_nil_r|]. split; [reflexivity|].
    split; [intros x; now left|]. intros l q [].
  - destruct (add_of kd h m l false) as [[h1 m1] [[]|]] eqn:E; [|discriminate]. destruct (He l (or_introl eq_refl)) as [q G].
    destruct (kept_one kd h m l q h1 m1 Nk E G) as (-> & N1 & E1 & R1 & O1).
    destruct (IH _ m1 h' m' H) as (N2 & E2 & (t & T2) & O2 & K2 & A2).
    { intros l2 H2. destruct (He l2 (or_intror H2)) as [q2 G2]. exists q2. now apply hget_app. }
    rewrite N1 in *.
    assert (Back : forall l2 q2, In l2 ls -> hget (h ++ [reown q (m_name m) false]) l2 = Some q2 -> hget h l2 = Some q2).
    { intros l2 q2 H2 G2. destruct (He l2 (or_intror H2)) as [q3 G3]. assert (X := hget_app h [reown q (m_name m) false] _ _ G3). congruence. }
    assert (New : hget h' (List.length h) = Some (reown q (m_name m) false)).
    { subst h'. apply hget_app. unfold hget. rewrite nth_error_app2, Nat.sub_diag by lia. reflexivity. }
    split; [exact N2|]. split; [congruence|]. split; [exists ([reown q (m_name m) false] ++ t); subst h'; symmetry; apply app_assoc|].
    split; [intros k Hk; rewrite O2, O1 by exact Hk; reflexivity|]. split.
    + intros x. destruct (K2 x) as [U|(l2 & q2 & l' & X1 & X2 & X3 & X4 & X5)].
      * rewrite U, R1. destruct (String.eqb_spec x (q_name q)) as [->|Ne]; [|left; now apply dget_dset_neq].
        right. exists l, q, (List.length h). split; [now left|]. split; [exact G|]. split; [reflexivity|]. split; [apply dget_dset_eq|split; [lia|exact New]].
      * right. exists l2, q2, l'. split; [now right|]. split; [exact (Back _ _ X1 X2)|]. rewrite app_length in X5. destruct X5. repeat split; auto; lia.
    + intros l2 q2 [<-|H2] G2.
      * assert (q2 = q) by congruence. subst q2. destruct (K2 (q_name q)) as [U|(l3 & q3 & l' & X1 & X2 & X3 & X4 & X5)].
        -- exists l, q, (List.length h). split; [now left|]. split; [exact G|]. split; [reflexivity|]. split; [rewrite U, R1; apply dget_dset_eq|split; [lia|exact New]].
        -- exists l3, q3, l'. split; [now right|]. split; [exact (Back _ _ X1 X2)|]. rewrite app_length in X5. destruct X5. repeat split; auto; lia.
      * destruct (A2 l2 q2 H2 (hget_app _ _ _ _ G2)) as (l0 & q0 & l' & X1 & X2 & X3 & X4 & X5). exists l0, q0, l'. split; [now right|].
        split; [exact (Back _ _ X1 X2)|]. rewrite app_length in X5. destruct X5. repeat split; auto; lia.
Qed.

Lemma pick_inv w ks d : pick_all w ks = Ok d -> forall k, In k ks -> In k (dkeys w).
Proof.
  revert d. induction ks as [|k ks IH]; intros d H k' Hk; [destruct Hk|]. cbn [pick_all] in H. destruct (dget k w) as [l|] eqn:E; [|discriminate].
  destruct (pick_all w ks) as [d'|] eqn:P; [|discriminate]. destruct Hk as [<-|Hk]; [now apply dget_in_keys in E|exact (IH d' eq_refl k' Hk)].
Qed.

Lemma kept_equations host names w es : forall m m', m_name m = host ->
  add_equations m (dvals es) names w false = (m', Ok tt) -> NoDup (dkeys es) -> (forall k e, In (k, e) es -> eq_name e = k) ->
  m_name m' = m_name m /\ (forall kd, reg kd m' = reg kd m) /\ forall k e, In (k, e) es -> exists e' n r s sm, dget k (m_eqs m') = Some e' /\ eq_name e' = k /\ eq_owner e' = host /\
    eq_expr e = Some n /\ subs_obj names (nd_repr n) = Ok r /\ subs_obj names (nd_sym n) = Ok s /\ pick_all w (uniq (fsyms r)) = Ok sm /\ eq_expr e' = Some (node_with n s r sm) /\
    eq_type e' = eq_type e.
Proof.
  induction es as [|[k e] es IH]; intros m m' Hn H ND Hk; unfold dvals in H; cbn [map snd add_equations] in H.
  - injection H as <-. split; [reflexivity|]. split; [reflexivity|]. intros k e [].
  - destruct (add_equation m e names w false) as [m1 [[]|]] eqn:E; [|discriminate]. unfold add_equation in E.
    destruct (convert_symbolic _ _ _) as [e2|] eqn:C; [|discriminate]. injection E as <-. unfold dkeys in ND. cbn [map fst] in ND. apply NoDup_cons_iff in ND. destruct ND as [Ni ND].
    set (m1 := set_attr _ _ _) in *.
    assert (C2 : exists n r s sm, eq_expr e = Some n /\ subs_obj names (nd_repr n) = Ok r /\ subs_obj names (nd_sym n) = Ok s /\
               pick_all w (uniq (fsyms r)) = Ok sm /\ eq_expr e2 = Some (node_with n s r sm) /\ eq_name e2 = eq_name e /\ eq_owner e2 = m_name m /\ eq_type e2 = eq_type e).
    { unfold convert_symbolic in C. cbn [with_eowner with_ename eq_expr eq_elem eq_name eq_elementary eq_type eq_owner] in C. destruct (eq_expr e) as [n|]; [|discriminate].
      destruct (subs_obj names (nd_repr n)) as [r|] eqn:Er; [|discriminate]. cbn [rbind] in C. destruct (subs_obj names (nd_sym n)) as [s|] eqn:Es; [|discriminate]. cbn [rbind] in C.
      match type of C with rbind ?a _ = _ => destruct a; [|discriminate C] end. cbn [rbind] in C. destruct (pick_all w (uniq (fsyms r))) as [sm|] eqn:Ep; [|discriminate]. cbn [rbind] in C.
      injection C as <-. exists n, r, s, sm. cbn. auto 10. }
    destruct C2 as (n & r & s & sm & X1 & X2 & X3 & X4 & X5 & X6 & X7 & X8).
    assert (Ek := Hk k e (or_introl eq_refl)).
    assert (Others : forall es m1 m', add_equations m1 (dvals es) names w false = (m', Ok tt) -> (forall k e, In (k, e) es -> eq_name e = k) -> forall x, ~ In x (dkeys es) -> dget x (m_eqs m') = dget x (m_eqs m1)).
    { clear. induction es as [|[k e] es IH]; intros m1 m' H Hk x Hx; unfold dvals in H; cbn [map snd add_equations] in H; [now injection H as <-|].
      destruct (add_equation m1 e names w false) as [m2 [[]|]] eqn:E; [|discriminate]. unfold add_equation in E.
      destruct (convert_symbolic _ _ _) as [e2|] eqn:C; [|discriminate]. injection E as <-. rewrite (IH _ _ H (fun k e Hin => Hk k e (or_intror Hin)) x).
      - cbn [set_attr with_attrs with_eqs m_eqs]. apply dget_dset_neq. apply convert_names in C. destruct C as [C _]. cbn [with_eowner with_ename eq_name] in C.
        intros ->. apply Hx. left. cbn [fst]. rewrite C. symmetry. apply Hk. now left.
      - intros Hin. apply Hx. now right. }
    destruct (IH m1 m') as (N2 & R2 & A2); [exact Hn|exact H|exact ND|intros k' e' Hin; exact (Hk k' e' (or_intror Hin))|].
    split; [exact N2|]. split; [intros kd; rewrite R2; destruct kd; reflexivity|].
    intros k' e' [Eq|Hin]; [|exact (A2 k' e' Hin)]. injection Eq as <- <-. exists e2, n, r, s, sm.
    split; [|split; [congruence|split; [congruence|split; [exact X1|split; [exact X2|split; [exact X3|split; [exact X4|split; [exact X5|exact X8]]]]]]]].
    rewrite (Others es m1 m' H (fun k e Hin => Hk k e (or_intror Hin)) k Ni). unfold m1. cbn [set_attr with_attrs with_eqs m_eqs]. rewrite X6, Ek. apply dget_dset_eq.
Qed.

Lemma whole_keys m x : In x (dkeys (whole_objects m)) -> In x (declared m).
Proof. unfold whole_objects, declared. rewrite !in_dkeys_dupdate. cbn. rewrite ?in_app_iff. tauto. Qed.

Lemma kept_some kd dd (b : bool) h m h' m' host : kd <> KQuantity ->
  (if b then add_all (add_of kd) h m (dvals dd) false else (h, m, Ok tt)) = (h', m', Ok tt) -> m_name m = host ->
  (exists model, objects_ok h model dd) ->
  m_name m' = host /\ m_eqs m' = m_eqs m /\ (exists t, h' = h ++ t) /\ (forall k, k <> kd -> reg k m' = reg k m) /\
  if b then kept_copies h h' host dd (reg kd m) (reg kd m') else reg kd m' = reg kd m.
Proof.
  intros Nk H Hn (model & ND & Ok1). destruct b.
  2: { injection H as <- <-. split; [exact Hn|]. split; [reflexivity|]. split; [exists []; now rewrite app_nil_r|]. now split. }
  assert (Ex : forall l, In l (dvals dd) -> exists k q, In (k, l) dd /\ hget h l = Some q /\ q_name q = k).
  { intros l Hl. unfold dvals in Hl. apply in_map_iff in Hl. destruct Hl as ([k l'] & E & Hin). cbn in E. subst l'.
    destruct (Ok1 k l Hin) as (q & a & G & N & _). now exists k, q. }
  destruct (kept_many kd (dvals dd) Nk h m h' m' H) as (N2 & E2 & T2 & O2 & K2 & A2).
  { intros l Hl. destruct (Ex l Hl) as (k & q & _ & G & _). now exists q. }
  split; [congruence|]. split; [exact E2|]. split; [exact T2|]. split; [exact O2|]. split.
  - intros k l q Hd G. assert (Hin := dget_some_in _ _ _ Hd). destruct (Ok1 k l Hin) as (q1 & a & G1 & N1 & _). assert (q1 = q) by congruence. subst q1.
    destruct (A2 l q) as (l0 & q0 & l' & X1 & X2 & X3 & X4 & X6 & X5).
    { unfold dvals. apply in_map_iff. now exists (k, l). } { exact G. }
    destruct (Ex l0 X1) as (k0 & q0' & Y1 & Y2 & Y3). assert (q0' = q0) by congruence. subst q0'.
    assert (k0 = k) by congruence. subst k0. assert (Z := in_dget_nodup _ _ _ ND Y1). assert (q0 = q) by congruence. subst q0.
    exists l', (reown q (m_name m) false). rewrite <- N1. split; [exact X4|]. split; [exact X5|]. split; [exact X6|]. cbn. rewrite Hn. repeat split.
  - intros k Hk. destruct (K2 k) as [U|(l0 & q0 & l' & X1 & X2 & X3 & _)]; [exact U|]. destruct (Ex l0 X1) as (k0 & q0' & Y1 & Y2 & Y3).
    exfalso. apply Hk. assert (H0 : k0 = k) by congruence. rewrite <- H0. exact (in_map fst _ _ Y1).
Qed.

Lemma kept_later h t h' host old before cur : kept_copies h (h ++ t) host old before cur -> (exists u, h' = (h ++ t) ++ u) -> kept_copies h h' host old before cur.
Proof.
  intros [A B] [u ->]. split; [|exact B]. intros k l q H1 H2. destruct (A k l q H1 H2) as (l' & q' & X1 & X2 & X3). exists l', q'. split; [exact X1|]. split; [now apply hget_app|exact X3].
Qed.
Lemma kept_earlier h t h' host old before cur model : objects_ok h model old -> kept_copies (h ++ t) h' host old before cur -> kept_copies h h' host old before cur.
Proof.
  intros _ [A B]. split; [|exact B]. intros k l q H1 H2. destruct (A k l q H1 (hget_app _ _ _ _ H2)) as (l' & q' & X1 & X2 & X3 & X4). exists l', q'. split; [exact X1|]. split; [exact X2|].
  split; [rewrite app_length in X3; lia|exact X4].
Qed.

(** The three steps before the equations. *)
Lemma kept_stages h m d f h' m' : donor_ok h d -> i_rewrite f = false -> incorporate h m d f = (h', m', Ok tt) ->
  exists m3, m_name m3 = m_name m /\ m_eqs m3 = m_eqs m /\ (exists t, h' = h ++ t) /\
    (if i_vars f then kept_copies h h' (m_name m) (m_vars d) (m_vars m) (m_vars m3) else m_vars m3 = m_vars m) /\
    (if i_pars f then kept_copies h h' (m_name m) (m_pars d) (m_pars m) (m_pars m3) else m_pars m3 = m_pars m) /\
    (if i_cons f then kept_copies h h' (m_name m) (m_cons d) (m_cons m) (m_cons m3) else m_cons m3 = m_cons m) /\
    if i_eqs f then add_equations m3 (dvals (m_eqs d)) (names_map d (m_name m)) (whole_objects m3) false = (m', Ok tt) else m' = m3.
Proof.
  intros (_ & O1 & O2 & O3 & _) Rw H. unfold incorporate in H. rewrite Rw in H.
  destruct (if i_vars f then _ else _) as [[h1 m1] [[]|]] eqn:E1; [|discriminate].
  destruct (if i_pars f then _ else _) as [[h2 m2] [[]|]] eqn:E2; [|discriminate].
  destruct (if i_cons f then _ else _) as [[h3 m3] [[]|]] eqn:E3; [|discriminate].
  destruct (kept_some KVariable (m_vars d) (i_vars f) h m h1 m1 (m_name m)) as (N1 & Q1 & [t1 T1] & P1 & K1); [discriminate|exact E1|reflexivity|eexists; exact O1|]. subst h1.
  destruct (kept_some KParameter (m_pars d) (i_pars f) (h ++ t1) m1 h2 m2 (m_name m)) as (N2 & Q2 & [t2 T2] & P2 & K2);
    [discriminate|exact E2|exact N1|eexists; apply objects_exist; exact O2|]. subst h2.
  destruct (kept_some KConstant (m_cons d) (i_cons f) ((h ++ t1) ++ t2) m2 h3 m3 (m_name m)) as (N3 & Q3 & [t3 T3] & P3 & K3);
    [discriminate|exact E3|exact N2|eexists; apply objects_exist, objects_exist; exact O3|]. subst h3.
  assert (h' = ((h ++ t1) ++ t2) ++ t3) as -> by (destruct (i_eqs f); [destruct (add_equations _ _ _ _ _) as [m4 r]|]; now injection H as <- _).
  exists m3. split; [exact N3|]. split; [congruence|]. split; [exists (t1 ++ t2 ++ t3); now rewrite <- !app_assoc|].
  assert (V : m_vars m3 = m_vars m1) by (change (reg KVariable m3 = reg KVariable m1); rewrite P3, P2 by discriminate; reflexivity).
  assert (Pa : m_pars m3 = m_pars m2) by (change (reg KParameter m3 = reg KParameter m2); now rewrite P3 by discriminate).
  assert (Pb : m_pars m1 = m_pars m) by (change (reg KParameter m1 = reg KParameter m); now rewrite P1 by discriminate).
  assert (Ca : m_cons m2 = m_cons m) by (change (reg KConstant m2 = reg KConstant m); rewrite P2, P1 by discriminate; reflexivity).
  cbn [reg] in K1, K2, K3. rewrite V, Pa, <- Pb, <- Ca.
  split; [destruct (i_vars f); [|exact K1]; apply (kept_later h t1); [exact K1|exists (t2 ++ t3); now rewrite !app_assoc]|].
  split; [destruct (i_pars f); [|exact K2]; apply (kept_earlier h t1 _ _ _ _ _ _ O2); apply (kept_later (h ++ t1) t2); [exact K2|now exists t3]|].
  split; [destruct (i_cons f); [|exact K3]; apply (kept_earlier h (t1 ++ t2) _ _ _ _ _ _ O3); rewrite app_assoc; exact K3|].
  destruct (i_eqs f); [|now injection H as <-]. rewrite N3 in H. destruct (add_equations _ _ _ _ _) as [m4 r]. now injection H as <- ->.
Qed.

Lemma kept_names h m d f h' m' : donor_ok h d -> i_rewrite f = false -> incorporate h m d f = (h', m', Ok tt) ->
  m_name m' = m_name m /\ (forall l q, hget h l = Some q -> hget h' l = Some q) /\
  (if i_vars f then kept_copies h h' (m_name m) (m_vars d) (m_vars m) (m_vars m') else m_vars m' = m_vars m) /\
  (if i_pars f then kept_copies h h' (m_name m) (m_pars d) (m_pars m) (m_pars m') else m_pars m' = m_pars m) /\
  (if i_cons f then kept_copies h h' (m_name m) (m_cons d) (m_cons m) (m_cons m') else m_cons m' = m_cons m).
Proof.
  intros Hd Rw H. destruct (kept_stages _ _ _ _ _ _ Hd Rw H) as (m3 & N3 & Q3 & [t ->] & K1 & K2 & K3 & E).
  destruct Hd as (_ & _ & _ & _ & _ & NDe & Hk). destruct (i_eqs f).
  - destruct (kept_equations (m_name m3) _ _ (m_eqs d) m3 m' eq_refl E NDe (fun k e Hin => proj1 (Hk k e Hin))) as (N4 & R4 & _).
    rewrite (R4 KVariable : m_vars m' = m_vars m3), (R4 KParameter : m_pars m' = m_pars m3), (R4 KConstant : m_cons m' = m_cons m3).
    split; [congruence|]. split; [intros l q; apply hget_app|]. auto.
  - subst m'. split; [exact N3|]. split; [intros l q; apply hget_app|]. auto.
Qed.

Lemma kept_eqs h m d f h' m' : donor_ok h d -> no_capture d (m_name m) -> i_rewrite f = false -> i_eqs f = true -> incorporate h m d f = (h', m', Ok tt) ->
  forall k e, dget k (m_eqs d) = Some e -> exists e' n n', dget k (m_eqs m') = Some e' /\ eq_name e' = k /\ eq_owner e' = m_name m /\ eq_type e' = eq_type e /\
    eq_expr e = Some n /\ eq_expr e' = Some n' /\
    (forall en en', renamed_env d (m_name m) en en' -> den (nd_sym n') en' = den (nd_sym n) en /\ den (nd_repr n') en' = den (nd_repr n) en) /\
    incl (map (new_name d (m_name m)) (fsyms (nd_repr n))) (declared m').
Proof.
  intros Hd Nc Rw Ie H k e Hg. assert (Hd' := Hd). destruct (kept_stages _ _ _ _ _ _ Hd Rw H) as (m3 & N3 & Q3 & _ & _ & _ & _ & E). rewrite Ie in E.
  destruct Hd as (_ & _ & _ & _ & _ & NDe & Hk). assert (Hin := dget_some_in _ _ _ Hg).
  destruct (kept_equations (m_name m3) _ _ (m_eqs d) m3 m' eq_refl E NDe (fun k e Hin => proj1 (Hk k e Hin))) as (N4 & R4 & A4).
  destruct (A4 k e Hin) as (e' & n & r & s & sm & X1 & X2 & X3 & X4 & X5 & X6 & X7 & X8 & X9).
  destruct (Hk k e Hin) as (_ & _ & _ & ((n1 & Y1 & Y2 & Y3 & _) & _)). assert (n1 = n) by congruence. subst n1.
  unfold subs_obj in X5, X6. rewrite Y3 in X5. rewrite Y2 in X6. injection X5 as <-. injection X6 as <-.
  rewrite (subs_names h d (m_name m) _ Hd' Nc) in X7, X8. rewrite (subs_names h d (m_name m) _ Hd' Nc) in X8.
  exists e', n, (node_with n (rename (new_name d (m_name m)) (nd_sym n)) (rename (new_name d (m_name m)) (nd_repr n)) sm).
  split; [exact X1|]. split; [exact X2|]. split; [congruence|]. split; [exact X9|]. split; [exact X4|]. split; [exact X8|]. split.
  - intros en en' [H1 H2]. cbn [node_with nd_sym nd_repr]. split; now apply den_rename.
  - intros x Hx. rewrite <- fsyms_rename in Hx. assert (W := pick_inv _ _ _ X7 x (proj2 (uniq_in _ _) Hx)). apply whole_keys in W.
    unfold declared in *. rewrite (R4 KVariable : m_vars m' = m_vars m3), (R4 KParameter : m_pars m' = m_pars m3), (R4 KConstant : m_cons m' = m_cons m3). exact W.
Qed.

Lemma kept_declared h h' host old before cur x : kept_copies h h' host old before cur -> In x (dkeys cur) -> In x (dkeys before) \/ In x (dkeys old).
Proof.
  intros [_ B] Hx. destruct (mem_str x (dkeys old)) eqn:E; [right; now apply mem_str_spec|]. left.
  assert (N : ~ In x (dkeys old)) by (intros C; apply mem_str_spec in C; congruence).
  destruct (in_keys_dget _ _ Hx) as [l Hl]. rewrite (B x N) in Hl. now apply dget_in_keys in Hl.
Qed.

Lemma kept_refused h m d f k e n x : donor_ok h d -> no_capture d (m_name m) -> i_rewrite f = false -> i_eqs f = true ->
  dget k (m_eqs d) = Some e -> eq_expr e = Some n -> In x (fsyms (nd_repr n)) ->
  ~ In (new_name d (m_name m) x) (declared m) -> ~ In (new_name d (m_name m) x) (declared d) ->
  forall h' m', incorporate h m d f <> (h', m', Ok tt).
Proof.
  intros Hd Nc Rw Ie Hg Hn Hx H1 H2 h' m' H. destruct (kept_eqs _ _ _ _ _ _ Hd Nc Rw Ie H k e Hg) as (e' & n1 & n' & _ & _ & _ & _ & Y & _ & _ & I).
  assert (n1 = n) by congruence. subst n1. assert (D := I _ (in_map _ _ _ Hx)). destruct (kept_names _ _ _ _ _ _ Hd Rw H) as (_ & _ & K1 & K2 & K3).
  unfold declared in D, H1, H2. rewrite !in_app_iff in D, H1, H2.
  destruct D as [D|[D|D]]; [destruct (i_vars f)|destruct (i_pars f)|destruct (i_cons f)];
    match goal with
    | K : kept_copies _ _ _ _ _ ?c, D : In _ (dkeys ?c) |- _ => destruct (kept_declared _ _ _ _ _ _ _ K D); tauto
    | K : ?c = _, D : In _ (dkeys ?c) |- _ => rewrite K in D; tauto
    end.
Qed.
