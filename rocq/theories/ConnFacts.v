(** Facts about connections (C28, C29). *)
From Verif Require Import Base BaseFacts Num NumFacts UnitModel UnitFacts Sympy Node Build EquationModel ModelModel ProblemModel
  SpecUnits UnitThms SpecExpr SpecDims SpecQty QtyFacts SpecModel BuildFacts DimFacts EquationFacts ModelFacts SpecInc IncFacts SpecCall CallFacts
  SpecProblem ProblemFacts SessionFacts.
From Coq Require Import Reals Permutation.
Notation num := Verif.Num.num.

Lemma mem_loc_spec l ls : mem_loc l ls = true <-> In l ls.
Proof.
  unfold mem_loc. rewrite existsb_exists. split.
  - intros (x & H & E). apply Nat.eqb_eq in E. now subst.
  - intros H. exists l. split; [exact H|apply Nat.eqb_refl].
Qed.
Lemma exposed_spec m1 m2 outs ins : exposed m1 m2 outs ins <->
  forallb (fun l => mem_loc l (m_in m2)) (cv_list ins) && forallb (fun l => mem_loc l (m_out m1)) (cv_list outs) = true.
Proof.
  unfold exposed. rewrite Bool.andb_true_iff, !forallb_forall. split.
  - intros [A B]. split; intros l H; apply mem_loc_spec; auto.
  - intros [A B]. split; intros l H; apply mem_loc_spec; auto.
Qed.

Lemma qty_names_spec h ls ns : qty_names h ls = Ok ns -> ns = var_names h ls.
Proof.
  revert ns. induction ls as [|l ls IH]; intros ns H; simpl in *; [congruence|].
  destruct (hget h l) as [q|]; [|discriminate]. binv. f_equal. now apply IH.
Qed.
Lemma qty_names_total h ls : (forall l, In l ls -> is_variable h l = true) -> qty_names h ls = Ok (var_names h ls).
Proof.
  induction ls as [|l ls IH]; intros H; simpl; [reflexivity|].
  assert (V := H l (or_introl eq_refl)). unfold is_variable in V. destruct (hget h l) as [q|]; [|discriminate].
  rewrite IH by (intros; apply H; now right). reflexivity.
Qed.

(** ** Refusals *)
Lemma connect_refused s i j outs ins e m1 d1 m2 d2 :
  get_model (fst s) i = Some (m1, d1) -> get_model (fst s) j = Some (m2, d2) -> ~ exposed m1 m2 outs ins ->
  exists x, do_act s (AConn (CMModel i) j outs ins e) = (s, Raise x) /\
    (e = None -> x = match outs, ins with CVOne _, CVOne _ => EExposedVariable | _, _ => EAttribute end).
Proof.
  destruct s as [w p]. simpl fst. intros G1 G2 N. unfold do_act.
  assert (F : forallb (fun l => mem_loc l (m_in m2)) (cv_list ins) && forallb (fun l => mem_loc l (m_out m1)) (cv_list outs) = false).
  { destruct (_ && _) eqn:E; [|reflexivity]. apply exposed_spec in E. contradiction. }
  assert (R : forall x, exists y, connect_vars w p (CMModel i) j outs ins x = (w, p, Raise y) /\
     y = match outs, ins with CVOne _, CVOne _ => EExposedVariable | _, _ => EAttribute end).
  { intros x. unfold connect_vars. rewrite G2, G1, F. destruct ins, outs; eauto. }
  destruct e as [q|].
  - destruct (build_eq (pw_heap w) q) as [a|x]; cbn [rbind].
    + destruct (R (Some a)) as (y & E & _). exists y. split; [exact E|discriminate].
    + exists x. split; [reflexivity|discriminate].
  - destruct (R None) as (y & E & H). exists y. auto.
Qed.

(** ** Accepted connections *)
Lemma connect_data h c a : (match c_expr c with None => balance h (cv_list (c_ins c)) (cv_list (c_outs c))
                                            | Some q => build_eq h q end) = Ok a ->
  a = EAOther \/ exists q, build_eq h q = Ok a /\ forall v, residual_meaning h v q = conn_meaning h v c.
Proof.
  unfold conn_meaning. destruct (c_expr c) as [q|]; intros H.
  - right. exists q. auto.
  - apply balance_built in H. destruct H as [(-> & _)|(e & He & Hb)]; [now left|]. right. exists (UResid e). split; [exact Hb|].
    intros v. cbn [residual_meaning]. now apply balance_meaning.
Qed.

Lemma connect_accepted s c s' : good s -> do_act s (conn_act c) = (s', Ok tt) ->
  exists m1 d1 m2 d2 e, get_model (fst s) (c_from c) = Some (m1, d1) /\ get_model (fst s) (c_to c) = Some (m2, d2) /\
    exposed m1 m2 (c_outs c) (c_ins c) /\
    (forall l, In l (cv_list (c_outs c) ++ cv_list (c_ins c)) -> is_variable (pw_heap (fst s)) l = true) /\
    pw_heap (fst s') = pw_heap (fst s) /\ pr_models (snd s') = pr_models (snd s) /\
    (forall k, k <> c_to c -> get_model (fst s') k = get_model (fst s) k) /\
    get_model (fst s') (c_to c) =
      Some (with_eqs m2 (dset (conn_name (fst (joined (pw_heap (fst s)) c)) (snd (joined (pw_heap (fst s)) c))) e (m_eqs m2)), d2) /\
    states_meaning (pw_heap (fst s)) c e /\ eqn_ok (pw_heap (fst s)) e.
Proof.
  destruct s as [w p]. intros G H. unfold conn_act, do_act in H. cbn [fst snd] in *.
  assert (E0 : (match (match c_expr c with None => Ok None | Some q => let* x := build_eq (pw_heap w) q in Ok (Some x) end) with
                | Raise x => ((w, p), Raise x)
                | Ok x => connect_vars w p (CMModel (c_from c)) (c_to c) (c_outs c) (c_ins c) x end) = (s', Ok tt)) by exact H.
  clear H. destruct (match c_expr c with None => _ | Some q => _ end) as [x|x] eqn:Ex; [|discriminate].
  unfold connect_vars in E0. destruct (get_model w (c_to c)) as [[m2 d2]|] eqn:G2; [|discriminate].
  destruct (get_model w (c_from c)) as [[m1 d1]|] eqn:G1; [|discriminate].
  destruct (_ && _) eqn:F; [|destruct (c_ins c), (c_outs c); discriminate]. apply exposed_spec in F.
  destruct (match x with Some a => Ok a | None => _ end) as [a|y] eqn:Ea; [|discriminate].
  assert (D : a = EAOther \/ exists q, build_eq (pw_heap w) q = Ok a /\ forall v, residual_meaning (pw_heap w) v q = conn_meaning (pw_heap w) v c).
  { apply connect_data. destruct (c_expr c) as [q|].
    - destruct (build_eq (pw_heap w) q) as [a'|]; [|discriminate]. cbn [rbind] in Ex. injection Ex as <-. exact Ea.
    - injection Ex as <-. exact Ea. }
  destruct (rbind (qty_names (pw_heap w) (cv_list (c_outs c))) _) as [[o i]|y] eqn:En; [|discriminate].
  destruct (on_model w (c_to c) _) as [w2 r2] eqn:Eo. destruct r2 as [e|y]; [|discriminate]. injection E0 as <-.
  apply on_model_spec in Eo. destruct Eo as [(_ & _ & Z)|(m & d & w' & G2' & Fm & Hh & Gm & Go & _)]; [discriminate|].
  assert (Z : Some (m2, d2) = Some (m, d)) by congruence. injection Z as <- <-.
  unfold model_connection in Fm. cbn [w_heap w_uids w_mod] in Fm.
  destruct (forallb (is_variable (pw_heap w)) (cv_list (c_ins c)) && _) eqn:V; [|discriminate].
  destruct (rbind (qty_names (pw_heap w) (cv_list (c_outs c))) _) as [name|y] eqn:Ek in Fm; [|discriminate].
  destruct (connection_init (pw_uids w) name a) as [u [e'|y]] eqn:Ec; [|discriminate]. injection Fm as <- <-.
  assert (Nm : name = conn_name (fst (joined (pw_heap w) c)) (snd (joined (pw_heap w) c))).
  { clear En. binv. apply qty_names_spec in Hb, Hb0. unfold joined. cbn [fst snd]. now rewrite Hb, Hb0. }
  assert (Ne : name <> "") by (rewrite Nm; apply append_ne).
  apply andb_prop in V. destruct V as [V1 V2]. rewrite forallb_forall in V1, V2.
  exists m1, d1, m2, d2, e'. split; [reflexivity|]. split; [reflexivity|]. split; [exact F|].
  split; [intros l Hl; apply in_app_iff in Hl; destruct Hl; auto|]. cbn [w_heap] in Hh. split; [exact Hh|]. split; [reflexivity|]. split; [exact Go|].
  split; [cbn [fst snd]; rewrite Gm, <- Nm; reflexivity|].
  destruct D as [->|[q [Hq Hm]]].
  - unfold connection_init, equation_init in Ec. destruct (String.eqb name ""); simpl in Ec; discriminate.
  - destruct (connection_data _ _ _ _ _ _ _ Ne Hq Ec) as (Ok_e & _ & n & Hn & _ & _ & Hd). split; [|exact Ok_e].
    exists n. split; [exact Hn|]. intros v en Hv. now rewrite (Hd v en Hv), Hm.
Qed.

(** ** When a default connection succeeds *)
Section Success.
Variable w : world.
Variable K : list string.
Hypothesis KB : incl base_keys K.
Variable qdim : loc -> dim.
Variable h : heap.
Hypothesis UA : units_are w K qdim h.
Variable d0 : dim.
Hypothesis R0 : forall k, In k K -> okz w (d0 k).
Definition fits (l : loc) : Prop := (exists q, hget h l = Some q) /\ same_dim K (qdim l) d0.
Let pl := SpecDims.plain w K qdim (fun _ => 0%Z) h.
Let hom := homogeneous qdim K (fun _ => 0%Z) false.
Let dm := dimension qdim (fun _ => 0%Z).

Lemma fits_range d : same_dim K d d0 -> in_range w K d.
Proof. intros S k Hk. rewrite (S k Hk). now apply R0. Qed.
Lemma total_fits ls : (forall l, In l ls -> fits l) -> forall acc, pl acc -> hom acc -> same_dim K (dm acc) d0 ->
  pl (total acc ls) /\ hom (total acc ls) /\ same_dim K (dm (total acc ls)) d0.
Proof.
  induction ls as [|l ls IH]; intros H acc P Ho S; cbn [total]; [auto|].
  destruct (H l (or_introl eq_refl)) as [Hq Hd].
  apply IH; [intros x Hx; apply H; now right| | |exact S].
  - unfold pl in *. cbn [SpecDims.plain dimension]. split; [now apply fits_range|]. split; [exact P|]. split; [now apply fits_range|exact Hq].
  - unfold hom in *. cbn [homogeneous dimension]. split; [exact Ho|]. split; [exact I|]. intros k Hk. unfold dm in S. rewrite (S k Hk). symmetry. now apply Hd.
Qed.
Lemma opening_fits ls e : (forall l, In l ls -> fits l) -> opening ls = Some e -> pl e /\ hom e /\ same_dim K (dm e) d0.
Proof.
  intros H E. destruct ls as [|l ls]; [discriminate|]. injection E as <-. destruct (H l (or_introl eq_refl)) as [Hq Hd].
  apply total_fits; [intros x Hx; apply H; now right| | |exact Hd].
  - unfold pl. cbn [SpecDims.plain dimension]. split; [now apply fits_range|]. split; [now apply fits_range|exact Hq].
  - unfold hom. cbn [homogeneous]. split; [exact I|discriminate].
Qed.
Lemma balance_fits ins outs e : (forall l, In l (ins ++ outs) -> fits l) -> balance_expr ins outs = Some e -> exists n, build h e = Ok n.
Proof.
  intros H E. unfold balance_expr in E.
  assert (Hi : forall l, In l ins -> fits l) by (intros; apply H, in_app_iff; auto).
  assert (Ho : forall l, In l outs -> fits l) by (intros; apply H, in_app_iff; auto).
  destruct (opening ins) as [a|] eqn:A, (opening outs) as [b|] eqn:B; try discriminate; injection E as <-;
    try (apply (opening_fits _ _ Hi) in A; destruct A as (Pa & Ha & Sa)); try (apply (opening_fits _ _ Ho) in B; destruct B as (Pb & Hb & Sb));
    apply (plain_builds_iff w K KB qdim (fun _ => 0%Z) h UA).
  - cbn [SpecDims.plain dimension]. split; [now apply fits_range|]. split; assumption.
  - cbn [homogeneous]. split; [exact Ha|]. split; [exact Hb|]. intros k Hk. unfold dm in Sa, Sb. now rewrite (Sa k Hk), (Sb k Hk).
  - cbn [SpecDims.plain dimension]. split; [now apply fits_range|exact Pa].
  - cbn [homogeneous]. split; [exact Ha|discriminate].
  - cbn [SpecDims.plain dimension]. split; [now apply fits_range|exact Pb].
  - cbn [homogeneous]. split; [exact Hb|discriminate].
Qed.
End Success.

Lemma sum_from_build h ls : forall acc n s, build h acc = Ok n -> build h (total acc ls) = Ok s -> sum_from h n ls = Ok s.
Proof.
  induction ls as [|l ls IH]; intros acc n s Ha H; cbn [sum_from total] in *; [congruence|].
  assert (E : exists x, build h (UBin BAdd acc (UQty l)) = Ok x).
  { clear IH. revert H. generalize (UBin BAdd acc (UQty l)). induction ls as [|l' ls IH']; intros e H; cbn [total] in H; [eauto|].
    apply IH' in H. destruct H as [x H]. change (build h (UBin BAdd e (UQty l'))) with (rbind (build h e) (fun x => rbind (build_qty h l') (fun y => node_add x (ONode y)))) in H.
    binv. eauto. }
  destruct E as [x E]. assert (E' := E).
  change (build h (UBin BAdd acc (UQty l))) with (rbind (build h acc) (fun x => rbind (build_qty h l) (fun y => node_add x (ONode y)))) in E'.
  rewrite Ha in E'. cbn [rbind] in E'. binv. rewrite Hb. cbn [rbind]. rewrite E'. cbn [rbind]. exact (IH _ _ _ E H).
Qed.
Lemma sum_calls_build h ls e n : opening ls = Some e -> build h e = Ok n -> sum_calls h ls = Ok (Some n).
Proof.
  intros E H. destruct ls as [|l ls]; [discriminate|]. injection E as <-. unfold sum_calls.
  assert (X : exists x, build h (UNumL BAdd (PInt 0) (UQty l)) = Ok x).
  { revert H. generalize (UNumL BAdd (PInt 0) (UQty l)). induction ls as [|l' ls IH']; intros e H; cbn [total] in H; [eauto|].
    apply IH' in H. destruct H as [x H]. change (build h (UBin BAdd e (UQty l'))) with (rbind (build h e) (fun x => rbind (build_qty h l') (fun y => node_add x (ONode y)))) in H.
    binv. eauto. }
  destruct X as [x X]. assert (X' := X).
  change (build h (UNumL BAdd (PInt 0) (UQty l))) with (rbind (build_qty h l) (fun y => node_add y (ONum (PInt 0)))) in X'.
  binv. rewrite Hb. cbn [rbind]. rewrite X'. cbn [rbind]. rewrite (sum_from_build _ _ _ _ _ X H). reflexivity.
Qed.
Lemma balance_build h ins outs e n : balance_expr ins outs = Some e -> build h e = Ok n -> balance h ins outs = Ok (EANode n).
Proof.
  unfold balance_expr, balance. destruct (opening ins) as [a|] eqn:A, (opening outs) as [b|] eqn:B; intros E H; try discriminate; injection E as <-;
    cbn [build] in H; binv.
  - rewrite (sum_calls_build _ _ _ _ A Hb), (sum_calls_build _ _ _ _ B Hb0). cbn [rbind]. cbn [node_op] in H. now rewrite H.
  - rewrite (sum_calls_build _ _ _ _ A Hb). destruct outs; [|discriminate]. cbn [rbind sum_calls]. cbn [node_op] in H. now rewrite H.
  - rewrite (sum_calls_build _ _ _ _ B Hb). destruct ins; [|discriminate]. cbn [rbind sum_calls]. cbn [node_rop] in H. now rewrite H.
Qed.
Lemma balance_expr_some ins outs : ins ++ outs <> [] -> exists e, balance_expr ins outs = Some e.
Proof. destruct ins, outs; unfold balance_expr; simpl; intros H; eauto. congruence. Qed.

Lemma connection_node u name n : exists u' e, connection_init u name (EANode n) = (u', Ok e).
Proof.
  unfold connection_init, equation_init. destruct (String.eqb name ""); [destruct (gen_rnd_str u main_thread) as [u1 nm]|];
    unfold set_residual, finish_residual, sweep_objects; cbv beta iota zeta delta [with_expr with_objs with_type with_eowner blank_eqn eq_expr eq_name eq_elem eq_elementary eq_type eq_objs eq_owner residual_draws];
    eauto.
Qed.

Lemma connect_succeeds w K qdim d0 s i j outs ins m1 d1 m2 d2 :
  incl base_keys K -> units_are w K qdim (pw_heap (fst s)) -> (forall k, In k K -> okz w (d0 k)) ->
  get_model (fst s) i = Some (m1, d1) -> get_model (fst s) j = Some (m2, d2) -> exposed m1 m2 outs ins ->
  (forall l, In l (cv_list ins ++ cv_list outs) -> is_variable (pw_heap (fst s)) l = true /\ same_dim K (qdim l) d0) ->
  cv_list ins ++ cv_list outs <> [] ->
  exists s', do_act s (AConn (CMModel i) j outs ins None) = (s', Ok tt).
Proof.
  intros KB UA R0 G1 G2 X H N. destruct s as [w0 p]. cbn [fst] in *. unfold do_act, connect_vars. rewrite G2, G1.
  apply exposed_spec in X. rewrite X.
  destruct (balance_expr_some _ _ N) as [e E].
  destruct (balance_fits w K KB qdim (pw_heap w0) UA d0 R0 (cv_list ins) (cv_list outs) e) as [n B]; [|exact E|].
  { intros l Hl. destruct (H l Hl) as [V S]. split; [|exact S]. unfold is_variable in V. destruct (hget (pw_heap w0) l); [eauto|discriminate]. }
  rewrite (balance_build _ _ _ _ _ E B).
  assert (Vi : forall l, In l (cv_list ins) -> is_variable (pw_heap w0) l = true) by (intros; apply H, in_app_iff; auto).
  assert (Vo : forall l, In l (cv_list outs) -> is_variable (pw_heap w0) l = true) by (intros; apply H, in_app_iff; auto).
  rewrite (qty_names_total _ _ Vo), (qty_names_total _ _ Vi). cbn [rbind].
  unfold on_model. rewrite G2. unfold model_connection. cbn [w_heap w_uids w_mod].
  rewrite (proj2 (forallb_forall _ _) Vi), (proj2 (forallb_forall _ _) Vo). cbn [andb].
  rewrite (qty_names_total _ _ Vo), (qty_names_total _ _ Vi). cbn [rbind].
  destruct (connection_node (pw_uids w0) (conn_name (var_names (pw_heap w0) (cv_list outs)) (var_names (pw_heap w0) (cv_list ins))) n) as (u' & e' & ->).
  eauto.
Qed.

(** ** Names of connections *)
Lemma has_char_app c a b : has_char c (a ++ b)%string = has_char c a || has_char c b.
Proof. induction a as [|d a IH]; simpl; [reflexivity|]. now rewrite IH, Bool.orb_assoc. Qed.
Lemma split_char c a a' : has_char c a = false -> has_char c a' = false -> forall b b',
  (a ++ String c b)%string = (a' ++ String c b')%string -> a = a' /\ b = b'.
Proof.
  revert a'. induction a as [|d a IH]; intros [|d' a'] Ha Ha' b b' E; simpl in *.
  - now injection E as <-.
  - injection E as <- _. now rewrite Ascii.eqb_refl in Ha'.
  - injection E as -> _. now rewrite Ascii.eqb_refl in Ha.
  - injection E as <- E. apply Bool.orb_false_iff in Ha, Ha'. destruct (IH a' (proj2 Ha) (proj2 Ha') _ _ E) as [-> ->]. auto.
Qed.
Lemma join_cons s x y l : join s (x :: y :: l) = (x ++ s ++ join s (y :: l))%string.
Proof. reflexivity. Qed.
Lemma join_char c l : Ascii.eqb c "," = false -> (forall x, In x l -> has_char c x = false) -> has_char c (join "," l) = false.
Proof.
  intros Hc. induction l as [|x [|y l] IH]; intros H; [reflexivity|apply H; now left|].
  rewrite join_cons, !has_char_app, (H x) by now left. cbn [has_char]. rewrite Hc. simpl. apply IH. intros z Hz. apply H. now right.
Qed.
Lemma join_inj l : forall l', (forall x, In x l -> x <> "" /\ has_char "," x = false) ->
  (forall x, In x l' -> x <> "" /\ has_char "," x = false) -> join "," l = join "," l' -> l = l'.
Proof.
  assert (L0 : forall x l, (forall y, In y (x :: l) -> y <> "" /\ has_char "," y = false) -> join "," (x :: l) <> "").
  { intros x [|y r] H; [apply H; now left|]. rewrite join_cons. destruct x; [now destruct (H "" (or_introl eq_refl))|discriminate]. }
  assert (L1 : forall x y r z, has_char "," z = false -> join "," (x :: y :: r) <> z).
  { intros x y r z Hz E. rewrite <- E, join_cons, !has_char_app in Hz. cbn [has_char] in Hz. simpl in Hz. now rewrite Bool.orb_true_r in Hz. }
  induction l as [|x [|y l] IH]; intros [|x' [|y' l']] H H' E; try reflexivity.
  - now destruct (L0 _ _ H').
  - now destruct (L0 _ _ H').
  - now destruct (L0 _ _ H).
  - simpl in E. now subst.
  - destruct (L1 x' y' l' x); [apply H; now left|]. now rewrite <- E.
  - now destruct (L0 _ _ H).
  - destruct (L1 x y l x'); [apply H'; now left|exact E].
  - rewrite !join_cons in E. change ("," ++ join "," (y :: l))%string with (String "," (join "," (y :: l))) in E.
    change ("," ++ join "," (y' :: l'))%string with (String "," (join "," (y' :: l'))) in E.
    apply split_char in E; [|apply H; now left|apply H'; now left]. destruct E as [-> E]. f_equal.
    apply IH; [intros z Hz; apply H; now right|intros z Hz; apply H'; now right|exact E].
Qed.
Lemma append_assoc_s a b c : ((a ++ b) ++ c)%string = (a ++ b ++ c)%string.
Proof. induction a as [|d a IH]; simpl; [reflexivity|]. now rewrite IH. Qed.
Lemma length_append a b : String.length (a ++ b)%string = (String.length a + String.length b)%nat.
Proof. induction a as [|d a IH]; simpl; [reflexivity|]. now rewrite IH. Qed.
Lemma append_cancel_r c a : forall a', (a ++ c)%string = (a' ++ c)%string -> a = a'.
Proof.
  induction a as [|d a IH]; intros [|d' a'] E; simpl in E; try reflexivity.
  - apply (f_equal String.length) in E. simpl in E. rewrite length_append in E. lia.
  - apply (f_equal String.length) in E. simpl in E. rewrite length_append in E. lia.
  - injection E as <- E. f_equal. now apply IH.
Qed.
Lemma conn_name_split o i : conn_name o i = ((join "," o ++ "---") ++ String ">" (join "," i))%string.
Proof. unfold conn_name. rewrite append_assoc_s. reflexivity. Qed.
Lemma conn_name_inj o i o' i' : Forall simple_name o -> Forall simple_name i -> Forall simple_name o' -> Forall simple_name i' ->
  conn_name o i = conn_name o' i' -> (o, i) = (o', i').
Proof.
  rewrite !Forall_forall. intros Ho Hi Ho' Hi' E. rewrite !conn_name_split in E.
  apply split_char in E.
  - destruct E as [E1 E2]. apply append_cancel_r in E1.
    f_equal; apply join_inj; auto; intros x Hx;
      [destruct (Ho x Hx) as (A & B & _)|destruct (Ho' x Hx) as (A & B & _)|destruct (Hi x Hx) as (A & B & _)|destruct (Hi' x Hx) as (A & B & _)]; auto.
  - rewrite has_char_app, join_char; [reflexivity|reflexivity|intros x Hx; apply Ho, Hx].
  - rewrite has_char_app, join_char; [reflexivity|reflexivity|intros x Hx; apply Ho', Hx].
Qed.
Lemma conn_name_arrow o i : has_char ">" (conn_name o i) = true.
Proof. rewrite conn_name_split, has_char_app. cbn [has_char]. rewrite Ascii.eqb_refl. simpl. apply Bool.orb_true_r. Qed.

(** ** Sequences of connections *)
Lemma connect_good s c s' : good s -> do_act s (conn_act c) = (s', Ok tt) -> good s'.
Proof. intros G E. replace s' with (fst (do_act s (conn_act c))) by now rewrite E. now apply do_act_good. Qed.


Lemma connects_all j cs : forall s s' m d, good s -> connects s cs = Some s' -> get_model (fst s) j = Some (m, d) ->
  (forall c, In c (into j cs) -> Forall simple_name (fst (joined (pw_heap (fst s)) c)) /\ Forall simple_name (snd (joined (pw_heap (fst s)) c))) ->
  NoDup (map (joined (pw_heap (fst s))) (into j cs)) ->
  (forall c, In c (into j cs) -> ~ In (conn_name (fst (joined (pw_heap (fst s)) c)) (snd (joined (pw_heap (fst s)) c))) (dkeys (m_eqs m))) ->
  good s' /\ pw_heap (fst s') = pw_heap (fst s) /\ exists m' new, get_model (fst s') j = Some (m', d) /\
    m_eqs m' = m_eqs m ++ new /\
    Forall2 (fun c ke => fst ke = conn_name (fst (joined (pw_heap (fst s)) c)) (snd (joined (pw_heap (fst s)) c)) /\
                         states_meaning (pw_heap (fst s)) c (snd ke)) (into j cs) new.
Proof.
  induction cs as [|c cs IH]; intros s s' m d G C Gm Hn Nd Hk; cbn [connects] in C.
  - injection C as <-. split; [exact G|]. split; [reflexivity|]. exists m, []. rewrite app_nil_r. split; [exact Gm|]. split; [reflexivity|constructor].
  - destruct (do_act s (conn_act c)) as [s1 [[]|x]] eqn:E; [|discriminate].
    assert (G1 := connect_good _ _ _ G E).
    destruct (connect_accepted _ _ _ G E) as (m1 & d1 & m2 & d2 & e & _ & G2 & _ & _ & Hh & _ & Go & Gt & Sm & _).
    unfold into in *. cbn [filter] in *. destruct (Nat.eqb_spec (c_to c) j) as [Ej|Nj].
    + subst j. assert (Z : Some (m, d) = Some (m2, d2)) by congruence. injection Z as <- <-.
      set (k := conn_name (fst (joined (pw_heap (fst s)) c)) (snd (joined (pw_heap (fst s)) c))) in *.
      assert (Nk : ~ In k (dkeys (m_eqs m))) by (apply (Hk c); now left).
      rewrite dset_notin in Gt by exact Nk.
      cbn [map] in Nd. apply NoDup_cons_iff in Nd. destruct Nd as [Nc Nd].
      destruct (IH s1 s' _ d G1 C Gt) as (G' & Hh' & m' & new & Gm' & Em & F).
      * intros c' Hc. rewrite Hh. apply Hn. now right.
      * now rewrite Hh.
      * intros c' Hc. rewrite Hh. cbn [m_eqs with_eqs]. intros Hin. unfold dkeys in Hin. rewrite map_app in Hin. apply in_app_iff in Hin.
        destruct Hin as [Hin|[Hin|[]]]; [apply (Hk c'); [now right|exact Hin]|].
        apply Nc. apply in_map_iff. exists c'. split; [|exact Hc].
        destruct (Hn c (or_introl eq_refl)) as [A1 A2]. destruct (Hn c' (or_intror Hc)) as [B1 B2].
        assert (Q := conn_name_inj _ _ _ _ A1 A2 B1 B2 Hin). destruct (joined _ c), (joined _ c'). symmetry. exact Q.
      * split; [exact G'|]. split; [congruence|]. exists m', ((k, e) :: new). split; [exact Gm'|]. split.
        -- rewrite Em. cbn [m_eqs with_eqs]. now rewrite <- app_assoc.
        -- constructor; [split; [reflexivity|exact Sm]|]. rewrite Hh in F. exact F.
    + destruct (IH s1 s' m d G1 C) as (G' & Hh' & m' & new & Gm' & Em & F).
      * rewrite Go by congruence. exact Gm.
      * intros c' Hc. rewrite Hh. now apply Hn.
      * now rewrite Hh.
      * intros c' Hc. rewrite Hh. now apply Hk.
      * rewrite Hh in F. split; [exact G'|]. split; [congruence|]. eauto 10.
Qed.

Lemma connections_kept acts cs s' j m d : connects (run_acts start_session acts) cs = Some s' ->
  let h := pw_heap (fst (run_acts start_session acts)) in
  get_model (fst (run_acts start_session acts)) j = Some (m, d) ->
  (forall k, In k (dkeys (m_eqs m)) -> has_char ">" k = false) ->
  (forall c, In c (into j cs) -> Forall simple_name (fst (joined h c)) /\ Forall simple_name (snd (joined h c))) ->
  NoDup (map (joined h) (into j cs)) ->
  exists m' new, get_model (fst s') j = Some (m', d) /\ m_eqs m' = m_eqs m ++ new /\
    Forall2 (fun c ke => states_meaning h c (snd ke)) (into j cs) new.
Proof.
  intros C h Gm Hg Hn Nd. destruct (connects_all j cs _ _ m d (run_good _ _ start_good) C Gm Hn Nd) as (_ & _ & m' & new & A & B & F).
  - intros c Hc Hin. apply Hg in Hin. now rewrite conn_name_arrow in Hin.
  - exists m', new. split; [exact A|]. split; [exact B|]. clear - F. induction F as [|? ? ? ? [_ X] ? IH]; constructor; auto.
Qed.
