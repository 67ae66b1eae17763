(** Connections given as expressions are kept until they are made again (C74). *)
From Verif Require Import Base BaseFacts Num NumFacts UnitModel UnitFacts Sympy Node Build BuildFacts EquationModel EquationFacts ModelModel ProblemModel
  SpecUnits SpecExpr SpecModel SpecInc SpecCall SpecProblem SpecWritten SolverModel SpecSolver QtyFacts ModelFacts ProblemFacts SessionFacts ConnFacts UsualFacts SymbolFacts
  SolverFacts WrittenFacts SpecLink.
From Coq Require Import Reals Lra.
Notation num := Verif.Num.num.

(** ** Strings *)
Lemma digit_is d : (d < 10)%nat -> is_digit (digit d) = true.
Proof. intros H. do 10 (destruct d as [|d]; [reflexivity|]). lia. Qed.
Lemma digits_aux fuel : forall n acc, numeral acc = true -> numeral (str_nat_aux fuel n acc) = true.
Proof.
  induction fuel as [|f IH]; intros n acc H; [exact H|].
  assert (Hm := Nat.mod_upper_bound n 10 ltac:(lia)).
  change (str_nat_aux (S f) n acc) with
    (match Nat.div n 10 with
     | O => String (digit (Nat.modulo n 10)) acc
     | m => str_nat_aux f m (String (digit (Nat.modulo n 10)) acc) end).
  assert (D : numeral (String (digit (Nat.modulo n 10)) acc) = true)
    by (change (is_digit (digit (Nat.modulo n 10)) && numeral acc = true); now rewrite (digit_is _ Hm), H).
  destruct (Nat.div n 10) as [|m]; [exact D|now apply IH].
Qed.
Lemma str_nat_numeral n : numeral (str_nat n) = true.
Proof. unfold str_nat. now apply digits_aux. Qed.
Lemma numeral_char c s : is_digit c = false -> numeral s = true -> has_char c s = false.
Proof.
  intros D. induction s as [|d s IH]; [reflexivity|]. cbn [numeral has_char]. intros H. apply andb_prop in H. destruct H as [H1 H2].
  rewrite (IH H2), Bool.orb_false_r. destruct (Ascii.eqb_spec c d) as [->|]; [congruence|reflexivity].
Qed.

(** The key a connection by expressions is stored under. *)
Definition link_name (n M : string) : string := ("conn_" ++ n ++ "-->" ++ M)%string.
Definition link_key (n M : string) : string := full_name (link_name n M) M.
Lemma link_key_split n M : link_key n M = (("conn_" ++ n ++ "--") ++ String ">" (M ++ "_" ++ M))%string.
Proof. unfold link_key, link_name, full_name. rewrite !append_assoc_s. reflexivity. Qed.
Lemma link_key_arrow n M : has_char ">" (link_key n M) = true.
Proof. rewrite link_key_split, has_char_app. cbn [has_char]. rewrite Ascii.eqb_refl. simpl. apply Bool.orb_true_r. Qed.
Lemma link_key_inj n n' M : link_key n M = link_key n' M -> n = n'.
Proof.
  unfold link_key. intros H. apply full_name_cancel in H. unfold link_name in H. apply append_inj_l_s in H. now apply append_inj_r_s in H.
Qed.
Lemma ends_dash a b : (a ++ "--")%string = (b ++ "---")%string -> has_char "-" a = true.
Proof.
  intros H. assert (E : (a ++ "--")%string = ((b ++ "-") ++ "--")%string) by (rewrite append_assoc_s; exact H).
  apply append_cancel_r in E. subst a. rewrite has_char_app. cbn [has_char]. rewrite Ascii.eqb_refl. simpl. apply Bool.orb_true_r.
Qed.
(** A first ">" splits a string in one way. *)
Lemma split_first c b' a : forall a', has_char c a = false -> has_char c (a' ++ String c b')%string = true ->
  forall b, has_char c b = false -> (a ++ String c b)%string = (a' ++ String c b')%string -> a = a'.
Proof.
  induction a as [|d a IH]; intros [|d' a'] Ha Hx b Hb E; simpl in *.
  - reflexivity.
  - injection E as -> E. subst b. rewrite has_char_app in Hb. cbn [has_char] in Hb. rewrite Ascii.eqb_refl in Hb. simpl in Hb. rewrite Bool.orb_true_r in Hb. discriminate.
  - injection E as -> _. now rewrite Ascii.eqb_refl in Ha.
  - injection E as <- E. apply Bool.orb_false_iff in Ha. destruct Ha as [_ Ha]. f_equal. apply (IH a' Ha) with (b := b); [|exact Hb|exact E].
    rewrite has_char_app. cbn [has_char]. rewrite Ascii.eqb_refl. simpl. apply Bool.orb_true_r.
Qed.
Lemma link_not_conn n M os is : has_char ">" n = false -> has_char "-" n = false -> has_char ">" M = false -> link_key n M <> conn_name os is.
Proof.
  intros A B C E. rewrite link_key_split, conn_name_split in E.
  apply split_first in E.
  - assert (E' : (("conn_" ++ n) ++ "--")%string = (join "," os ++ "---")%string) by (rewrite append_assoc_s; exact E).
    apply ends_dash in E'. rewrite has_char_app, B in E'. discriminate E'.
  - rewrite !has_char_app, A. reflexivity.
  - rewrite has_char_app. cbn [has_char]. rewrite Ascii.eqb_refl. simpl. apply Bool.orb_true_r.
  - rewrite !has_char_app, C. reflexivity.
Qed.

(** ** What keeps an equation *)
Section Key.
Variable K : string.
Hypothesis arrow : has_char ">" K = true.

Lemma cmd_keeps w c w' r : run_cmd w c = (w', r) -> has_char ">" (m_name (w_mod w)) = false -> arrow_free_cmd c = true ->
  dget K (m_eqs (w_mod w')) = dget K (m_eqs (w_mod w)).
Proof.
  intros H Cm Cc.
  destruct c as [a n u ex ty v|a n u v|a n u v|a x u|a|a n q check]; cbn [run_cmd] in *.
  - unfold assign_qty, create_variable in H.
    destruct ex; [destruct (String.eqb ty "input"); [|destruct (String.eqb ty "output")]|]; injection H as <- _; reflexivity.
  - injection H as <- _. reflexivity.
  - injection H as <- _. reflexivity.
  - destruct (attr_qty (w_mod w) a) as [l|]; [|injection H as <- _; reflexivity].
    destruct (match x with SANum n => _ | SAAttr b => _ end) as [sv|]; [|injection H as <- _; reflexivity].
    destruct (heap_set_value (w_heap w) l sv u) as [h' r']. injection H as <- _. reflexivity.
  - destruct (attr_qty (w_mod w) a) as [l|]; [|injection H as <- _; reflexivity].
    destruct (hget (w_heap w) l) as [q|]; [|injection H as <- _; reflexivity].
    destruct (qkind_eqb (q_kind q) KVariable); injection H as <- _; reflexivity.
  - cbn [arrow_free_cmd] in Cc. apply Bool.negb_true_iff in Cc.
    destruct (rbind (resolve_eq (attr_qty (w_mod w)) q) (fun q' => build_eq (w_heap w) q')) as [arg|]; [|injection H as <- _; reflexivity].
    assert (Nk : K <> stored_name w n).
    { intros E. assert (X : has_char ">" (stored_name w n) = true) by now rewrite <- E.
      unfold stored_name, full_name in X. rewrite !has_char_app, Cm in X.
      destruct (String.eqb n ""); [rewrite (numeral_char ">" _ eq_refl (str_nat_numeral _)) in X|rewrite Cc in X]; discriminate X. }
    destruct (create_outcome w n arg check) as [u' E]. rewrite E in H. clear E.
    destruct (set_residual _ arg) as [e0 [[]|]]; [|injection H as <- _; reflexivity].
    destruct (eq_expr e0) as [nn|]; [|injection H as <- _; reflexivity]. cbv zeta in H.
    assert (S : forall e2, dget K (dset (stored_name w n) e2 (m_eqs (w_mod w))) = dget K (m_eqs (w_mod w)))
      by (intros e2; rewrite dget_dset; destruct (String.eqb_spec K (stored_name w n)); [contradiction|reflexivity]).
    destruct check; [destruct (forallb (fun k : string => mem_str k (declared (w_mod w))) (dkeys (nd_smap nn)))|]; injection H as <- _; first [reflexivity|apply S].
Qed.

Lemma cmds_keep cs : forall w w' r, run_cmds w cs = (w', r) -> has_char ">" (m_name (w_mod w)) = false -> forallb arrow_free_cmd cs = true ->
  dget K (m_eqs (w_mod w')) = dget K (m_eqs (w_mod w)).
Proof.
  induction cs as [|c cs IH]; intros w w' r H Cm Cc; cbn [run_cmds forallb] in *; [now injection H as <- _|].
  apply andb_prop in Cc. destruct Cc as [C1 C2]. destruct (run_cmd w c) as [w1 r1] eqn:E.
  assert (S := cmd_keeps _ _ _ _ E Cm C1). destruct r1 as [[]|x]; [|injection H as <- _; exact S].
  rewrite <- S. apply (IH _ _ _ H); [|exact C2]. now rewrite (run_cmd_name _ _ _ _ E).
Qed.

Variables (j : nat) (M : string).
Hypothesis plainM : has_char ">" M = false.
(** Model [j] has the equation [e] under the key. *)
Definition keeps (e : eqn) (w : pworld) : Prop :=
  exists m d, get_model w j = Some (m, d) /\ m_name m = M /\ forallb arrow_free_cmd (script d) = true /\ dget K (m_eqs m) = Some e.

Lemma on_model_keeps {A} w i (f : decls -> mworld -> mworld * res A) w2 r e : keeps e w -> on_model w i f = (w2, r) ->
  (i = j -> forall m d w' r, get_model w j = Some (m, d) -> m_name m = M -> forallb arrow_free_cmd (script d) = true ->
     f d (mkW (pw_heap w) (pw_uids w) m) = (w', r) -> m_name (w_mod w') = m_name m /\ dget K (m_eqs (w_mod w')) = dget K (m_eqs m)) ->
  keeps e w2.
Proof.
  intros (m & d & G & N & C & E) H F. apply on_model_spec in H. destruct H as [(_ & -> & _)|(m1 & d1 & w' & G1 & F1 & _ & G2 & Go & _)]; [now exists m, d|].
  destruct (Nat.eq_dec i j) as [->|Hne].
  - assert (X : Some (m1, d1) = Some (m, d)) by congruence. injection X as -> ->.
    destruct (F eq_refl m d w' r G N C F1) as [Nm Km]. exists (w_mod w'), d. split; [exact G2|]. split; [congruence|]. split; [exact C|congruence].
  - exists m, d. rewrite Go by congruence. auto.
Qed.

Lemma call_keeps w i w2 r e : keeps e w -> on_model w i model_call = (w2, r) -> keeps e w2.
Proof.
  intros O H. apply (on_model_keeps _ _ _ _ _ _ O H). intros _ m d w' r' _ N C F.
  split; [exact (tr_name _ _ _ _ (run_cmds_tr _ _ _ _ F))|]. apply (cmds_keep _ _ _ _ F); [cbn [w_mod]; now rewrite N|exact C].
Qed.
Lemma reload_keeps is : forall w w' r e, keeps e w -> reload w is = (w', r) -> keeps e w'.
Proof.
  induction is as [|i is IH]; intros w w' r e O H; cbn [reload] in H; [now injection H as <- _|].
  destruct (on_model w i model_call) as [w1 [[]|x]] eqn:E.
  - exact (IH _ _ _ _ (call_keeps _ _ _ _ _ O E) H).
  - injection H as <- _. exact (call_keeps _ _ _ _ _ O E).
Qed.

(** The name an expression connection takes in this state. *)
Definition taken (w : pworld) (m : cmodel) (n : string) : Prop :=
  match m with
  | CMName s => n = if String.eqb s "" then str_nat (S (pw_puids w main_thread)) else s
  | CMModel i => exists s d, get_model w i = Some (s, d) /\ m_name s = n
  end.
Definition harmless (w : pworld) (a : act) : Prop :=
  match a with
  | AStmt i c => i = j -> arrow_free_cmd c = true
  | AInc i _ _ => i <> j
  | AConn _ i _ _ _ => i = j -> forall os is, K <> conn_name os is
  | AConnN m i _ _ => i = j -> forall n, taken w m n -> K <> link_key n M
  | _ => True
  end.

Lemma act_keeps w p a w' p' r e : keeps e w -> harmless w a -> do_act (w, p) a = ((w', p'), r) -> keeps e w'.
Proof.
  intros O S E. destruct a as [n dd|i c|i|i k f|i|m1 m2 outs ins ex|m1 m2 out inp|names|c|]; cbn [do_act] in E.
  - injection E as <- _ _. destruct O as (m & d & G & R). exists m, d. split; [|exact R].
    unfold get_model in *. cbn [pw_models]. rewrite nth_error_app1; [exact G|]. apply nth_error_Some. congruence.
  - destruct (on_model w i _) as [w1 r1] eqn:E1. injection E as <- _ _. apply (on_model_keeps _ _ _ _ _ _ O E1).
    intros Hi m d w2 r2 _ N _ F. split; [exact (run_cmd_name _ _ _ _ F)|]. apply (cmd_keeps _ _ _ _ F); [cbn [w_mod]; now rewrite N|exact (S Hi)].
  - destruct (on_model w i _) as [w1 r1] eqn:E1. injection E as <- _ _. exact (call_keeps _ _ _ _ _ O E1).
  - destruct (get_model w k) as [[dm dd]|]; [|injection E as <- _ _; exact O].
    destruct (on_model w i _) as [w1 r1] eqn:E1. injection E as <- _ _. apply (on_model_keeps _ _ _ _ _ _ O E1). intros Hi. elim (S Hi).
  - destruct (get_model w i); injection E as <- _ _; exact O.
  - destruct (match ex with None => Ok None | Some q => _ end) as [x|x]; [|injection E as <- _ _; exact O].
    unfold connect_vars in E. destruct (get_model w m2) as [[s2 d2]|]; [|injection E as <- _ _; exact O].
    destruct (match m1 with CMName _ => _ | CMModel i => _ end); [|injection E as <- _ _; exact O].
    destruct (_ && _); [|destruct ins, outs; injection E as <- _ _; exact O].
    destruct (match x with Some b0 => Ok b0 | None => _ end) as [ar|]; [|injection E as <- _ _; exact O].
    destruct (rbind (qty_names (pw_heap w) (cv_list outs)) _) as [[o i']|]; [|injection E as <- _ _; exact O].
    destruct (on_model w m2 _) as [w1 r1] eqn:E1.
    assert (Q : keeps e w1).
    { apply (on_model_keeps _ _ _ _ _ _ O E1). intros Hi m d w2 r2 _ _ _ F. specialize (S Hi).
      unfold model_connection in F. cbn [w_heap w_mod w_uids] in F. destruct (_ && _); [|injection F as <- _; auto].
      destruct (rbind (qty_names (pw_heap w) (cv_list outs)) _) as [name|] eqn:En; [|injection F as <- _; auto].
      destruct (connection_init _ name ar) as [u [e1|]]; injection F as <- _; [|auto]. split; [reflexivity|].
      cbn [w_mod with_eqs m_eqs]. rewrite dget_dset. binv. destruct (String.eqb_spec K (conn_name x0 x1)) as [X|_]; [|reflexivity]. elim (S _ _ X). }
    destruct r1; injection E as <- _ _; exact Q.
  - destruct (rbind (build (pw_heap w) out) _) as [[o i]|x]; [|injection E as <- _ _; exact O].
    unfold connect_nodes in E. destruct (get_model w m2) as [[s2 d2]|] eqn:G2; [|injection E as <- _ _; exact O].
    destruct (match m1 with CMName _ => _ | CMModel i => _ end) as [pu r1] eqn:Em.
    set (w0 := mkPW (pw_heap w) (pw_uids w) pu (pw_models w)) in *.
    assert (O0 : keeps e w0) by exact O.
    destruct r1 as [n1|x]; [|injection E as <- _ _; exact O0].
    assert (T : taken w m1 n1).
    { destruct m1 as [i1|s1]; cbn [taken].
      - destruct (get_model w i1) as [[s1 d1]|] eqn:G1; [|discriminate]. injection Em as _ <-. eauto.
      - destruct (String.eqb s1 ""); injection Em as _ <-; reflexivity. }
    destruct (node_sub i (ONode o)) as [dn|]; [|injection E as <- _ _; exact O0].
    destruct (on_model w0 m2 _) as [w1 r1] eqn:E1.
    assert (Q : keeps e w1).
    { apply (on_model_keeps _ _ _ _ _ _ O0 E1). intros Hi m d w2 r2 G N _ F. specialize (S Hi n1 T). subst m2.
      assert (X : Some (s2, d2) = Some (m, d)) by (rewrite <- G2; exact G). injection X as -> ->. rewrite N in F.
      destruct (create_outcome (mkW (pw_heap w0) (pw_uids w0) m) (link_name n1 M) (EANode dn) false) as [u' Ec]. unfold link_name in Ec. rewrite Ec in F. clear Ec.
      fold (link_name n1 M) in F. cbn [w_heap w_mod w_uids] in F.
      destruct (set_residual _ (EANode dn)) as [e0 [[]|]]; [|injection F as <- _; auto].
      destruct (eq_expr e0) as [nn|]; [|injection F as <- _; auto]. cbv zeta in F. injection F as <- _. split; [reflexivity|].
      assert (Sn : stored_name (mkW (pw_heap w0) (pw_uids w0) m) (link_name n1 M) = link_key n1 M) by (unfold stored_name, link_key; cbn [w_mod]; now rewrite N).
      cbn [w_mod with_eqs m_eqs]. rewrite dget_dset.
      match goal with |- context [String.eqb K ?s] => change s with (stored_name (mkW (pw_heap w0) (pw_uids w0) m) (link_name n1 M)) end.
      rewrite Sn. destruct (String.eqb_spec K (link_key n1 M)); [contradiction|reflexivity]. }
    destruct r1; injection E as <- _ _; exact Q.
  - injection E as <- _ _. exact O.
  - injection E as <- _ _. exact O.
  - unfold presolve in E. destruct (reload w (dvals (pr_models p))) as [w1 r1] eqn:E1.
    assert (Q := reload_keeps _ _ _ _ _ O E1).
    destruct r1 as [[]|x]; [|injection E as <- _ _; exact Q]. destruct (build_block w1 p); [|injection E as <- _ _; exact Q].
    destruct (block_call _) as [b' r']. injection E as <- _ _. exact Q.
Qed.
End Key.

(** ** Numbers drawn by the problem *)
Lemma on_model_puids {A} w i (f : decls -> mworld -> mworld * res A) w2 r : on_model w i f = (w2, r) -> pw_puids w2 = pw_puids w.
Proof.
  unfold on_model. destruct (get_model w i) as [[m d]|]; [|intros H; now injection H as <- _].
  destruct (f d _) as [w' r']. intros H. now injection H as <- _.
Qed.
Lemma reload_puids is : forall w w' r, reload w is = (w', r) -> pw_puids w' = pw_puids w.
Proof.
  induction is as [|i is IH]; intros w w' r H; cbn [reload] in H; [now injection H as <- _|].
  destruct (on_model w i model_call) as [w1 [[]|x]] eqn:E; assert (P := on_model_puids _ _ _ _ _ E).
  - now rewrite (IH _ _ _ H).
  - now injection H as <- _.
Qed.
Lemma act_puids w p a w' p' r : do_act (w, p) a = ((w', p'), r) -> (pw_puids w main_thread <= pw_puids w' main_thread)%nat.
Proof.
  intros E. destruct a as [n dd|i c|i|i k f|i|m1 m2 outs ins ex|m1 m2 out inp|names|c|]; cbn [do_act] in E.
  - injection E as <- _ _. apply le_n.
  - destruct (on_model w i _) as [w1 r1] eqn:E1. injection E as <- _ _. now rewrite (on_model_puids _ _ _ _ _ E1).
  - destruct (on_model w i _) as [w1 r1] eqn:E1. injection E as <- _ _. now rewrite (on_model_puids _ _ _ _ _ E1).
  - destruct (get_model w k) as [[dm dd]|]; [|injection E as <- _ _; apply le_n].
    destruct (on_model w i _) as [w1 r1] eqn:E1. injection E as <- _ _. now rewrite (on_model_puids _ _ _ _ _ E1).
  - destruct (get_model w i); injection E as <- _ _; apply le_n.
  - destruct (match ex with None => Ok None | Some q => _ end) as [x|x]; [|injection E as <- _ _; apply le_n].
    unfold connect_vars in E. destruct (get_model w m2) as [[s2 d2]|]; [|injection E as <- _ _; apply le_n].
    destruct (match m1 with CMName _ => _ | CMModel i => _ end); [|injection E as <- _ _; apply le_n].
    destruct (_ && _); [|destruct ins, outs; injection E as <- _ _; apply le_n].
    destruct (match x with Some b0 => Ok b0 | None => _ end) as [ar|]; [|injection E as <- _ _; apply le_n].
    destruct (rbind (qty_names (pw_heap w) (cv_list outs)) _) as [[o i']|]; [|injection E as <- _ _; apply le_n].
    destruct (on_model w m2 _) as [w1 r1] eqn:E1. rewrite <- (on_model_puids _ _ _ _ _ E1). destruct r1; injection E as <- _ _; apply le_n.
  - destruct (rbind (build (pw_heap w) out) _) as [[o i]|x]; [|injection E as <- _ _; apply le_n].
    unfold connect_nodes in E. destruct (get_model w m2) as [[s2 d2]|] eqn:G2; [|injection E as <- _ _; apply le_n].
    destruct (match m1 with CMName _ => _ | CMModel i => _ end) as [pu r1] eqn:Em.
    assert (Pu : (pw_puids w main_thread <= pu main_thread)%nat).
    { destruct m1 as [i1|s1]; [injection Em as <- _; apply le_n|]. destruct (String.eqb s1 ""); [|injection Em as <- _; apply le_n].
      unfold gen_rnd_str in Em. injection Em as <- _. rewrite Nat.eqb_refl. lia. }
    destruct r1 as [n1|x]; [|injection E as <- _ _; exact Pu].
    destruct (node_sub i (ONode o)) as [dn|]; [|injection E as <- _ _; exact Pu].
    destruct (on_model _ m2 _) as [w1 r1] eqn:E1. apply on_model_puids in E1. cbn [pw_puids] in E1. destruct r1; injection E as <- _ _; now rewrite E1.
  - injection E as <- _ _. apply le_n.
  - injection E as <- _ _. apply le_n.
  - unfold presolve in E. destruct (reload w (dvals (pr_models p))) as [w1 r1] eqn:E1.
    rewrite <- (reload_puids _ _ _ _ E1).
    destruct r1 as [[]|x]; [|injection E as <- _ _; apply le_n]. destruct (build_block w1 p); [|injection E as <- _ _; apply le_n].
    destruct (block_call _) as [b' r']. injection E as <- _ _. apply le_n.
Qed.

(** ** Origins *)
Lemma created_prefix a b i x : nth_error (created a) i = Some x -> nth_error (created (a ++ b)) i = Some x.
Proof.
  intros H. unfold created in *. rewrite flat_map_app, nth_error_app1; [exact H|]. apply nth_error_Some. congruence.
Qed.
Lemma model_created pre i m d : get_model (fst (run_acts start_session pre)) i = Some (m, d) -> nth_error (created pre) i = Some (m_name m, d).
Proof.
  intros G. assert (L : (i < List.length (created pre))%nat).
  { rewrite <- created_count. unfold get_model in G. apply nth_error_Some. congruence. }
  destruct (nth_error (created pre) i) as [[M d']|] eqn:E; [|apply nth_error_None in E; lia].
  destruct (created_model _ _ _ _ E) as (m' & G' & N). rewrite G in G'. injection G' as <- <-. now rewrite N.
Qed.
(** What a name taken in some state says about the origin. *)
Definition stands (u : nat) (o : origin) (n : string) : Prop :=
  match o with FromName s => n = s | Drawn => n = str_nat (S u) end.
Lemma taken_origin pre post m n : taken (fst (run_acts start_session pre)) m n ->
  exists o, origin_of (pre ++ post) m = Some o /\ stands (pw_puids (fst (run_acts start_session pre)) main_thread) o n.
Proof.
  destruct m as [i|s]; cbn [taken origin_of].
  - intros (m & d & G & <-). apply model_created in G. rewrite (created_prefix _ post _ _ G). now exists (FromName (m_name m)).
  - intros ->. destruct (String.eqb s ""); eexists; (split; [reflexivity|reflexivity]).
Qed.
Lemma apart_names u u' o o' n n' : stands u o n -> stands u' o' n' -> (u < u')%nat -> apart o o' -> n <> n'.
Proof.
  destruct o as [s|], o' as [s'|]; cbn [stands apart]; intros -> -> L A E; try contradiction.
  - rewrite E, str_nat_numeral in A. discriminate.
  - rewrite <- E, str_nat_numeral in A. discriminate.
  - apply str_nat_inj in E. lia.
Qed.
Lemma apart_from u u' s o' n' : stands u' o' n' -> apart (FromName s) o' -> stands u (FromName s) s -> s <> n'.
Proof.
  destruct o' as [s'|]; cbn [stands apart]; intros -> A _ E; [contradiction|]. rewrite E, str_nat_numeral in A. discriminate.
Qed.

Lemma arrow_free_created acts i M d : forallb arrow_free_act acts = true -> nth_error (created acts) i = Some (M, d) ->
  has_char ">" M = false /\ forallb arrow_free_cmd (script d) = true.
Proof.
  intros F E. apply nth_error_In in E. unfold created in E. apply in_flat_map in E. destruct E as (a & Ia & Ha).
  rewrite forallb_forall in F. specialize (F _ Ia). destruct a; cbn in Ha; try contradiction. destruct Ha as [Ha|[]]. injection Ha as -> ->.
  cbn [arrow_free_act] in F. apply andb_prop in F. destruct F as [F1 F2]. now apply Bool.negb_true_iff in F1.
Qed.

(** ** The rest of the program *)
Lemma rest_keeps acts o n u j M e : forall later pre,
  acts = pre ++ later -> forallb arrow_free_act acts = true -> has_char ">" M = false ->
  stands u o n -> (o = Drawn -> (u < pw_puids (fst (run_acts start_session pre)) main_thread)%nat) ->
  has_char ">" n = false -> has_char "-" n = false ->
  (forall m' out inp o', In (AConnN m' j out inp) later -> origin_of acts m' = Some o' -> apart o o') ->
  (forall k f, ~ In (AInc j k f) later) ->
  keeps (link_key n M) j M e (fst (run_acts start_session pre)) -> keeps (link_key n M) j M e (fst (run_acts start_session acts)).
Proof.
  induction later as [|a later IH]; intros pre Ea Fr Pm St Un N1 N2 Ap In O.
  - now rewrite Ea, app_nil_r.
  - destruct (run_acts start_session pre) as [w p] eqn:Ep. destruct (do_act (w, p) a) as [[w' p'] r] eqn:E. cbn [fst] in *.
    assert (Er : run_acts start_session (pre ++ [a]) = (w', p')) by (rewrite run_acts_app, Ep; cbn [run_acts]; now rewrite E).
    apply (IH (pre ++ [a])); auto.
    + now rewrite <- app_assoc.
    + intros Ho. rewrite Er. cbn [fst]. specialize (Un Ho). apply act_puids in E. lia.
    + intros m' out inp o' H. apply (Ap m' out inp). now right.
    + intros k f H. apply (In k f). now right.
    + rewrite Er. cbn [fst]. apply (act_keeps _ (link_key_arrow n M) j M Pm _ _ _ _ _ _ _ O) with (2 := E).
      assert (Fa : arrow_free_act a = true) by (rewrite forallb_forall in Fr; apply Fr; rewrite Ea; apply in_or_app; right; now left).
      destruct a as [n' dd|i c|i|i k f|i|m1 m2 outs ins ex|m1 m2 out inp|names|c|]; cbn [harmless]; auto.
      * intros ->. apply (In k f). now left.
      * intros _ os is. now apply link_not_conn.
      * intros -> n' T Ek. apply link_key_inj in Ek.
        assert (T' : taken (fst (run_acts start_session pre)) m1 n') by now rewrite Ep.
        destruct (taken_origin pre (AConnN m1 j out inp :: later) m1 n' T') as (o' & Ho & St'). rewrite <- Ea in Ho. rewrite Ep in St'. cbn [fst] in St'.
        assert (Aa := Ap m1 out inp o' (or_introl eq_refl) Ho).
        destruct o as [s|]; [|exact (apart_names _ _ _ _ _ _ St St' (Un eq_refl) Aa Ek)].
        cbn [stands] in St. subst n. exact (apart_from u _ s o' n' St' Aa eq_refl Ek).
Qed.

(** ** The connection in the block *)
Lemma link_made w p m j out inp s1 : do_act (w, p) (AConnN m j out inp) = (s1, Ok tt) ->
  exists s2 d2 n e, get_model w j = Some (s2, d2) /\ taken w m n /\ equates (pw_heap w) out inp e /\
    (m = CMName "" -> pw_puids (fst s1) main_thread = S (pw_puids w main_thread)) /\
    exists s2', get_model (fst s1) j = Some (s2', d2) /\ m_name s2' = m_name s2 /\ dget (link_key n (m_name s2)) (m_eqs s2') = Some e.
Proof.
  cbn [do_act]. intros E. destruct (build (pw_heap w) out) as [o|] eqn:Bo; [|discriminate E].
  destruct (build (pw_heap w) inp) as [i|] eqn:Bi; [|discriminate E]. cbn [rbind] in E.
  unfold connect_nodes in E. destruct (get_model w j) as [[s2 d2]|] eqn:G2; [|discriminate E].
  destruct (match m with CMName _ => _ | CMModel i => _ end) as [pu r1] eqn:Em.
  set (w0 := mkPW (pw_heap w) (pw_uids w) pu (pw_models w)) in *.
  destruct r1 as [n1|x]; [|discriminate E].
  assert (T : taken w m n1).
  { destruct m as [i1|t1]; cbn [taken].
    - destruct (get_model w i1) as [[t1 d1]|] eqn:G1; [|discriminate]. injection Em as _ <-. eauto.
    - destruct (String.eqb t1 ""); injection Em as _ <-; reflexivity. }
  assert (Pu : m = CMName "" -> pu main_thread = S (pw_puids w main_thread)).
  { intros ->. unfold gen_rnd_str in Em. simpl in Em. injection Em as <- _. now rewrite Nat.eqb_refl. }
  destruct (node_sub i (ONode o)) as [dn|] eqn:Es; [|discriminate E].
  destruct (on_model w0 j _) as [w1 r1] eqn:E1.
  assert (P1 := on_model_puids _ _ _ _ _ E1).
  apply on_model_spec in E1. destruct E1 as [(G & _)|(m1 & d1 & w' & G1 & F & _ & Gt & _)].
  { assert (X : get_model w j = None) by exact G. congruence. }
  assert (X : Some (s2, d2) = Some (m1, d1)) by (rewrite <- G2; exact G1). injection X as <- <-.
  destruct r1 as [x|x]; [|discriminate E]. injection E as <-. cbn [fst].
  destruct (create_outcome (mkW (pw_heap w0) (pw_uids w0) s2) (link_name n1 (m_name s2)) (EANode dn) false) as [u' Ec]. unfold link_name in Ec. rewrite Ec in F. clear Ec.
  fold (link_name n1 (m_name s2)) in F.
  cbn [set_residual finish_residual with_expr eq_expr] in F. cbv zeta in F.
  injection F as Fw Fe.
  exists s2, d2, n1, x. split; [reflexivity|]. split; [exact T|]. split; [|split].
  - subst x. split; [reflexivity|]. exists dn. split; [reflexivity|]. intros en.
    assert (Ed : nd_sym dn = SSub (nd_sym i) (nd_sym o)) by (clear - Es; cbn [node_sub] in Es; destruct (unit_sub _ _); [|discriminate Es]; cbn [rbind] in Es; now injection Es as <-).
    rewrite Ed, den_sub. unfold value_at.
    now rewrite (build_meaning _ _ en _ _ (named_env _ _) Bi), (build_meaning _ _ en _ _ (named_env _ _) Bo).
  - intros Hm. rewrite P1. now apply Pu.
  - exists (w_mod w'). split; [exact Gt|]. subst w'. split; [reflexivity|]. cbn [w_mod with_eqs m_eqs]. rewrite dget_dset.
    match goal with |- context [String.eqb _ ?s] => change s with (link_key n1 (m_name s2)) end.
    rewrite String.eqb_refl. f_equal. exact Fe.
Qed.

Lemma block_link acts s b a1 m j out inp a2 s1 : resolved acts s b -> distinct_models acts ->
  acts = a1 ++ AConnN m j out inp :: a2 ->
  do_act (run_acts start_session a1) (AConnN m j out inp) = (s1, Ok tt) -> In j (added acts) ->
  forallb arrow_free_act acts = true -> undisturbed acts m j a2 ->
  exists e, In e (b_eqs b) /\ equates (pw_heap (fst (run_acts start_session a1))) out inp e.
Proof.
  intros R D Ea Ed Hj Fr (o & Ho & Sh & Ap & Ni).
  destruct (run_acts start_session a1) as [w p] eqn:E1.
  destruct (link_made _ _ _ _ _ _ _ Ed) as (s2 & d2 & n & e & G2 & T & Q & Pu & s2' & G2' & N2 & K2). cbn [fst] in *.
  assert (T' : taken (fst (run_acts start_session a1)) m n) by now rewrite E1.
  destruct (taken_origin a1 (AConnN m j out inp :: a2) m n T') as (o' & Ho' & St). rewrite <- Ea, Ho in Ho'. injection Ho' as <-. rewrite E1 in St. cbn [fst] in St.
  assert (Cr : nth_error (created acts) j = Some (m_name s2, d2)).
  { rewrite Ea. apply created_prefix, model_created. now rewrite E1. }
  destruct (arrow_free_created _ _ _ _ Fr Cr) as [Pm Fd].
  assert (Nn : has_char ">" n = false /\ has_char "-" n = false).
  { destruct o as [t|]; cbn [stands] in St; subst n; [exact Sh|]. split; apply numeral_char; try reflexivity; apply str_nat_numeral. }
  assert (Er : run_acts start_session (a1 ++ [AConnN m j out inp]) = s1) by (rewrite run_acts_app, E1; cbn [run_acts]; now rewrite Ed).
  assert (K : keeps (link_key n (m_name s2)) j (m_name s2) e (fst (run_acts start_session acts))).
  { apply (rest_keeps acts o n (pw_puids w main_thread) j (m_name s2) e a2 (a1 ++ [AConnN m j out inp])); auto.
    - now rewrite <- app_assoc.
    - intros ->. rewrite Er. destruct m as [i|t]; cbn [origin_of] in Ho.
      + destruct (nth_error (created acts) i); discriminate Ho.
      + destruct (String.eqb_spec t "") as [->|]; [|discriminate Ho]. rewrite (Pu eq_refl). apply Nat.lt_succ_diag_r.
    - apply Nn.
    - apply Nn.
    - rewrite Er. exists s2', d2. auto. }
  assert (Rr := proj1 R). destruct (run_acts start_session acts) as [wa pa] eqn:Eac. destruct s as [ws ps]. cbn [fst] in K.
  apply (act_keeps _ (link_key_arrow n (m_name s2)) j (m_name s2) Pm _ _ AResolve _ _ _ _ K I) in Rr.
  destruct Rr as (m' & d' & G' & _ & _ & De).
  exists e. split; [|exact Q].
  refine (member_equations _ _ _ _ _ _ R (member_added _ _ _ _ R D Hj) G' _ _ De).
Qed.

Lemma solution_link acts s b eng res a1 m j out inp a2 s1 : resolved acts s b -> distinct_models acts -> honest eng -> answer eng b res ->
  acts = a1 ++ AConnN m j out inp :: a2 ->
  do_act (run_acts start_session a1) (AConnN m j out inp) = (s1, Ok tt) -> In j (added acts) ->
  forallb arrow_free_act acts = true -> undisturbed acts m j a2 ->
  let h := pw_heap (fst (run_acts start_session a1)) in
  exists x, value_at h (bind_env res) inp = Some x /\ value_at h (bind_env res) out = Some x.
Proof.
  intros R D Hh A Ea Ed Hj Fr U h. destruct (block_link _ _ _ _ _ _ _ _ _ _ R D Ea Ed Hj Fr U) as (e & He & El & n & En & Dn).
  assert (S := answer_solves _ _ _ _ _ R Hh A). rewrite (system_exact _ _ _ _ R) in S. specialize (S e He). rewrite El in S.
  destruct S as (n' & En' & Z). assert (n' = n) by congruence. subst n'. rewrite Dn in Z. fold h in Z.
  destruct (value_at h (bind_env res) inp) as [x|]; [|discriminate Z]. destruct (value_at h (bind_env res) out) as [y|]; [|discriminate Z].
  injection Z as Z. exists x. split; [reflexivity|]. f_equal. lra.
Qed.
