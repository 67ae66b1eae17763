(** Facts: what a model says about itself (C75). *)
From Verif Require Import Base BaseFacts Num UnitModel Sympy Node Build EquationModel ModelModel SpecExpr QtyFacts SpecModel ModelFacts SpecCall RepeatFacts ProblemModel SpecProblem ProblemFacts SessionFacts InfoModel SpecInfo.
Notation num := Verif.Num.num.

(** ** Lists of names *)
Definition add_key (ks : list string) (k : string) : list string := if mem_str k ks then ks else ks ++ [k].
Lemma dkeys_dset_add {V} k (v : V) d : dkeys (dset k v d) = add_key (dkeys d) k.
Proof.
  unfold add_key. destruct (mem_str k (dkeys d)) eqn:E.
  - apply mem_str_spec in E. now apply dkeys_dset_in.
  - apply dkeys_dset_notin. intros H. apply (proj2 (mem_str_spec _ _)) in H. congruence.
Qed.
Lemma filter_comp {A} (f g : A -> bool) l : filter f (filter g l) = filter (fun x => g x && f x) l.
Proof. induction l as [|x l IH]; [reflexivity|]. cbn [filter]. destruct (g x); cbn [filter]; [destruct (f x); simpl; now rewrite IH|exact IH]. Qed.
Lemma mem_app x a b : mem_str x (a ++ b) = mem_str x a || mem_str x b.
Proof. unfold mem_str. apply existsb_app. Qed.
Lemma add_keys l : forall acc, fold_left add_key l acc = acc ++ filter (fun y => negb (mem_str y acc)) (once l).
Proof.
  induction l as [|x l IH]; intros acc; cbn [fold_left once filter]; [now rewrite app_nil_r|]. rewrite IH. unfold add_key.
  destruct (mem_str x acc) eqn:E; cbn [negb].
  - rewrite filter_comp. f_equal. apply filter_ext. intros y. destruct (String.eqb_spec x y) as [<-|]; [now rewrite E|reflexivity].
  - rewrite <- app_assoc. f_equal. cbn [app]. f_equal. rewrite filter_comp. apply filter_ext. intros y. rewrite mem_app, Bool.negb_orb, Bool.andb_comm.
    unfold mem_str at 1. cbn [existsb]. now rewrite Bool.orb_false_r, (String.eqb_sym y x).
Qed.
Lemma once_in x l : In x (once l) <-> In x l.
Proof.
  induction l as [|y l IH]; cbn [once]; [tauto|]. cbn [In]. rewrite filter_In, IH. destruct (String.eqb_spec y x) as [->|N]; cbn [negb]; intuition congruence.
Qed.
Lemma filter_none {A} (f : A -> bool) l : (forall x, In x l -> f x = false) -> filter f l = [].
Proof. induction l as [|x l IH]; intros H; [reflexivity|]. cbn [filter]. rewrite (H x) by now left. apply IH. intros y Hy. apply H. now right. Qed.
Lemma filter_all {A} (f : A -> bool) l : (forall x, In x l -> f x = true) -> filter f l = l.
Proof. induction l as [|x l IH]; intros H; [reflexivity|]. cbn [filter]. rewrite (H x) by now left. f_equal. apply IH. intros y Hy. apply H. now right. Qed.
Lemma add_keys_known l acc : (forall x, In x l -> In x acc) -> fold_left add_key l acc = acc.
Proof.
  intros H. rewrite add_keys, filter_none; [apply app_nil_r|]. intros x Hx. apply (proj1 (once_in _ _)), H in Hx. apply (proj2 (mem_str_spec _ _)) in Hx. now rewrite Hx.
Qed.
Lemma add_keys_new l : fold_left add_key l [] = once l.
Proof. rewrite add_keys. cbn [app]. now apply filter_all. Qed.
Lemma once_map f l : (forall x y, f x = f y -> x = y) -> once (map f l) = map f (once l).
Proof.
  intros I. induction l as [|x l IH]; [reflexivity|]. cbn [map once]. f_equal. rewrite IH. clear IH. induction (once l) as [|y r IH]; [reflexivity|].
  cbn [map filter]. rewrite IH. replace (String.eqb (f x) (f y)) with (String.eqb x y); [destruct (negb (String.eqb x y)); reflexivity|].
  destruct (String.eqb_spec x y) as [->|N]; [now rewrite String.eqb_refl|]. destruct (String.eqb_spec (f x) (f y)) as [E|]; [elim N; now apply I|reflexivity].
Qed.

(** ** One statement *)
Definition v_of (c : cmd) : list string := match c with CVar _ n _ _ _ _ => [n] | _ => [] end.
Definition p_of (c : cmd) : list string := match c with CPar _ n _ _ => [n] | _ => [] end.
Definition c_of (c : cmd) : list string := match c with CCon _ n _ _ => [n] | _ => [] end.
Definition e_of (c : cmd) : list string := match c with CEq _ n _ _ => [n] | _ => [] end.
Definition x_of (t : string) (c : cmd) : list string := match c with CVar _ n _ true t' _ => if String.eqb t' t then [n] else [] | _ => [] end.

Record info_step (w w' : mworld) (vs ps cs is os : list string) : Prop := {
  is_name : m_name (w_mod w') = m_name (w_mod w);
  is_vars : dkeys (m_vars (w_mod w')) = fold_left add_key (map (belonging (m_name (w_mod w))) vs) (dkeys (m_vars (w_mod w)));
  is_pars : dkeys (m_pars (w_mod w')) = fold_left add_key (map (belonging (m_name (w_mod w))) ps) (dkeys (m_pars (w_mod w)));
  is_cons : dkeys (m_cons (w_mod w')) = fold_left add_key (map (belonging (m_name (w_mod w))) cs) (dkeys (m_cons (w_mod w)));
  is_in : (forall l, In l (m_in (w_mod w)) -> (l < List.length (w_heap w))%nat) ->
          (forall l, In l (m_in (w_mod w')) -> (l < List.length (w_heap w'))%nat) /\
          var_names_of (w_heap w') (m_in (w_mod w')) = var_names_of (w_heap w) (m_in (w_mod w)) ++ map (belonging (m_name (w_mod w))) is;
  is_out : (forall l, In l (m_out (w_mod w)) -> (l < List.length (w_heap w))%nat) ->
          (forall l, In l (m_out (w_mod w')) -> (l < List.length (w_heap w'))%nat) /\
          var_names_of (w_heap w') (m_out (w_mod w')) = var_names_of (w_heap w) (m_out (w_mod w)) ++ map (belonging (m_name (w_mod w))) os
}.
Lemma info_refl w : info_step w w [] [] [] [] [].
Proof. split; try reflexivity; intros H; (split; [exact H|now rewrite app_nil_r]). Qed.
Lemma info_trans a b c vs ps cs is os vs' ps' cs' is' os' : info_step a b vs ps cs is os -> info_step b c vs' ps' cs' is' os' ->
  info_step a c (vs ++ vs') (ps ++ ps') (cs ++ cs') (is ++ is') (os ++ os').
Proof.
  intros [N1 V1 P1 C1 I1 O1] [N2 V2 P2 C2 I2 O2].
  split; rewrite ?map_app, ?fold_left_app.
  - congruence.
  - now rewrite V2, V1, N1.
  - now rewrite P2, P1, N1.
  - now rewrite C2, C1, N1.
  - intros H. destruct (I1 H) as [H1 E1]. destruct (I2 H1) as [H2 E2]. split; [exact H2|]. now rewrite E2, E1, N1, app_assoc.
  - intros H. destruct (O1 H) as [H1 E1]. destruct (O2 H1) as [H2 E2]. split; [exact H2|]. now rewrite E2, E1, N1, app_assoc.
Qed.
(** Steps that keep the dictionaries and lists and the names of quantities. *)
Lemma info_names h h' ls : (forall l, (l < List.length h)%nat -> (l < List.length h')%nat /\
    match hget h' l with Some q => q_name q | None => "" end = match hget h l with Some q => q_name q | None => "" end) ->
  (forall l, In l ls -> (l < List.length h)%nat) ->
  (forall l, In l ls -> (l < List.length h')%nat) /\ var_names_of h' ls = var_names_of h ls.
Proof.
  intros H Hl. split; [intros l Hi; apply H, Hl, Hi|]. unfold var_names_of. apply map_ext_in. intros l Hi. apply H, Hl, Hi.
Qed.
Lemma grown h q l : (l < List.length h)%nat -> (l < List.length (h ++ [q]))%nat /\
    match hget (h ++ [q]) l with Some q => q_name q | None => "" end = match hget h l with Some q => q_name q | None => "" end.
Proof. intros H. split; [rewrite app_length; simpl; lia|]. unfold hget. now rewrite nth_error_app1. Qed.
Lemma changed h l0 q q' l : hget h l0 = Some q -> q_name q' = q_name q -> (l < List.length h)%nat -> (l < List.length (hset h l0 q'))%nat /\
    match hget (hset h l0 q') l with Some q => q_name q | None => "" end = match hget h l with Some q => q_name q | None => "" end.
Proof.
  intros G N H. split; [now rewrite length_hset|]. destruct (Nat.eq_dec l l0) as [->|Ne].
  - rewrite hget_hset_eq by exact H. now rewrite G.
  - now rewrite hget_hset_neq.
Qed.

Lemma info_still w w' : m_name (w_mod w') = m_name (w_mod w) -> m_vars (w_mod w') = m_vars (w_mod w) -> m_pars (w_mod w') = m_pars (w_mod w) ->
  m_cons (w_mod w') = m_cons (w_mod w) -> m_in (w_mod w') = m_in (w_mod w) -> m_out (w_mod w') = m_out (w_mod w) ->
  (forall l, (l < List.length (w_heap w))%nat -> (l < List.length (w_heap w'))%nat /\
    match hget (w_heap w') l with Some q => q_name q | None => "" end = match hget (w_heap w) l with Some q => q_name q | None => "" end) ->
  info_step w w' [] [] [] [] [].
Proof.
  intros N V P C I O H. split; cbn [map fold_left]; try congruence; rewrite ?I, ?O, app_nil_r; apply info_names; exact H.
Qed.
Lemma info_new h q ls : (forall l, In l ls -> (l < List.length h)%nat) ->
  (forall l, In l (ls ++ [List.length h]) -> (l < List.length (h ++ [q]))%nat) /\
  var_names_of (h ++ [q]) (ls ++ [List.length h]) = var_names_of h ls ++ [q_name q].
Proof.
  intros H. destruct (info_names h (h ++ [q]) ls (fun l => grown h q l) H) as [A B]. split.
  - intros l Hl. apply in_app_or in Hl. destruct Hl as [Hl|[<-|[]]]; [now apply A|]. rewrite app_length. simpl. lia.
  - unfold var_names_of. rewrite map_app. f_equal; [exact B|]. cbn [map]. unfold hget. rewrite nth_error_app2 by apply le_n. now rewrite Nat.sub_diag.
Qed.

Lemma cmd_info w c w' : run_cmd w c = (w', Ok tt) -> info_step w w' (v_of c) (p_of c) (c_of c) (x_of "input" c) (x_of "output" c).
Proof.
  intros H. destruct w as [h u m]. destruct c as [a n un ex ty v|a n un v|a n un v|a v un|a|a n q check]; cbn [run_cmd w_heap w_mod w_uids v_of p_of c_of x_of] in *.
  - unfold create_variable in H. destruct ex.
    + destruct (String.eqb_spec ty "input") as [->|]; [|destruct (String.eqb_spec ty "output") as [->|]; [|discriminate]]; injection H as <-.
      * split; cbn [w_mod w_heap]; try reflexivity; [apply dkeys_dset_add| |].
        -- intros Hl. cbn [map]. exact (info_new h _ (m_in m) Hl).
        -- intros Hl. cbn [map]. rewrite app_nil_r. apply info_names; [intros l; apply grown|exact Hl].
      * split; cbn [w_mod w_heap]; try reflexivity; [apply dkeys_dset_add| |].
        -- intros Hl. cbn [map]. rewrite app_nil_r. apply info_names; [intros l; apply grown|exact Hl].
        -- intros Hl. cbn [map]. exact (info_new h _ (m_out m) Hl).
    + injection H as <-. split; cbn [w_mod w_heap]; try reflexivity; [apply dkeys_dset_add| |];
        intros Hl; cbn [map]; rewrite app_nil_r; (apply info_names; [intros l; apply grown|exact Hl]).
  - injection H as <-. split; cbn [w_mod w_heap]; try reflexivity; [apply dkeys_dset_add| |];
      intros Hl; cbn [map]; rewrite app_nil_r; (apply info_names; [intros l; apply grown|exact Hl]).
  - injection H as <-. split; cbn [w_mod w_heap]; try reflexivity; [apply dkeys_dset_add| |];
      intros Hl; cbn [map]; rewrite app_nil_r; (apply info_names; [intros l; apply grown|exact Hl]).
  - destruct (attr_qty m a) as [l|]; [|discriminate]. destruct (match v with SANum _ => _ | SAAttr _ => _ end) as [sv|]; [|discriminate].
    unfold heap_set_value in H. destruct (hget h l) as [q|] eqn:G; [|discriminate]. destruct (set_value q sv un) as [q'|] eqn:Es; [|discriminate].
    injection H as <-. destruct (set_value_effect _ _ _ _ Es) as (_ & _ & _ & N & _). apply info_still; try reflexivity.
    intros i Hi. cbn [w_heap]. exact (changed _ _ _ _ _ G N Hi).
  - destruct (attr_qty m a) as [l|]; [|discriminate]. destruct (hget h l) as [q|] eqn:G; [|discriminate]. destruct (qkind_eqb _ _); [|discriminate].
    injection H as <-. apply info_still; try reflexivity. intros i Hi. cbn [w_heap]. apply (changed _ _ q); auto.
  - destruct (rbind (resolve_eq (attr_qty m) q) _) as [arg|]; [|discriminate].
    destruct (create_outcome (mkW h u m) n arg check) as [u' E]. rewrite E in H.
    destruct (set_residual _ arg) as [e [[]|]]; [|discriminate]. destruct (eq_expr e) as [nn|]; [|discriminate]. cbv zeta in H.
    destruct check; [destruct (forallb _ _); [|discriminate]|]; injection H as <-; (apply info_still; try reflexivity); intros i Hi; (split; [exact Hi|reflexivity]).
Qed.

Lemma cmds_info cs : forall w w', run_cmds w cs = (w', Ok tt) ->
  info_step w w' (flat_map v_of cs) (flat_map p_of cs) (flat_map c_of cs) (flat_map (x_of "input") cs) (flat_map (x_of "output") cs).
Proof.
  induction cs as [|c cs IH]; intros w w' H; cbn [run_cmds flat_map] in *; [injection H as <-; apply info_refl|].
  destruct (run_cmd w c) as [w1 [[]|]] eqn:E; [|discriminate]. exact (info_trans _ _ _ _ _ _ _ _ _ _ _ _ _ (cmd_info _ _ _ E) (IH _ _ H)).
Qed.

Lemma call_info d w w' : model_call d w = (w', Ok tt) ->
  info_step w w' (written_vars d) (written_pars d) (written_cons d) (written_exposed "input" d) (written_exposed "output" d).
Proof. intros H. exact (cmds_info _ _ _ H). Qed.

Lemma calls_info n : forall d w w', calls n d w = (w', Ok tt) ->
  info_step w w' (times_over n (written_vars d)) (times_over n (written_pars d)) (times_over n (written_cons d))
    (times_over n (written_exposed "input" d)) (times_over n (written_exposed "output" d)).
Proof.
  induction n as [|n IH]; intros d w w' H; cbn [calls times_over] in *; [injection H as <-; apply info_refl|].
  destruct (model_call d w) as [w1 [[]|]] eqn:E; [|discriminate]. exact (info_trans _ _ _ _ _ _ _ _ _ _ _ _ _ (call_info _ _ _ E) (IH _ _ _ H)).
Qed.

Lemma belonging_inj M x y : belonging M x = belonging M y -> x = y.
Proof. unfold belonging. apply append_inj_r_s. Qed.
Lemma times_known n l : forall acc, (forall x, In x l -> In x acc) -> fold_left add_key (times_over n l) acc = acc.
Proof. intros acc H. apply add_keys_known. intros x. induction n as [|n IH]; cbn [times_over]; [intros []|]. intros Hx. apply in_app_or in Hx. destruct Hx; auto. Qed.
Lemma map_times {A B} (f : A -> B) n l : map f (times_over n l) = times_over n (map f l).
Proof. induction n as [|n IH]; [reflexivity|]. cbn [times_over]. now rewrite map_app, IH. Qed.
Lemma keys_times n M l : fold_left add_key (map (belonging M) (times_over (S n) l)) [] = map (belonging M) (once l).
Proof.
  rewrite map_times. cbn [times_over]. rewrite fold_left_app, add_keys_new, (once_map _ _ (belonging_inj M)). apply times_known.
  intros x. rewrite <- (once_map _ _ (belonging_inj M)). apply once_in.
Qed.

(** ** Names of equations *)
Lemma cmd_eq_keys w c w' : run_cmd w c = (w', Ok tt) -> named_cmd c = true ->
  m_name (w_mod w') = m_name (w_mod w) /\ dkeys (m_eqs (w_mod w')) = fold_left add_key (map (belonging (m_name (w_mod w))) (e_of c)) (dkeys (m_eqs (w_mod w))).
Proof.
  intros H N. destruct (cmd_eqs _ _ _ H N) as [A B]. split; [exact A|].
  destruct c; cbn [e_of map fold_left]; try now rewrite B. destruct B as (e & -> & _). apply dkeys_dset_add.
Qed.
Lemma cmds_eq_keys cs : forall w w', run_cmds w cs = (w', Ok tt) -> forallb named_cmd cs = true ->
  m_name (w_mod w') = m_name (w_mod w) /\ dkeys (m_eqs (w_mod w')) = fold_left add_key (map (belonging (m_name (w_mod w))) (flat_map e_of cs)) (dkeys (m_eqs (w_mod w))).
Proof.
  induction cs as [|c cs IH]; intros w w' H N; cbn [run_cmds forallb flat_map] in *; [injection H as <-; auto|].
  apply andb_prop in N. destruct N as [N1 N2]. destruct (run_cmd w c) as [w1 [[]|]] eqn:E; [|discriminate].
  destruct (cmd_eq_keys _ _ _ E N1) as [A1 B1]. destruct (IH _ _ H N2) as [A2 B2]. split; [congruence|].
  now rewrite B2, B1, A1, map_app, fold_left_app.
Qed.
Lemma calls_eq_keys n : forall d w w', calls n d w = (w', Ok tt) -> named d = true ->
  m_name (w_mod w') = m_name (w_mod w) /\ dkeys (m_eqs (w_mod w')) = fold_left add_key (map (belonging (m_name (w_mod w))) (times_over n (written_eqs d))) (dkeys (m_eqs (w_mod w))).
Proof.
  induction n as [|n IH]; intros d w w' H N; cbn [calls times_over] in *; [injection H as <-; auto|].
  destruct (model_call d w) as [w1 [[]|]] eqn:E; [|discriminate].
  destruct (cmds_eq_keys _ _ _ E N) as [A1 B1]. destruct (IH _ _ _ H N) as [A2 B2]. split; [congruence|].
  change (flat_map e_of _) with (written_eqs d) in B1. now rewrite B2, B1, A1, map_app, fold_left_app.
Qed.

(** ** What is listed *)
Lemma listed_objects n d h u M w : calls (S n) d (mkW h u (new_model M)) = (w, Ok tt) -> named d = true ->
  let o := gather_objects (w_mod w) in
  ob_vars o = map (belonging M) (once (written_vars d)) /\ ob_pars o = map (belonging M) (once (written_pars d)) /\
  ob_cons o = map (belonging M) (once (written_cons d)) /\ ob_eqs o = map (belonging M) (once (written_eqs d)).
Proof.
  intros H N o. destruct (calls_info _ _ _ _ H) as [_ V P C _ _]. destruct (calls_eq_keys _ _ _ _ H N) as [_ E].
  unfold o, gather_objects. cbn [ob_vars ob_pars ob_cons ob_eqs]. rewrite V, P, C, E. cbn [w_mod new_model m_name m_vars m_pars m_cons m_eqs dkeys map].
  rewrite <- !(keys_times n). auto.
Qed.
Lemma listed_exposed n d h u M w : calls n d (mkW h u (new_model M)) = (w, Ok tt) ->
  info_in_out (w_heap w) (w_mod w) =
    (times_over n (map (belonging M) (written_exposed "input" d)), times_over n (map (belonging M) (written_exposed "output" d))).
Proof.
  intros H. destruct (calls_info _ _ _ _ H) as [_ _ _ _ I O]. unfold info_in_out.
  destruct I as [_ ->]; [intros l []|]. destruct O as [_ ->]; [intros l []|]. now rewrite !map_times.
Qed.
Lemma overview_once d h u M w : model_call d (mkW h u (new_model M)) = (w, Ok tt) ->
  model_overview (w_heap w) (w_mod w) =
    overview_text M (map (belonging M) (written_exposed "input" d)) (map (belonging M) (written_exposed "output" d)) (map (belonging M) (once (written_pars d))).
Proof.
  intros H. assert (H1 : calls 1 d (mkW h u (new_model M)) = (w, Ok tt)) by (cbn [calls]; now rewrite H).
  unfold model_overview. rewrite (listed_exposed _ _ _ _ _ _ H1). cbn [times_over]. rewrite !app_nil_r.
  destruct (call_info _ _ _ H) as [N _ P _ _ _]. unfold gather_objects. cbn [ob_pars]. rewrite P, N. cbn [w_mod new_model m_name m_pars dkeys map].
  rewrite add_keys_new, (once_map _ _ (belonging_inj M)). unfold overview_text, section_line, nl, join. 
  rewrite !append_assoc_s. reflexivity.
Qed.

(** ** Degrees of freedom *)
Lemma entries_split h d : present h d -> (List.length d = entries true h d + entries false h d)%nat.
Proof.
  unfold entries. induction d as [|[k l] d IH]; intros H; [reflexivity|]. cbn [filter snd]. assert (Hl := H k l (or_introl eq_refl)).
  destruct (hget h l) as [q|]; [|contradiction].
  assert (E : List.length d = (entries true h d + entries false h d)%nat) by (apply IH; intros k' l' Hi; apply (H k' l'); now right). unfold entries in E.
  cbn [List.length]. destruct (q_spec q); cbn [Bool.eqb List.length]; lia.
Qed.
Lemma dof_exact h m : present h (m_vars m) -> present h (m_pars m) ->
  snd (info_dof m) = ((- freedom h m - Z.of_nat (entries true h (m_vars m)) - Z.of_nat (entries true h (m_pars m)) + Z.of_nat (entries false h (m_cons m)))%Z, 0%Z, 0%Z).
Proof.
  intros V P. apply entries_split in V, P. unfold info_dof, freedom. cbn [snd]. f_equal. f_equal. rewrite V, P. rewrite !Nat2Z.inj_add. lia.
Qed.

Lemma session_dof acts i m d : get_model (fst (run_acts start_session acts)) i = Some (m, d) ->
  let h := pw_heap (fst (run_acts start_session acts)) in
  snd (info_dof m) = ((- freedom h m - Z.of_nat (entries true h (m_vars m)) - Z.of_nat (entries true h (m_pars m)) + Z.of_nat (entries false h (m_cons m)))%Z, 0%Z, 0%Z).
Proof.
  intros G h. assert (Gd : good (run_acts start_session acts)) by apply run_good, start_good.
  assert (O : model_ok h m) by exact (proj1 (g_ok _ Gd) _ _ _ G). destruct O as (V & P & _).
  apply dof_exact; intros k l Hi; [destruct (proj2 V k l Hi) as (q & Hq & _)|destruct (proj2 P k l Hi) as (q & Hq & _)]; congruence.
Qed.
