(** Facts about what refusals say (C93). *)
From Verif Require Import Base BaseFacts Num UnitModel Sympy Node Build EquationModel ModelModel ProblemModel InfoModel
  SpecProblem SpecUnits UnitFacts UnitThms SpecReport SpecExpr SpecModel BuildFacts ModelFacts ConnFacts ReportFacts ErrorModel SpecErrors.
From Coq Require Import Reals Lia.
Notation num := Verif.Num.num.

(** ** The same outcomes *)
Lemma erase_lift {A} (r : res A) : erase (lift r) = r.
Proof. destruct r; reflexivity. Qed.
Lemma unit_sum_add u v : erase (unit_sum u v) = unit_add u v.
Proof. unfold unit_sum, unit_add. destruct (coherent u v) as [[]|]; reflexivity. Qed.
Lemma unit_sum_sub u v : erase (unit_sum u v) = unit_sub u v.
Proof. unfold unit_sum, unit_sub. destruct (coherent u v) as [[]|]; reflexivity. Qed.
Lemma add_same a o : erase (node_add_said a o) = node_add a o.
Proof.
  destruct o as [b|k|]; [|apply erase_lift|reflexivity]. cbn [node_add_said]. assert (E := unit_sum_add (nd_unit a) (nd_unit b)).
  destruct (unit_sum (nd_unit a) (nd_unit b)) as [u|f]; [apply erase_lift|]. cbn [erase] in *. unfold node_add. rewrite <- E. reflexivity.
Qed.
Lemma sub_same a o : erase (node_sub_said a o) = node_sub a o.
Proof.
  destruct o as [b|k|]; [|apply erase_lift|reflexivity]. cbn [node_sub_said]. assert (E := unit_sum_sub (nd_unit a) (nd_unit b)).
  destruct (unit_sum (nd_unit a) (nd_unit b)) as [u|f]; [apply erase_lift|]. cbn [erase] in *. unfold node_sub. rewrite <- E. reflexivity.
Qed.
Lemma pow_same a o : erase (node_pow_said a o) = node_pow a o.
Proof.
  destruct o as [b|k|]; [|apply erase_lift|reflexivity]. cbn [node_pow_said]. destruct (is_dimensionless (nd_unit b)) eqn:D; [apply erase_lift|].
  unfold node_pow. rewrite D. reflexivity.
Qed.
Lemma set_same q a u : erase (set_value_said q a u) = set_value q a u.
Proof.
  destruct a as [p|[z|f]|]; cbn [set_value_said set_value]; try reflexivity.
  - destruct (isinstance_of p q); [|reflexivity]. destruct u; [reflexivity|]. destruct (coherent _ _) as [[]|]; reflexivity.
  - destruct u as [v|]; [|reflexivity]. destruct (coherent _ _) as [[]|]; reflexivity.
Qed.
Lemma create_same w name a : erase (create_equation_said w name a) = snd (create_equation w name (Some a) true).
Proof.
  unfold create_equation_said, create_equation. cbv zeta. destruct (equation_init _ _ _ _ _) as [u' [e0|x]]; [|reflexivity]. cbn [snd].
  destruct (sweep_objects _) as [e2 [[]|x]]; [|reflexivity]. unfold check_equation. destruct (eq_objs e2) as [d|]; [|reflexivity].
  destruct (forallb _ (dkeys d)); reflexivity.
Qed.
Lemma connect_same w p m1 m2 o i expr : get_model w m1 <> None ->
  erase (connect_said w p m1 m2 o i expr) = snd (connect_vars w p (CMModel m1) m2 (CVOne o) (CVOne i) expr).
Proof.
  intros N. unfold connect_said. destruct (get_model w m1) as [[s1 d1]|] eqn:G1; [|congruence]. destruct (get_model w m2) as [[s2 d2]|] eqn:G2.
  - destruct (mem_loc i (m_in s2) && mem_loc o (m_out s1)) eqn:E; [apply erase_lift|]. unfold connect_vars. rewrite G2, G1. cbn [cv_list forallb].
    rewrite !Bool.andb_true_r, E. reflexivity.
  - unfold connect_vars. rewrite G2. reflexivity.
Qed.

(** ** The texts *)
Lemma shows_here a p b : shows (a ++ p ++ b)%string p.
Proof. exists a, b. reflexivity. Qed.
Lemma shows_later a t p : shows t p -> shows (a ++ t)%string p.
Proof. intros (x & y & ->). exists (a ++ x)%string, y. now rewrite append_assoc_s. Qed.
Lemma shows_first p b : shows (p ++ b)%string p.
Proof. exact (shows_here "" p b). Qed.
Ltac show := first [apply shows_first | apply shows_later; show].

Lemma coherence_shows pn ex u v : exists t, failure_text pn ex (FCoherence (Some u) (Some v)) = Ok t /\ shows t (dim_text pn u) /\ shows t (dim_text pn v).
Proof.
  eexists. split; [reflexivity|]. split; show.
Qed.

(** ** Dimensions that differ look different *)
Definition body (pn : num -> string) (d : dict num) : string := join ", " (map (fun kv => "'" ++ fst kv ++ "': " ++ pn (snd kv))%string d).
Lemma append_cancel_l : forall a b c : string, (a ++ b)%string = (a ++ c)%string -> b = c.
Proof. induction a as [|x a IH]; intros b c H; [exact H|]. cbn in H. injection H as H. exact (IH _ _ H). Qed.
Lemma body_cons pn kv kv' r : body pn (kv :: kv' :: r) = ("'" ++ fst kv ++ "': " ++ pn (snd kv) ++ ", " ++ body pn (kv' :: r))%string.
Proof. unfold body. cbn [map]. rewrite join_cons. now rewrite !append_assoc_s. Qed.
Lemma body_tells pn : (forall x, has_char " " (pn x) = false) -> forall d d', map fst d = map fst d' -> (body pn d ++ "}")%string = (body pn d' ++ "}")%string ->
  map (fun kv => pn (snd kv)) d = map (fun kv => pn (snd kv)) d'.
Proof.
  intros P. induction d as [|kv d IH]; intros [|kv' d'] K E; try discriminate K; [reflexivity|]. cbn [map] in K. injection K as K1 K2.
  destruct d as [|kv1 d], d' as [|kv1' d']; try discriminate K2.
  - unfold body in E. cbn in E. rewrite K1 in E. injection E as E. rewrite !append_assoc_s in E. apply append_cancel_l in E. cbn in E. injection E as E.
    cbn [map]. f_equal. exact (append_cancel_r _ _ _ E).
  - rewrite !body_cons, K1 in E. rewrite !append_assoc_s in E. do 3 apply append_cancel_l in E.
    assert (X : forall x y, (pn x ++ ", " ++ y)%string = ((pn x ++ ",") ++ String " " y)%string) by (intros; now rewrite append_assoc_s).
    rewrite !X in E. apply split_char in E; [|rewrite has_char_app, P; reflexivity..]. destruct E as [E1 E2]. apply append_cancel_r in E1.
    cbn [map]. f_equal; [exact E1|]. exact (IH (kv1' :: d') K2 E2).
Qed.
Lemma dim_tells pn u v : (forall x, has_char " " (pn x) = false) -> dkeys (u_dim u) = dkeys (u_dim v) -> dim_text pn u = dim_text pn v ->
  forall k x y, exponent u k = Some x -> exponent v k = Some y -> pn x = pn y.
Proof.
  intros P K E. unfold dim_text in E. apply append_cancel_l in E. change (map fst (u_dim u) = map fst (u_dim v)) in K.
  assert (T := body_tells pn P (u_dim u) (u_dim v) K E). clear E. unfold exponent. revert K T.
  generalize (u_dim v). induction (u_dim u) as [|[a x0] d IH]; intros [|[a' x0'] d'] K T; try discriminate K; intros k x y Hx Hy; [discriminate Hx|].
  cbn [map fst snd] in K, T. injection K as <- K2. injection T as T1 T2. cbn [dget] in Hx, Hy. destruct (String.eqb k a); [congruence|].
  exact (IH d' K2 T2 k x y Hx Hy).
Qed.

(** The names of a unit of SI dimensions only, in their order. *)
Lemma dset_prefix (ks : list string) : forall (d : dict num) k v, (exists r, dkeys d = (ks ++ r)%list) -> exists r, dkeys (dset k v d) = (ks ++ r)%list.
Proof.
  intros d k v (r & H). assert (X : exists t, dkeys (dset k v d) = (dkeys d ++ t)%list).
  { clear H. induction d as [|[a x] d (t & IH)]; cbn [dset]; [exists [k]; reflexivity|]. destruct (String.eqb_spec k a) as [->|].
    - exists []. cbn. now rewrite app_nil_r.
    - exists t. cbn. f_equal. exact IH. }
  destruct X as (t & ->). rewrite H, <- app_assoc. eauto.
Qed.
Lemma init_prefix n d : exists r, dkeys (u_dim (unit_init n d)) = (si_names ++ r)%list.
Proof.
  unfold unit_init. cbn [u_dim]. assert (B : exists r, dkeys base_dim = (si_names ++ r)%list) by (exists []; reflexivity). revert B.
  generalize base_dim. induction (sort_items d) as [|kv l IH]; intros acc B; cbn [fold_left]; [exact B|]. apply IH. now apply dset_prefix.
Qed.
Lemma unit_prefix u : a_unit u -> exists r, dkeys (u_dim u) = (si_names ++ r)%list.
Proof.
  intros A. induction A as [n d _|u v _ _ _ _|u v _ _ _ _|u p _ _|u v r _ _ _ _ H]; try apply init_prefix.
  unfold unit_pow_unit in H. destruct (is_dimensionless v); [|discriminate]. injection H as <-. apply init_prefix.
Qed.
Lemma si_keys u : a_unit u -> si_only u -> dkeys (u_dim u) = si_names.
Proof.
  intros A S. destruct (unit_prefix u A) as (r & K). assert (N := proj1 (a_unit_wf u A)). rewrite K in N |- *. destruct r as [|k r]; [apply app_nil_r|exfalso].
  assert (I : In k (dkeys (u_dim u))) by (rewrite K; apply in_or_app; right; now left).
  destruct (in_keys_dget _ _ I) as [x Hx]. assert (J : In k si_names) by (apply S; unfold exponent; congruence).
  apply NoDup_remove_2 in N. apply N. apply in_or_app. now left.
Qed.

Lemma incoherent_exponent u v : dkeys (u_dim u) = dkeys (u_dim v) -> a_unit u -> coherent u v = Ok false ->
  exists k x y, exponent u k = Some x /\ exponent v k = Some y /\ neqb x y = false.
Proof.
  intros K A H. unfold coherent in H. assert (N := proj1 (a_unit_wf u A)).
  assert (S : forall kv, In kv (sort_items (u_dim u)) -> In kv (u_dim u)) by (intros kv; apply sort_items_in).
  revert S H. generalize (sort_items (u_dim u)). induction l as [|[k x] l IH]; intros S H; cbn [all_res] in H; [discriminate|].
  cbn [fst snd] in H. assert (I := S _ (or_introl eq_refl)). assert (G : dget k (u_dim u) = Some x) by (apply in_dget_nodup; assumption).
  destruct (dget k (u_dim v)) as [y|] eqn:Ev; [|discriminate]. cbn [rbind] in H. destruct (neqb x y) eqn:Q.
  - apply IH; [|exact H]. intros kv Hk. apply S. now right.
  - exists k, x, y. auto.
Qed.

Lemma texts_differ pn u v : honest_print pn -> a_unit u -> a_unit v -> si_only u -> si_only v -> finite_unit u -> finite_unit v ->
  coherent u v = Ok false -> dim_text pn u <> dim_text pn v.
Proof.
  intros [P1 P2] Au Av Su Sv Fu Fv C E. assert (K : dkeys (u_dim u) = dkeys (u_dim v)) by (rewrite !si_keys by assumption; reflexivity).
  destruct (incoherent_exponent u v K Au C) as (k & x & y & Hx & Hy & Q). assert (T := dim_tells pn u v P2 K E k x y Hx Hy).
  destruct (Fu k x Hx) as [r Hr], (Fv k y Hy) as [s Hs]. assert (R := P1 x y r s Hr Hs T).
  apply (neqb_value x y r s Hr Hs) in R. congruence.
Qed.

(** ** What each refusal says *)
Lemma sum_says pn ex u v f : unit_sum u v = Failed f -> failure_kind f = EDimCoherence ->
  coherent u v = Ok false /\ exists t, failure_text pn ex f = Ok t /\ shows t (dim_text pn u) /\ shows t (dim_text pn v).
Proof.
  unfold unit_sum. destruct (coherent u v) as [[]|e] eqn:C; [discriminate| |].
  - intros H _. injection H as <-. split; [reflexivity|]. apply coherence_shows.
  - intros H K. injection H as <-. cbn in K. subst e. exfalso. unfold coherent in C. revert C. generalize (sort_items (u_dim u)).
    induction l as [|[k x] l IH]; cbn [all_res]; [discriminate|]. cbn [fst snd]. destruct (dget k (u_dim v)); [|discriminate]. cbn [rbind].
    destruct (neqb x n); [exact IH|discriminate].
Qed.
Lemma lift_kind {A} (r : res A) f : lift r = Failed f -> r = Raise (failure_kind f).
Proof. destruct r; [discriminate|]. intros H. injection H as <-. reflexivity. Qed.
Lemma nodes_say pn ex a b f : node_add_said a (ONode b) = Failed f \/ node_sub_said a (ONode b) = Failed f -> failure_kind f = EDimCoherence ->
  coherent (nd_unit a) (nd_unit b) = Ok false /\ exists t, failure_text pn ex f = Ok t /\ shows t (dim_text pn (nd_unit a)) /\ shows t (dim_text pn (nd_unit b)).
Proof.
  intros H K. apply sum_says; [|exact K].
  assert (L : forall u, unit_sum (nd_unit a) (nd_unit b) = Done u -> exists n, unit_add (nd_unit a) (nd_unit b) = Ok n /\ unit_sub (nd_unit a) (nd_unit b) = Ok n).
  { intros u E. rewrite <- unit_sum_add, <- unit_sum_sub, E. cbn. eauto. }
  destruct H as [H|H]; cbn [node_add_said node_sub_said] in H; destruct (unit_sum (nd_unit a) (nd_unit b)) as [u|g]; try (now injection H as <-);
    destruct (L u eq_refl) as (n & E1 & E2); unfold node_add, node_sub in H; rewrite ?E1, ?E2 in H; discriminate H.
Qed.

Lemma power_silent pn ex a b f : node_pow_said a (ONode b) = Failed f -> failure_kind f = EDimCoherence -> failure_text pn ex f = Raise EAttribute.
Proof.
  cbn [node_pow_said]. destruct (is_dimensionless (nd_unit b)) eqn:D.
  - intros H K. apply lift_kind in H. unfold node_pow, unit_pow_unit in H. rewrite D in H. discriminate H.
  - intros H _. injection H as <-. reflexivity.
Qed.

Lemma value_says pn ex q a u f : set_value_said q a u = Failed f -> failure_kind f = EDimCoherence -> exists p t,
  a = SVQty p /\ (u = None -> coherent (q_units p) (q_units q) = Ok false) /\
  failure_text pn ex f = Ok t /\ shows t (dim_text pn (q_units q)) /\ shows t (dim_text pn (q_units p)).
Proof.
  assert (N : forall x y e, coherent x y = Raise e -> e = EKey).
  { intros x y e C. unfold coherent in C. revert C. generalize (sort_items (u_dim x)).
    induction l as [|[k z] l IH]; cbn [all_res]; [discriminate|]. cbn [fst snd]. destruct (dget k (u_dim y)); cbn [rbind]; [|congruence].
    destruct (neqb z n); [exact IH|discriminate]. }
  intros H K. destruct a as [p|[z|g]|]; cbn [set_value_said] in H.
  - destruct (isinstance_of p q); [|injection H as <-; discriminate K]. destruct u as [u|].
    + injection H as <-. destruct (coherence_shows pn ex (q_units q) (q_units p)) as (t & T). exists p, t. split; [reflexivity|]. split; [discriminate|exact T].
    + destruct (coherent _ _) as [[]|e] eqn:C; [discriminate H| |].
      * injection H as <-. destruct (coherence_shows pn ex (q_units q) (q_units p)) as (t & T). exists p, t. split; [reflexivity|]. split; [intros _; exact C|exact T].
      * injection H as <-. rewrite (N _ _ _ C) in K. discriminate K.
  - destruct u as [u|]; [|discriminate H]. destruct (coherent _ _) as [[]|e] eqn:C; [discriminate H| |]; injection H as <-; [discriminate K|].
    rewrite (N _ _ _ C) in K. discriminate K.
  - discriminate H.
  - injection H as <-. discriminate K.
Qed.

Lemma info_shows ex o : shows (info_text ex o) (names_text (ob_cons o)) /\ shows (info_text ex o) (names_text (ob_pars o)) /\ shows (info_text ex o) (names_text (ob_vars o)).
Proof. unfold info_text. split; [|split]; show. Qed.
Lemma residual_kind e a e' x : set_residual e a = (e', Raise x) -> x <> EUnexpectedObject.
Proof.
  assert (N : forall p q y, node_sub p q = Raise y -> y <> EUnexpectedObject).
  { intros p [n|k|] y H; unfold node_sub in H; [|discriminate|congruence]. unfold unit_sub in H.
    destruct (coherent (nd_unit p) (nd_unit n)) as [[]|z] eqn:C; [discriminate|cbn in H; congruence|]. cbn in H. injection H as <-.
    unfold coherent in C. revert C. generalize (sort_items (u_dim (nd_unit p))).
    induction l as [|[k v] l IH]; cbn [all_res]; [discriminate|]. cbn [fst snd]. destruct (dget k (u_dim (nd_unit n))); cbn [rbind]; [|congruence].
    destruct (neqb v n0); [exact IH|discriminate]. }
  assert (F : forall y e2 z, finish_residual y = (e2, Raise z) -> z <> EUnexpectedObject).
  { intros y e2 z H. unfold finish_residual in H. destruct (eq_expr y); [discriminate|congruence]. }
  destruct a as [n|l [n|k|]|]; cbn [set_residual]; intros H; try exact (F _ _ _ H); [| |congruence].
  - destruct (node_sub l (ONode n)) as [d|y] eqn:Hs; [exact (F _ _ _ H)|]. injection H as _ <-. exact (N _ _ _ Hs).
  - destruct (node_sub l _) as [d|y] eqn:Hs; [exact (F _ _ _ H)|]. injection H as _ <-. exact (N _ _ _ Hs).
Qed.
Lemma equation_says pn ex w name q arg f : build_eq (w_heap w) q = Ok arg -> create_equation_said w name arg = Failed f -> failure_kind f = EUnexpectedObject ->
  exists used t, failure_text pn ex f = Ok t /\ shows t (names_text used) /\
    shows t (names_text (dkeys (m_vars (w_mod w)))) /\ shows t (names_text (dkeys (m_pars (w_mod w)))) /\ shows t (names_text (dkeys (m_cons (w_mod w)))) /\
    (forall x, In x used <-> exists l o, eq_occurs l q /\ hget (w_heap w) l = Some o /\ q_name o = x) /\
    exists x, In x used /\ ~ In x (dkeys (m_vars (w_mod w))) /\ ~ In x (dkeys (m_pars (w_mod w))) /\ ~ In x (dkeys (m_cons (w_mod w))).
Proof.
  intros Hb H K. unfold create_equation_said, equation_init in H. cbv zeta in H.
  destruct (if String.eqb name "" then _ else _) as [u1 nm]. destruct (set_residual (blank_eqn nm) arg) as [e [[]|x]] eqn:Er; cbn [snd] in H.
  2: { injection H as <-. cbn in K. destruct (residual_kind _ _ _ _ Er K). }
  destruct (eq_data _ _ _ _ _ Hb Er) as (n & En & _ & _ & _ & (_ & M2 & M3) & _).
  unfold sweep_objects in H. cbn [eq_expr with_ename with_eowner] in H. rewrite En in H. cbn [eq_objs with_objs] in H.
  destruct (forallb _ _) eqn:Fb; [discriminate H|]. injection H as <-.
  exists (dkeys (nd_smap n)). eexists. split; [reflexivity|]. split; [show|].
  destruct (info_shows ex (gather_objects (w_mod w))) as (I1 & I2 & I3).
  split; [do 9 apply shows_later; exact I3|]. split; [do 9 apply shows_later; exact I2|]. split; [do 9 apply shows_later; exact I1|]. split.
  - intros x. split.
    + intros Hx. destruct (in_keys_dget _ _ Hx) as [l Hl]. destruct (M2 x l Hl) as [O (o & Ho & No)]. eauto.
    + intros (l & o & O & Ho & <-). destruct (M3 l O) as (o' & Ho' & G). replace o' with o in G by congruence.
      destruct (dget (q_name o) (nd_smap n)) eqn:Eg; [|congruence]. exact (dget_in_keys _ _ _ Eg).
  - assert (X : exists x, In x (dkeys (nd_smap n)) /\ mem_str x (declared (w_mod w)) = false).
    { clear - Fb. induction (dkeys (nd_smap n)) as [|x l IH]; [discriminate|]. cbn [forallb] in Fb. destruct (mem_str x (declared (w_mod w))) eqn:E.
      - destruct (IH Fb) as (y & Hy & Ey). exists y. split; [now right|exact Ey].
      - exists x. split; [now left|exact E]. }
    destruct X as (x & Hx & Ex). exists x. split; [exact Hx|].
    assert (N : ~ In x (declared (w_mod w))).
    { intros I. unfold mem_str in Ex. assert (T : existsb (String.eqb x) (declared (w_mod w)) = true) by (apply existsb_exists; exists x; split; [exact I|apply String.eqb_refl]). congruence. }
    unfold declared in N. rewrite !in_app_iff in N. tauto.
Qed.

Lemma connection_says pn ex w p m1 m2 o i expr s1 d1 s2 d2 f : get_model w m1 = Some (s1, d1) -> get_model w m2 = Some (s2, d2) ->
  connect_said w p m1 m2 o i expr = Failed f -> ~ (In i (m_in s2) /\ In o (m_out s1)) ->
  exists t, failure_kind f = EExposedVariable /\ failure_text pn ex f = Ok t /\
    shows t ("output variable name is " ++ object_name (pw_heap w) o ++ ",") /\ shows t ("input variable name is " ++ object_name (pw_heap w) i ++ ".") /\
    shows t ("output model(1) " ++ nl ++ " " ++ names_text (map (object_name (pw_heap w)) (m_out s1))) /\
    shows t ("input model(2) " ++ nl ++ " " ++ names_text (map (object_name (pw_heap w)) (m_in s2))).
Proof.
  intros G1 G2 H N. unfold connect_said in H. rewrite G1, G2 in H. destruct (mem_loc i (m_in s2) && mem_loc o (m_out s1)) eqn:E.
  - exfalso. apply N. apply andb_prop in E. destruct E as [E1 E2]. split; [now apply mem_loc_spec in E1|now apply mem_loc_spec in E2].
  - injection H as <-. eexists. split; [reflexivity|]. split; [reflexivity|].
    assert (K : forall part after before t, t = (before ++ part ++ after)%string -> shows t part) by (intros part after before t ->; exists before, after; reflexivity).
    set (outs := names_text _). set (ins := names_text _). set (a := object_name _ o). set (b := object_name _ i).
    pose (t1 := ("Non-exposed variable declaration in the " : string)%string). pose (t2 := (" " ++ nl ++ " and/or ")%string).
    pose (t3 := (". " ++ nl ++ " The declared ")%string). pose (t4 := (" and the ")%string).
    pose (P1 := ("output model(1) " ++ nl ++ " " ++ outs)%string). pose (P2 := ("input model(2) " ++ nl ++ " " ++ ins)%string).
    pose (P3 := ("output variable name is " ++ a ++ ",")%string). pose (P4 := ("input variable name is " ++ b ++ ".")%string).
    fold P1 P2 P3 P4. match goal with |- shows ?t _ /\ _ => replace t with (t1 ++ P1 ++ t2 ++ P2 ++ t3 ++ P3 ++ t4 ++ P4)%string end.
    2: { unfold t1, t2, t3, t4, P1, P2, P3, P4. rewrite !append_assoc_s. reflexivity. }
    split; [apply (K _ (t4 ++ P4)%string (t1 ++ P1 ++ t2 ++ P2 ++ t3)%string); rewrite !append_assoc_s; reflexivity|].
    split; [apply (K _ ""%string (t1 ++ P1 ++ t2 ++ P2 ++ t3 ++ P3 ++ t4)%string); rewrite !append_assoc_s, append_nil_r_s; reflexivity|].
    split; [apply (K _ (t2 ++ P2 ++ t3 ++ P3 ++ t4 ++ P4)%string t1); reflexivity|].
    apply (K _ (t3 ++ P3 ++ t4 ++ P4)%string (t1 ++ P1 ++ t2)%string). rewrite !append_assoc_s. reflexivity.
Qed.
