(** Facts about declarations and createEquation (C19, C20). *)
From Verif Require Import Base BaseFacts Num NumFacts UnitModel UnitFacts Sympy Node Build EquationModel ModelModel
  SpecUnits UnitThms SpecExpr SpecQty SpecModel BuildFacts EquationFacts.
From Coq Require Import Reals.
Notation num := Verif.Num.num.

(** ** Display symbols are in the symbolic map *)
Lemma exact_map_sub h (S T : loc -> Prop) m m' :
  exact_map h S m -> exact_map h T m' -> (forall l, S l -> T l) -> incl (dkeys m) (dkeys m').
Proof.
  intros [A1 [A2 A3]] [B1 [B2 B3]] HST x Hx. destruct (in_keys_dget _ _ Hx) as [l Hl].
  destruct (A2 x l Hl) as [HS [q [E <-]]]. destruct (B3 l (HST l HS)) as [q' [E' N]].
  replace q' with q in N by congruence. destruct (dget (q_name q) m') eqn:G; [|congruence].
  now apply dget_in_keys in G.
Qed.

Lemma maps_sym_incl h n S : maps_ok h n S -> incl (fsyms (nd_sym n)) (dkeys (nd_smap n)).
Proof.
  intros [M1 [M2 M3]] x Hx. apply M3 in Hx. revert x Hx.
  apply (exact_map_sub h _ _ _ _ M2 M1). tauto.
Qed.

Lemma build_repr_mut h :
  (forall e n, build h e = Ok n -> incl (fsyms (nd_repr n)) (dkeys (nd_smap n))) /\
  (forall (l : uargs loc), True).
Proof.
  apply uexpr_uargs_ind; try (intros; exact I); simpl.
  - intros l n H. apply build_qty_shape in H. destruct H as [q [E ->]].
    unfold qty_call. destruct (q_spec q); simpl; intros x Hx; exact Hx.
  - intros o e1 IH1 e2 IH2 n H. binv. apply node_op_ok_shape in H.
    destruct H as [_ [_ [H1 [_ [_ H2]]]]]. rewrite H1. intros y Hy. apply in_dkeys_dupdate.
    apply H2 in Hy. destruct Hy; [left; now apply (IH1 _ Hb)|right; now apply (IH2 _ Hb0)].
  - intros o e IH k n H. binv. apply node_op_num_shape in H.
    destruct H as [_ [_ [H1 [_ [_ H2]]]]]. rewrite H1. intros y Hy. apply (IH _ Hb). now apply H2.
  - intros o k e IH n H. binv. apply node_rop_shape in H.
    destruct H as [_ [_ [H1 [_ [_ H2]]]]]. rewrite H1. intros y Hy. apply (IH _ Hb). now apply H2.
  - intros f e IH n H. binv. apply node_fun_shape in H. subst n. exact (IH _ Hb).
  - discriminate.
  - intros l t n H. apply build_diff_shape in H.
    destruct H as [q [E [_ [_ [p [Ep [Hp [_ [-> [-> _]]]]]]]]]]. simpl. intros x Hx; exact Hx.
  - intros mx l _ n H. assert (M := build_maps h (UMinMax mx l) n H). binv.
    apply node_minmax_shape in H. destruct H as [_ [-> _]]. now apply maps_sym_incl in M.
Qed.

Lemma build_repr_incl h e n : build h e = Ok n -> incl (fsyms (nd_repr n)) (dkeys (nd_smap n)).
Proof. apply (proj1 (build_repr_mut h)). Qed.

(** ** What a written equation becomes *)

Definition side_ok (h : heap) (n : node) : Prop :=
  NoDup (dkeys (nd_smap n)) /\ incl (fsyms (nd_sym n)) (dkeys (nd_smap n)) /\
  incl (fsyms (nd_repr n)) (dkeys (nd_smap n)).

Lemma build_side_ok h e n : build h e = Ok n -> side_ok h n.
Proof.
  intros H. assert (M := build_maps h e n H). split; [apply M|]. split; [now apply maps_sym_incl in M|].
  now apply build_repr_incl in H.
Qed.

Lemma eq_data h q arg name e :
  build_eq h q = Ok arg -> set_residual (blank_eqn name) arg = (e, Ok tt) ->
  exists n, eq_expr e = Some n /\ eq_name e = name /\ eq_type e = type_of n /\ one_class (nd_ty n) /\
    exact_map h (fun l => eq_occurs l q) (nd_smap n) /\
    incl (fsyms (nd_sym n)) (dkeys (nd_smap n)) /\ incl (fsyms (nd_repr n)) (dkeys (nd_smap n)) /\
    (forall v en, env_for h v en -> den (nd_sym n) en = residual_meaning h v q) /\
    (forall a b, eq_elem e = Some (a, b) ->
       side_ok h a /\ side_ok h b /\ incl (dkeys (nd_smap a)) (dkeys (nd_smap n)) /\
       incl (dkeys (nd_smap b)) (dkeys (nd_smap n))).
Proof.
  intros Hq Hr.
  assert (Hty : forall n, eq_expr e = Some n -> eq_type e = type_of n) by (intros n; now apply set_residual_type with (1 := Hr)).
  assert (Hnm : eq_name e = name) by (pose proof (set_residual_name (blank_eqn name) arg) as N; rewrite Hr in N; exact N).
  destruct q as [x|l r|l k]; simpl in Hq; binv.
  - unfold set_residual, finish_residual in Hr. simpl in Hr. injection Hr as <-. simpl in *.
    exists x0. assert (M := build_maps _ _ _ Hb).
    split; [reflexivity|]. split; [reflexivity|]. split; [reflexivity|]. split; [now apply build_class in Hb|].
    split; [apply M|]. split; [now apply maps_sym_incl in M|]. split; [now apply build_repr_incl in Hb|].
    split; [intros v en He; now apply build_meaning|]. discriminate.
  -
    unfold set_residual in Hr. destruct (node_sub x (ONode x0)) as [d|] eqn:Es; [|discriminate].
    unfold finish_residual in Hr. cbv beta iota zeta delta [with_form with_expr with_elem with_type with_objs eq_expr] in Hr.
    injection Hr as <-. simpl in *. exists d.
    assert (Hbd : build h (UBin BSub l r) = Ok d) by (simpl; rewrite Hb; simpl; rewrite Hb0; exact Es).
    assert (M := build_maps _ _ _ Hbd).
    split; [reflexivity|]. split; [reflexivity|]. split; [reflexivity|]. split; [now apply build_class in Hbd|].
    split; [apply M|]. split; [now apply maps_sym_incl in M|]. split; [now apply build_repr_incl in Hbd|].
    split; [intros v en He; exact (build_meaning h v en _ _ He Hbd)|].
    intros a b Hab. injection Hab as <- <-.
    split; [now apply build_side_ok in Hb|]. split; [now apply build_side_ok in Hb0|].
    assert (M1 := build_maps _ _ _ Hb). assert (M2 := build_maps _ _ _ Hb0). simpl in M.
    split; [apply (exact_map_sub h _ _ _ _ (proj1 M1) (proj1 M)); tauto|].
    apply (exact_map_sub h _ _ _ _ (proj1 M2) (proj1 M)); tauto.
  -
    unfold set_residual in Hr. destruct (node_sub x (ONode (number_node k (nd_unit x)))) as [d|] eqn:Es; [|discriminate].
    unfold finish_residual in Hr. cbv beta iota zeta delta [with_form with_expr with_elem with_type with_objs eq_expr] in Hr.
    injection Hr as <-. simpl in *. exists d.
    assert (M := build_maps _ _ _ Hb). assert (N := build_repr_incl _ _ _ Hb).
    assert (P := maps_sym_incl _ _ _ M).
    unfold unit_sub in Es. destruct (coherent (nd_unit x) (nd_unit x)) as [[]|] eqn:Ec; simpl in Es; try discriminate.
    injection Es as <-. simpl.
    split; [reflexivity|]. split; [reflexivity|]. split; [reflexivity|].
    split; [apply ty_prec_class|].
    split; [apply M|]. split; [now rewrite app_nil_r|]. split; [now rewrite app_nil_r|].
    split.
    { intros v en He. rewrite (build_meaning h v en l x He Hb). unfold lift2, obind, arith.
      destruct (meaning h v l), (num_value k); reflexivity. }
    intros a b Hab. injection Hab as <- <-.
    split; [now apply build_side_ok in Hb|].
    split; [split; [constructor|split; intros y []]|]. split; [intros y Hy; exact Hy|intros y []].
Qed.

(** ** createEquation *)
Lemma mem_str_spec x l : mem_str x l = true <-> In x l.
Proof.
  unfold mem_str. rewrite existsb_exists. split.
  - intros [y [Hy E]]. apply String.eqb_eq in E. now subst.
  - intros H. exists x. split; [exact H|apply String.eqb_refl].
Qed.

Lemma forallb_mem (l k : list string) : forallb (fun x => mem_str x k) l = true <-> incl l k.
Proof.
  rewrite forallb_forall. split.
  - intros H x Hx. apply mem_str_spec. now apply H.
  - intros H x Hx. apply mem_str_spec. now apply H.
Qed.

Lemma init_outcome u t name arg owner :
  exists u', equation_init u t name (Some arg) owner =
    (u', match set_residual (blank_eqn (if String.eqb name "" then snd (gen_rnd_str u t) else name)) arg with
         | (e, Ok _) => Ok (with_eowner e owner)
         | (_, Raise x) => Raise x
         end).
Proof.
  unfold equation_init. destruct (String.eqb name "").
  - destruct (gen_rnd_str u t) as [u1 nm] eqn:G. simpl snd.
    destruct (set_residual (blank_eqn nm) arg) as [e [[]|x]]; eauto.
  - destruct (set_residual (blank_eqn name) arg) as [e [[]|x]]; eauto.
Qed.

(** The name under which createEquation stores an equation. *)
Definition stored_name (w : mworld) (name : string) : string :=
  full_name (if String.eqb name "" then str_nat (S (w_uids w main_thread)) else name) (m_name (w_mod w)).

Lemma create_outcome w name arg check :
  exists u',
  create_equation w name (Some arg) check =
  match set_residual (blank_eqn (if String.eqb name "" then str_nat (S (w_uids w main_thread)) else name)) arg with
  | (_, Raise x) => (mkW (w_heap w) u' (w_mod w), Raise x)
  | (e, Ok _) =>
      match eq_expr e with
      | None => (mkW (w_heap w) u' (w_mod w), Raise EAttribute)
      | Some n =>
          let e2 := mkEqn (stored_name w name) (Some n) (eq_elem e) (eq_elementary e) (eq_type e)
                          (Some (nd_smap n)) (m_name (w_mod w)) in
          let store := (mkW (w_heap w) u' (with_eqs (w_mod w) (dset (stored_name w name) e2 (m_eqs (w_mod w)))), Ok e2) in
          if check then if forallb (fun k => mem_str k (declared (w_mod w))) (dkeys (nd_smap n)) then store
                        else (mkW (w_heap w) u' (w_mod w), Raise EUnexpectedObject)
          else store
      end
  end.
Proof.
  destruct (init_outcome (w_uids w) main_thread name arg (m_name (w_mod w))) as [u' Hu].
  exists u'. unfold create_equation. rewrite Hu. simpl snd.
  set (nm := if String.eqb name "" then str_nat (S (w_uids w main_thread)) else name) in *.
  pose proof (set_residual_name (blank_eqn nm) arg) as N.
  destruct (set_residual (blank_eqn nm) arg) as [e [[]|x]] eqn:Er; [|reflexivity].
  simpl in N. unfold sweep_objects. simpl. destruct (eq_expr e) as [n|] eqn:Ee; [|reflexivity].
  unfold with_objs, with_ename, with_eowner. simpl. rewrite Ee, N. fold (stored_name w name).
  unfold check_equation. simpl. unfold stored_name. fold nm.
  destruct check; [|reflexivity]. destruct (forallb _ _); reflexivity.
Qed.

Lemma well_formed_sets h q : well_formed_eq h q ->
  exists arg e, build_eq h q = Ok arg /\ forall name, set_residual (blank_eqn name) arg = (with_ename e name, Ok tt).
Proof.
  assert (Aux : forall a b, comparable (nd_unit a) (nd_unit b) -> same_dimension (nd_unit a) (nd_unit b) ->
            exists d, node_sub a (ONode b) = Ok d).
  { intros a b (C1 & C2 & C3 & C4 & C5) Hd. destruct (coherent_decides _ _ C1 C2 C3 C4 C5) as [c [Ec Hc]].
    assert (c = true) as -> by now apply Hc. destruct (node_sub_coherent _ _ Ec) as [d [Hs _]]. eauto. }
  destruct q as [x|l r|l k]; simpl.
  - intros [n ->]. eexists (EANode n), (with_ename (mkEqn "" _ _ _ _ _ _) ""). split; [reflexivity|]. intros name. reflexivity.
  - intros [a [b [-> [-> [Hc Hd]]]]]. simpl. destruct (Aux a b Hc Hd) as [d Es].
    eexists (EATuple a (ONode b)), (mkEqn "" _ _ _ _ _ _). split; [reflexivity|]. intros name.
    unfold set_residual. rewrite Es. reflexivity.
  - intros [a [-> Hc]]. simpl.
    destruct (Aux a (number_node k (nd_unit a)) Hc (same_dimension_refl _)) as [d Es].
    eexists (EATuple a (ONum k)), (mkEqn "" _ _ _ _ _ _). split; [reflexivity|]. intros name.
    unfold set_residual. rewrite Es. reflexivity.
Qed.

Lemma create_decided w name q :
  well_formed_eq (w_heap w) q ->
  (uses_declared w q ->
     exists w' e, user_create w name q true = (w', Ok e) /\
       w_heap w' = w_heap w /\ w_mod w' = with_eqs (w_mod w) (dset (eq_name e) e (m_eqs (w_mod w))) /\
       (name <> "" -> eq_name e = full_name name (m_name (w_mod w))) /\
       exists n, eq_expr e = Some n /\
         forall v en, env_for (w_heap w) v en -> den (nd_sym n) en = residual_meaning (w_heap w) v q) /\
  (~ uses_declared w q ->
     exists w', user_create w name q true = (w', Raise EUnexpectedObject) /\
       w_heap w' = w_heap w /\ w_mod w' = w_mod w).
Proof.
  intros Hw. destruct (well_formed_sets _ _ Hw) as [arg [e0 [Hb Hs]]]. unfold user_create. rewrite Hb.
  destruct (create_outcome w name arg true) as [u' ->].
  set (nm := if String.eqb name "" then str_nat (S (w_uids w main_thread)) else name).
  rewrite (Hs nm). assert (Hd := Hs nm). apply (eq_data _ _ _ _ _ Hb) in Hd.
  destruct Hd as [n [En [Nn [Ty [Cl [M [I1 [I2 [V Sd]]]]]]]]]. simpl in En. cbn [eq_expr with_ename]. rewrite En.
  assert (Dec : incl (dkeys (nd_smap n)) (declared (w_mod w)) <-> uses_declared w q).
  { destruct M as [M1 [M2 M3]]. split.
    - intros Hi l o Ho Hl. apply Hi. destruct (M3 l Ho) as [o' [E' G]].
      replace o' with o in G by congruence. destruct (dget (q_name o) (nd_smap n)) eqn:Eg; [|congruence].
      now apply dget_in_keys in Eg.
    - intros Hu x Hx. destruct (in_keys_dget _ _ Hx) as [l Hl]. destruct (M2 x l Hl) as [Ho [o [E <-]]].
      exact (Hu l o Ho E). }
  split; intros Hu.
  - apply Dec in Hu. apply forallb_mem in Hu. cbv zeta. rewrite Hu.
    do 2 eexists. split; [reflexivity|]. simpl. split; [reflexivity|]. split; [reflexivity|]. split.
    + intros Hne. unfold stored_name. apply String.eqb_neq in Hne. now rewrite Hne.
    + exists n. split; [reflexivity|exact V].
  - cbv zeta. destruct (forallb _ _) eqn:F.
    + exfalso. apply Hu, Dec, forallb_mem, F.
    + eexists. split; [reflexivity|]. split; reflexivity.
Qed.

(** ** A model only holds equations about its own objects *)
Lemma in_dset {V} k (v : V) d x y : In (x, y) (dset k v d) -> (x = k /\ y = v) \/ In (x, y) d.
Proof.
  induction d as [|[k' v'] r IH]; simpl.
  - intros [E|[]]. injection E as <- <-. now left.
  - destruct (String.eqb_spec k k') as [->|Hne]; simpl.
    + intros [E|H]; [injection E as <- <-; now left|]. right. now right.
    + intros [E|H]; [right; now left|]. destruct (IH H) as [?|?]; [now left|]. right. now right.
Qed.

Lemma own_mono m m' : own_equations m -> m_eqs m' = m_eqs m -> incl (declared m) (declared m') -> own_equations m'.
Proof.
  intros H E D k e He. rewrite E in He. destruct (H k e He) as [n [H1 [H2 [d [H3 H4]]]]].
  exists n. split; [exact H1|]. split; [now apply incl_tran with (2 := D)|].
  exists d. split; [exact H3|]. now apply incl_tran with (2 := D).
Qed.

Lemma declared_vars m k l : incl (declared m) (declared (with_vars m (dset k l (m_vars m)))).
Proof.
  intros x. unfold declared. simpl. rewrite !in_app_iff, in_dkeys_dset. tauto.
Qed.
Lemma declared_pars m k l : incl (declared m) (declared (with_pars m (dset k l (m_pars m)))).
Proof.
  intros x. unfold declared. simpl. rewrite !in_app_iff, in_dkeys_dset. tauto.
Qed.
Lemma declared_cons m k l : incl (declared m) (declared (with_cons m (dset k l (m_cons m)))).
Proof.
  intros x. unfold declared. simpl. rewrite !in_app_iff, in_dkeys_dset. tauto.
Qed.

Lemma create_variable_own h m n u ex ty v h' m' r :
  create_variable h m n u ex ty v = (h', m', r) -> own_equations m -> own_equations m'.
Proof.
  unfold create_variable. intros H O.
  destruct ex; [destruct (String.eqb ty "input"); [|destruct (String.eqb ty "output")]|];
    injection H as <- <- <-; (apply (own_mono m); [exact O|reflexivity|]); apply declared_vars.
Qed.

Lemma resolve_created w name q arg :
  build_eq (w_heap w) q = Ok arg ->
  forall w' e, create_equation w name (Some arg) true = (w', Ok e) -> own_equations (w_mod w) -> own_equations (w_mod w').
Proof.
  intros Hb w' e H O. destruct (create_outcome w name arg true) as [u' E]. rewrite E in H. clear E.
  destruct (set_residual _ arg) as [e0 [[]|x]] eqn:Er; [|discriminate].
  assert (D := Er). apply (eq_data _ _ _ _ _ Hb) in D.
  destruct D as [n [En [_ [_ [_ [M [I1 [I2 _]]]]]]]]. rewrite En in H. cbv zeta in H.
  destruct (forallb _ _) eqn:F; [|discriminate]. injection H as <- <-. simpl.
  apply forallb_mem in F. intros k e' He. simpl in He. apply in_dset in He. destruct He as [[-> ->]|He].
  - exists n. split; [reflexivity|]. split.
    + change (incl (fsyms (nd_sym n)) (declared (w_mod w))). now apply incl_tran with (2 := F).
    + exists (nd_smap n). split; [reflexivity|exact F].
  - exact (O k e' He).
Qed.

Lemma run_cmd_own c w w' r : checked c = true -> run_cmd w c = (w', r) -> own_equations (w_mod w) -> own_equations (w_mod w').
Proof.
  intros Hc H O. destruct c as [a n u ex ty v|a n u v|a n u v|a v u|a|a n q check]; simpl in H.
  - unfold assign_qty in H. destruct (create_variable (w_heap w) (w_mod w) n u ex ty v) as [[h' m'] [l|x]] eqn:E;
      injection H as <- <-; simpl; apply (create_variable_own _ _ _ _ _ _ _ _ _ _ E) in O; [|exact O].
    apply (own_mono m'); [exact O|reflexivity|apply incl_refl].
  - unfold assign_qty, create_parameter in H. injection H as <- <-. simpl.
    apply (own_mono (w_mod w)); [exact O|reflexivity|apply declared_pars].
  - unfold assign_qty, create_constant in H. injection H as <- <-. simpl.
    apply (own_mono (w_mod w)); [exact O|reflexivity|apply declared_cons].
  - destruct (attr_qty (w_mod w) a) as [l|x]; [|injection H as <- <-; exact O].
    destruct (match v with SANum n => _ | SAAttr b => _ end) as [sv|x]; [|injection H as <- <-; exact O].
    destruct (heap_set_value (w_heap w) l sv u) as [h' r']. injection H as <- <-. exact O.
  - destruct (attr_qty (w_mod w) a) as [l|x]; [|injection H as <- <-; exact O].
    destruct (hget (w_heap w) l) as [q|]; [|injection H as <- <-; exact O].
    destruct (qkind_eqb (q_kind q) KVariable); injection H as <- <-; exact O.
  - simpl in Hc. subst check.
    destruct (rbind (resolve_eq (attr_qty (w_mod w)) q) (fun q' => build_eq (w_heap w) q')) as [arg|x] eqn:Eb;
      [|injection H as <- <-; exact O].
    binv. destruct (create_equation w n (Some arg) true) as [w1 [e|x1]] eqn:Ec.
    + injection H as <- <-. simpl. apply (own_mono (w_mod w1)); [|reflexivity|apply incl_refl].
      exact (resolve_created w n _ arg Eb w1 e Ec O).
    + injection H as <- <-. destruct (create_outcome w n arg true) as [u' E]. rewrite E in Ec.
      destruct (set_residual _ arg) as [e0 [[]|x2]]; [|injection Ec as <- _; exact O].
      destruct (eq_expr e0) as [nn|]; [|injection Ec as <- _; exact O].
      cbv zeta in Ec. destruct (forallb _ _); [discriminate|]. injection Ec as <- _. exact O.
Qed.

Lemma run_cmds_own cs : forall w w' r, forallb checked cs = true -> run_cmds w cs = (w', r) ->
  own_equations (w_mod w) -> own_equations (w_mod w').
Proof.
  induction cs as [|c cs IH]; intros w w' r Hc H O; simpl in *.
  - injection H as <- <-. exact O.
  - apply andb_prop in Hc. destruct Hc as [H1 H2].
    destruct (run_cmd w c) as [w1 [[]|x]] eqn:E.
    + apply (IH w1 w' r H2 H). exact (run_cmd_own c w w1 _ H1 E O).
    + injection H as <- <-. exact (run_cmd_own c w w1 _ H1 E O).
Qed.

Lemma fresh_own name : own_equations (new_model name).
Proof. intros k e []. Qed.

(** Attempts that fail may be retried: a session of independent statements, each
    one possibly raising. *)
Definition run_session (w : mworld) (cs : list cmd) : mworld := fold_left (fun w c => fst (run_cmd w c)) cs w.

Lemma run_session_own cs : forall w, forallb checked cs = true -> own_equations (w_mod w) ->
  own_equations (w_mod (run_session w cs)).
Proof.
  induction cs as [|c cs IH]; intros w Hc O; simpl in *; [exact O|].
  apply andb_prop in Hc. destruct Hc as [H1 H2]. apply (IH _ H2).
  destruct (run_cmd w c) as [w1 r] eqn:E. exact (run_cmd_own c w w1 r H1 E O).
Qed.

(** ** Names *)
Lemma strip_full n m : strip_name (full_name n m) m = n.
Proof. unfold strip_name, full_name. apply (drop_last_append n ("_" ++ m)). Qed.

Lemma object_full n m : m <> "" -> object_name (full_name n m) m = n.
Proof. intros H. unfold object_name. apply String.eqb_neq in H. rewrite H. apply strip_full. Qed.

Lemma full_inj_same n n' m : full_name n m = full_name n' m -> n = n'.
Proof. intros H. rewrite <- (strip_full n m), H. apply strip_full. Qed.

Lemma no_underscore_app a b : no_underscore (a ++ b)%string <-> no_underscore a /\ no_underscore b.
Proof. induction a as [|c a IH]; simpl; [tauto|]. rewrite IH. tauto. Qed.

Lemma suffix_split : forall a b m m', no_underscore m -> no_underscore m' ->
  (a ++ "_" ++ m = b ++ "_" ++ m')%string -> a = b /\ m = m'.
Proof.
  induction a as [|c a IH]; intros b m m' Hm Hm' H.
  - destruct b as [|d b]; simpl in H.
    + injection H as ->. auto.
    + injection H as _ H2. exfalso. subst m.
      apply no_underscore_app in Hm. destruct Hm as [_ [H _]]. now apply H.
  - destruct b as [|d b]; simpl in H.
    + injection H as _ H2. exfalso. subst m'.
      apply no_underscore_app in Hm'. destruct Hm' as [_ [H _]]. now apply H.
    + injection H as -> H. destruct (IH b m m' Hm Hm' H) as [-> ->]. auto.
Qed.

Lemma full_inj n m n' m' : no_underscore m -> no_underscore m' ->
  full_name n m = full_name n' m' -> n = n' /\ m = m'.
Proof. apply suffix_split. Qed.
