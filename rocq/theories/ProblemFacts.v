(** Facts about sessions and resolved problems (C24-C29). *)
From Verif Require Import Base BaseFacts Num NumFacts UnitModel UnitFacts Sympy Node Build EquationModel ModelModel ProblemModel
  SpecUnits UnitThms SpecExpr SpecQty QtyFacts SpecModel BuildFacts EquationFacts ModelFacts SpecInc IncFacts SpecCall CallFacts
  SpecProblem.
From Coq Require Import Reals Permutation.
Notation num := Verif.Num.num.

(** ** What one model's operations keep *)
Definition objs_ok (h : heap) (d : dict loc) : Prop :=
  NoDup (dkeys d) /\ forall x l, In (x, l) d -> exists q, hget h l = Some q /\ q_name q = x.
Definition dict_ok (h : heap) (k : qkind) (d : dict loc) : Prop :=
  NoDup (dkeys d) /\ forall x l, In (x, l) d -> exists q, hget h l = Some q /\ q_name q = x /\ q_kind q = k.
Definition eqn_ok (h : heap) (e : eqn) : Prop :=
  exists n d, eq_expr e = Some n /\ eq_objs e = Some d /\ objs_ok h d /\ eq_type e <> None /\
              (eq_elementary e = true -> eq_elem e <> None).
Definition model_ok (h : heap) (m : mstate) : Prop :=
  dict_ok h KVariable (m_vars m) /\ dict_ok h KParameter (m_pars m) /\ dict_ok h KConstant (m_cons m) /\
  NoDup (dkeys (m_eqs m)) /\ forall k e, In (k, e) (m_eqs m) -> eqn_ok h e.

Definition grows (h h' : heap) : Prop :=
  forall l q, hget h l = Some q -> exists q', hget h' l = Some q' /\ q_name q' = q_name q /\ q_kind q' = q_kind q.

Lemma grows_refl h : grows h h.
Proof. intros l q H. exists q. auto. Qed.
Lemma grows_trans a b c : grows a b -> grows b c -> grows a c.
Proof.
  intros H K l q G. destruct (H l q G) as (q1 & G1 & N1 & K1). destruct (K l q1 G1) as (q2 & G2 & N2 & K2).
  exists q2. repeat split; congruence.
Qed.
Lemma grows_app h t : grows h (h ++ t).
Proof. intros l q H. exists q. split; [now apply hget_app|auto]. Qed.
Lemma grows_hset h l q q' : hget h l = Some q -> q_name q' = q_name q -> q_kind q' = q_kind q -> grows h (hset h l q').
Proof.
  intros G N K i p Gi. destruct (Nat.eq_dec i l) as [->|Hne].
  - exists q'. rewrite hget_hset_eq by now apply hget_lt in G. replace p with q by congruence. auto.
  - exists p. rewrite hget_hset_neq by exact Hne. auto.
Qed.

Lemma objs_grow h h' d : grows h h' -> objs_ok h d -> objs_ok h' d.
Proof.
  intros G [N H]. split; [exact N|]. intros x l Hin. destruct (H x l Hin) as (q & E & Nq).
  destruct (G l q E) as (q' & E' & N' & _). exists q'. split; congruence.
Qed.
Lemma dict_grow h h' k d : grows h h' -> dict_ok h k d -> dict_ok h' k d.
Proof.
  intros G [N H]. split; [exact N|]. intros x l Hin. destruct (H x l Hin) as (q & E & Nq & K).
  destruct (G l q E) as (q' & E' & N' & K'). exists q'. repeat split; congruence.
Qed.
Lemma eqn_grow h h' e : grows h h' -> eqn_ok h e -> eqn_ok h' e.
Proof. intros G (n & d & A & B & C & D). exists n, d. split; [exact A|]. split; [exact B|]. split; [now apply (objs_grow h)|exact D]. Qed.
Lemma model_grow h h' m : grows h h' -> model_ok h m -> model_ok h' m.
Proof.
  intros G (A & B & C & D & E). split; [now apply (dict_grow h)|]. split; [now apply (dict_grow h)|].
  split; [now apply (dict_grow h)|]. split; [exact D|]. intros k e Hin. apply (eqn_grow h); [exact G|now apply (E k)].
Qed.

Record tr (h : heap) (m : mstate) (h' : heap) (m' : mstate) : Prop := mkTr {
  tr_grows : grows h h';
  tr_ok : model_ok h m -> model_ok h' m';
  tr_name : m_name m' = m_name m;
  tr_keys : kincl m m';
  tr_vars : forall l q, hget h' l = Some q -> q_kind q = KVariable ->
              (exists q0, hget h l = Some q0 /\ q_kind q0 = KVariable /\ q_name q0 = q_name q) \/ In (q_name q) (dkeys (m_vars m'))
}.

Lemma tr_refl h m : tr h m h m.
Proof. constructor; auto using grows_refl, kincl_refl. intros l q G K. left. exists q. auto. Qed.
Lemma tr_trans h m h1 m1 h2 m2 : tr h m h1 m1 -> tr h1 m1 h2 m2 -> tr h m h2 m2.
Proof.
  intros A B. constructor.
  - exact (grows_trans _ _ _ (tr_grows _ _ _ _ A) (tr_grows _ _ _ _ B)).
  - intros H. apply (tr_ok _ _ _ _ B), (tr_ok _ _ _ _ A), H.
  - now rewrite (tr_name _ _ _ _ B), (tr_name _ _ _ _ A).
  - exact (kincl_trans _ _ _ (tr_keys _ _ _ _ A) (tr_keys _ _ _ _ B)).
  - intros l q G K. destruct (tr_vars _ _ _ _ B l q G K) as [(q0 & G0 & K0 & N0)|Hin]; [|now right].
    destruct (tr_vars _ _ _ _ A l q0 G0 K0) as [(q1 & G1 & K1 & N1)|Hin].
    + left. exists q1. repeat split; congruence.
    + right. rewrite <- N0. now apply (tr_keys _ _ _ _ B).
Qed.

(** Changes that only concern attributes and exposure lists. *)
Lemma tr_same h m m' : m_name m' = m_name m -> m_vars m' = m_vars m -> m_pars m' = m_pars m -> m_cons m' = m_cons m ->
  m_eqs m' = m_eqs m -> tr h m h m'.
Proof.
  intros A B C D E. constructor; auto using grows_refl.
  - unfold model_ok. now rewrite B, C, D, E.
  - unfold kincl. rewrite B, C, D, E. repeat split; apply incl_refl.
  - intros l q G K. left. exists q. auto.
Qed.

Lemma tr_heap h m h' : grows h h' -> List.length h' = List.length h -> tr h m h' m.
Proof.
  intros G L. constructor; auto using kincl_refl.
  - intros H. now apply (model_grow h).
  - intros l q Gl K. left. destruct (hget h l) as [q0|] eqn:E.
    + exists q0. destruct (G l q0 E) as (q1 & G1 & N1 & K1). repeat split; congruence.
    + exfalso. apply hget_lt in Gl. rewrite L in Gl. apply nth_error_Some in Gl. now apply Gl.
Qed.

(** Heap locations of an extended heap. *)
Lemma hget_last h (q : qty) : hget (h ++ [q]) (List.length h) = Some q.
Proof. unfold hget. rewrite nth_error_app2, Nat.sub_diag by lia. reflexivity. Qed.
Lemma hget_snoc h (q : qty) l p : hget (h ++ [q]) l = Some p -> hget h l = Some p \/ p = q.
Proof.
  intros H. destruct (Nat.lt_ge_cases l (List.length h)) as [L|L].
  - left. unfold hget in *. now rewrite nth_error_app1 in H.
  - right. unfold hget in H. rewrite nth_error_app2 in H by exact L.
    destruct (l - List.length h)%nat as [|k]; [now injection H|destruct k; discriminate].
Qed.

Lemma dict_add h k d q : dict_ok h k d -> q_kind q = k -> dict_ok (h ++ [q]) k (dset (q_name q) (List.length h) d).
Proof.
  intros [N H] K. split; [now apply nodup_dset|]. intros x l Hin. apply in_dset in Hin. destruct Hin as [[-> ->]|Hin].
  - exists q. split; [apply hget_last|auto].
  - destruct (H x l Hin) as (p & G & Np). exists p. split; [now apply hget_app|exact Np].
Qed.

Lemma tr_var h m q : q_kind q = KVariable ->
  tr h m (h ++ [q]) (with_vars m (dset (q_name q) (List.length h) (m_vars m))).
Proof.
  intros K. constructor.
  - apply grows_app.
  - intros H. assert (G := grows_app h [q]). destruct H as (A & B & C & D & E).
    split; [now apply dict_add|]. split; [now apply (dict_grow h)|]. split; [now apply (dict_grow h)|].
    split; [exact D|]. intros k e Hin. apply (eqn_grow h); [exact G|now apply (E k)].
  - reflexivity.
  - repeat split; simpl; try apply incl_refl. apply incl_dset.
  - intros l p G Kp. apply hget_snoc in G. destruct G as [G| ->].
    + left. exists p. auto.
    + right. simpl. apply in_dkeys_dset. now left.
Qed.
Lemma tr_par h m q : q_kind q = KParameter ->
  tr h m (h ++ [q]) (with_pars m (dset (q_name q) (List.length h) (m_pars m))).
Proof.
  intros K. constructor.
  - apply grows_app.
  - intros H. assert (G := grows_app h [q]). destruct H as (A & B & C & D & E).
    split; [now apply (dict_grow h)|]. split; [now apply dict_add|]. split; [now apply (dict_grow h)|].
    split; [exact D|]. intros k e Hin. apply (eqn_grow h); [exact G|now apply (E k)].
  - reflexivity.
  - repeat split; simpl; try apply incl_refl. apply incl_dset.
  - intros l p G Kp. apply hget_snoc in G. destruct G as [G| ->]; [|congruence]. left. exists p. auto.
Qed.
Lemma tr_con h m q : q_kind q = KConstant ->
  tr h m (h ++ [q]) (with_cons m (dset (q_name q) (List.length h) (m_cons m))).
Proof.
  intros K. constructor.
  - apply grows_app.
  - intros H. assert (G := grows_app h [q]). destruct H as (A & B & C & D & E).
    split; [now apply (dict_grow h)|]. split; [now apply (dict_grow h)|]. split; [now apply dict_add|].
    split; [exact D|]. intros k e Hin. apply (eqn_grow h); [exact G|now apply (E k)].
  - reflexivity.
  - repeat split; simpl; try apply incl_refl. apply incl_dset.
  - intros l p G Kp. apply hget_snoc in G. destruct G as [G| ->]; [|congruence]. left. exists p. auto.
Qed.
Lemma tr_eqs h m k e : eqn_ok h e -> tr h m h (with_eqs m (dset k e (m_eqs m))).
Proof.
  intros O. constructor; auto using grows_refl.
  - intros (A & B & C & D & E). split; [exact A|]. split; [exact B|]. split; [exact C|].
    split; [now apply nodup_dset|]. intros x y Hin. simpl in Hin. apply in_dset in Hin. destruct Hin as [[_ ->]|Hin]; [exact O|now apply (E x)].
  - repeat split; simpl; try apply incl_refl. apply incl_dset.
  - intros l q G K. left. exists q. auto.
Qed.

Lemma exact_objs h S d : exact_map h S d -> objs_ok h d.
Proof.
  intros [N [H _]]. split; [exact N|]. intros x l Hin. apply in_dget_nodup in Hin; [|exact N].
  destruct (H x l Hin) as (_ & q & G & Nq). eauto.
Qed.
Lemma type_some n : one_class (nd_ty n) -> type_of n <> None.
Proof. intros [H|[H|H]]; unfold type_of; rewrite H; discriminate. Qed.

Lemma residual_elem e0 a e : set_residual e0 a = (e, Ok tt) -> (eq_elementary e0 = true -> eq_elem e0 <> None) ->
  (forall l, a <> EATuple l OOther) ->
  eq_elementary e = true -> eq_elem e <> None.
Proof.
  intros H W NO. unfold set_residual, finish_residual in H. destruct a as [n|l r|].
  - cbv beta iota zeta delta [with_expr eq_expr] in H. injection H as <-. exact W.
  - destruct r as [n|k|]; [..|now destruct (NO l)].
    + destruct (node_sub l (ONode n)) as [d|x]; [|discriminate].
      cbv beta iota zeta delta [with_expr with_form with_elem eq_expr] in H. injection H as <-. discriminate.
    + destruct (node_sub l (ONode (number_node k (nd_unit l)))) as [d|x]; [|discriminate].
      cbv beta iota zeta delta [with_expr with_form with_elem eq_expr] in H. injection H as <-. discriminate.
  - discriminate.
Qed.

Lemma built_not_other h q arg : build_eq h q = Ok arg -> forall l, arg <> EATuple l OOther.
Proof. destruct q; simpl; intros H y E; binv; subst; discriminate. Qed.

(** createEquation with an evaluated written equation. *)
Lemma tr_create w n q arg check w' r : build_eq (w_heap w) q = Ok arg -> create_equation w n (Some arg) check = (w', r) ->
  tr (w_heap w) (w_mod w) (w_heap w') (w_mod w').
Proof.
  intros Hb H. destruct (create_outcome w n arg check) as [u' E]. rewrite E in H. clear E.
  destruct (set_residual _ arg) as [e0 [[]|x]] eqn:Er; [|injection H as <- _; apply tr_refl].
  destruct (eq_expr e0) as [nd|] eqn:En; [|injection H as <- _; apply tr_refl]. cbv zeta in H.
  assert (T : tr (w_heap w) (w_mod w) (w_heap w) (with_eqs (w_mod w) (dset (stored_name w n)
     (mkEqn (stored_name w n) (Some nd) (eq_elem e0) (eq_elementary e0) (eq_type e0) (Some (nd_smap nd)) (m_name (w_mod w)))
     (m_eqs (w_mod w))))).
  { apply tr_eqs. assert (D := Er). apply (eq_data _ _ _ _ _ Hb) in D.
    destruct D as (n1 & E1 & _ & Ty & Cl & M & _). assert (n1 = nd) by congruence. subst n1.
    exists nd, (nd_smap nd). split; [reflexivity|]. split; [reflexivity|]. split; [exact (exact_objs _ _ _ M)|].
    split; [simpl; rewrite Ty; now apply type_some|].
    simpl. apply (residual_elem _ _ _ Er); [discriminate|]. apply (built_not_other _ _ _ Hb). }
  destruct check; [destruct (forallb _ _)|]; injection H as <- _; first [exact T|apply tr_refl].
Qed.

Lemma run_cmd_tr c w w' r : run_cmd w c = (w', r) -> tr (w_heap w) (w_mod w) (w_heap w') (w_mod w').
Proof.
  intros H. destruct c as [a n u ex ty v|a n u v|a n u v|a v u|a|a n q check]; simpl in H.
  - unfold assign_qty, create_variable in H.
    match type of H with context [with_vars _ (dset (q_name ?q) _ _)] => pose proof (tr_var (w_heap w) (w_mod w) q eq_refl) as T end.
    destruct ex; [destruct (String.eqb ty "input"); [|destruct (String.eqb ty "output")]|]; injection H as <- _;
      (eapply tr_trans; [exact T|]; apply tr_same; reflexivity).
  - injection H as <- _. 
    match goal with |- context [with_pars _ (dset _ _ _)] => idtac end.
    eapply tr_trans; [exact (tr_par (w_heap w) (w_mod w) (mkQty KParameter (full_name n (m_name (w_mod w))) u v false (m_name (w_mod w)) false "" false) eq_refl)|].
    apply tr_same; reflexivity.
  - injection H as <- _.
    eapply tr_trans; [exact (tr_con (w_heap w) (w_mod w) (mkQty KConstant (full_name n (m_name (w_mod w))) u v false (m_name (w_mod w)) false "" false) eq_refl)|].
    apply tr_same; reflexivity.
  - destruct (attr_qty (w_mod w) a) as [l|x]; [|injection H as <- _; apply tr_refl].
    destruct (match v with SANum n => _ | SAAttr b => _ end) as [sv|x]; [|injection H as <- _; apply tr_refl].
    unfold heap_set_value in H. destruct (hget (w_heap w) l) as [q|] eqn:G; [|injection H as <- _; apply tr_refl].
    destruct (set_value q sv u) as [q'|x] eqn:Es; injection H as <- _; [|apply tr_refl]. simpl.
    destruct (set_value_effect _ _ _ _ Es) as (_ & _ & _ & N & K & _).
    apply tr_heap; [now apply (grows_hset _ _ q)|apply hset_length].
  - destruct (attr_qty (w_mod w) a) as [l|x]; [|injection H as <- _; apply tr_refl].
    destruct (hget (w_heap w) l) as [q|] eqn:G; [|injection H as <- _; apply tr_refl].
    destruct (qkind_eqb (q_kind q) KVariable); injection H as <- _; [|apply tr_refl]. simpl.
    apply tr_heap; [now apply (grows_hset _ _ q)|apply hset_length].
  - destruct (rbind (resolve_eq (attr_qty (w_mod w)) q) (fun q' => build_eq (w_heap w) q')) as [arg|x] eqn:Eb;
      [|injection H as <- _; apply tr_refl].
    binv. destruct (create_equation w n (Some arg) check) as [w1 [e|x1]] eqn:Ec; injection H as <- _.
    + eapply tr_trans; [exact (tr_create _ _ _ _ _ _ _ Eb Ec)|]. apply tr_same; reflexivity.
    + exact (tr_create _ _ _ _ _ _ _ Eb Ec).
Qed.

Lemma run_cmds_tr cs : forall w w' r, run_cmds w cs = (w', r) -> tr (w_heap w) (w_mod w) (w_heap w') (w_mod w').
Proof.
  induction cs as [|c cs IH]; intros w w' r H; simpl in H.
  - injection H as <- _. apply tr_refl.
  - destruct (run_cmd w c) as [w1 [[]|x]] eqn:E.
    + eapply tr_trans; [exact (run_cmd_tr _ _ _ _ E)|exact (IH _ _ _ H)].
    + injection H as <- _. exact (run_cmd_tr _ _ _ _ E).
Qed.

(** ** Incorporation *)
Definition locs_ok (h : heap) (k : qkind) (ls : list loc) : Prop :=
  forall l, In l ls -> exists q, hget h l = Some q /\ q_kind q = k.
Lemma locs_grow h h' k ls : grows h h' -> locs_ok h k ls -> locs_ok h' k ls.
Proof. intros G H l Hl. destruct (H l Hl) as (q & E & K). destruct (G l q E) as (q' & E' & _ & K'). exists q'. split; congruence. Qed.
Lemma locs_dict h k d : dict_ok h k d -> locs_ok h k (dvals d).
Proof.
  intros [_ H] l Hl. apply in_map_iff in Hl. destruct Hl as [[x l'] [<- Hin]].
  destruct (H x l' Hin) as (q & G & _ & K). eauto.
Qed.

Section AddAll.
Variable add : heap -> mstate -> loc -> bool -> heap * mstate * res Datatypes.unit.
Variable k : qkind.
Hypothesis one : forall h m l rw h' m' r q, hget h l = Some q -> q_kind q = k -> add h m l rw = (h', m', r) -> tr h m h' m'.
Lemma add_all_tr ls : forall h m rw h' m' r, locs_ok h k ls -> add_all add h m ls rw = (h', m', r) -> tr h m h' m'.
Proof.
  induction ls as [|l ls IH]; intros h m rw h' m' r L H; simpl in H.
  - injection H as <- <- _. apply tr_refl.
  - destruct (L l (or_introl eq_refl)) as (q & G & K).
    destruct (add h m l rw) as [[h1 m1] [[]|x]] eqn:E.
    + assert (T := one _ _ _ _ _ _ _ _ G K E). eapply tr_trans; [exact T|].
      apply (IH _ _ _ _ _ _ (locs_grow _ _ _ _ (tr_grows _ _ _ _ T) (fun x Hx => L x (or_intror Hx))) H).
    + injection H as <- <- _. exact (one _ _ _ _ _ _ _ _ G K E).
Qed.
End AddAll.

Lemma add_variable_tr h m l rw h' m' r q : hget h l = Some q -> q_kind q = KVariable -> add_variable h m l rw = (h', m', r) -> tr h m h' m'.
Proof.
  intros G K H. unfold add_variable in H. rewrite G in H.
  pose proof (tr_var h m (reown q (m_name m) rw) K) as T.
  destruct (q_exposed q); injection H as <- <- _; [exact T|]. eapply tr_trans; [exact T|]. apply tr_same; reflexivity.
Qed.
Lemma add_parameter_tr h m l rw h' m' r q : hget h l = Some q -> q_kind q = KParameter -> add_parameter h m l rw = (h', m', r) -> tr h m h' m'.
Proof.
  intros G K H. unfold add_parameter in H. rewrite G in H.
  pose proof (tr_par h m (reown q (m_name m) rw) K) as T.
  injection H as <- <- _. eapply tr_trans; [exact T|]. apply tr_same; reflexivity.
Qed.
Lemma add_constant_tr h m l rw h' m' r q : hget h l = Some q -> q_kind q = KConstant -> add_constant h m l rw = (h', m', r) -> tr h m h' m'.
Proof.
  intros G K H. unfold add_constant in H. rewrite G in H.
  pose proof (tr_con h m (reown q (m_name m) rw) K) as T.
  injection H as <- <- _. eapply tr_trans; [exact T|]. apply tr_same; reflexivity.
Qed.

Lemma in_dupdate {V} (d e : dict V) x y : In (x, y) (dupdate d e) -> In (x, y) d \/ In (x, y) e.
Proof.
  revert d. induction e as [|[k v] e IH]; intros d H; [now left|]. rewrite dupdate_cons in H. apply IH in H.
  destruct H as [H|H]; [|right; now right]. apply in_dset in H. destruct H as [[-> ->]|H]; [right; now left|now left].
Qed.
Lemma whole_objs h m : model_ok h m -> objs_ok h (whole_objects m).
Proof.
  intros ([N1 A] & [N2 B] & [N3 C] & _). unfold whole_objects. split.
  - repeat apply nodup_dupdate. constructor.
  - intros x l Hin. repeat (apply in_dupdate in Hin; destruct Hin as [Hin|Hin]).
    + destruct Hin.
    + destruct (C x l Hin) as (q & G & N & _). eauto.
    + destruct (B x l Hin) as (q & G & N & _). eauto.
    + destruct (A x l Hin) as (q & G & N & _). eauto.
Qed.

Lemma pick_all_objs h w ks d : objs_ok h w -> NoDup ks -> pick_all w ks = Ok d -> objs_ok h d /\ dkeys d = ks.
Proof.
  intros [_ H]. revert d. induction ks as [|k ks IH]; intros d N E; simpl in E.
  - injection E as <-. split; [split; [constructor|intros x l []]|reflexivity].
  - destruct (dget k w) as [l|] eqn:G; [|discriminate]. binv. inversion N as [|? ? N1 N2]; subst.
    destruct (IH x N2 Hb) as ([D1 D2] & D3). split.
    + split; [unfold dkeys in *; simpl; rewrite D3; now constructor|].
      intros y i [Ey|Hin]; [|now apply D2]. injection Ey as <- <-. apply dget_some_in in G. exact (H k l G).
    + unfold dkeys in *. simpl. now f_equal.
Qed.
Lemma uniq_nodup l : NoDup (uniq l).
Proof.
  induction l as [|x l IH]; simpl; constructor.
  - rewrite filter_In. intros [_ H]. now rewrite String.eqb_refl in H.
  - now apply NoDup_filter.
Qed.

Lemma convert_eqn_ok h names w e e' : objs_ok h w -> eqn_ok h e -> convert_symbolic names w e = Ok e' -> eqn_ok h e'.
Proof.
  intros W (n & d & A & B & C & D & F) H. unfold convert_symbolic in H. rewrite A in H. binv.
  assert (L : eq_elem e <> None -> x1 <> None).
  { destruct (eq_elem e) as [[a b]|]; [|congruence]. binv. discriminate. }
  exists (node_with n x0 x x2), x2. split; [reflexivity|]. split; [reflexivity|].
  split; [exact (proj1 (pick_all_objs _ _ _ _ W (uniq_nodup _) Hb2))|]. split; [exact D|].
  simpl. intros El. apply L, F, El.
Qed.

Lemma add_equations_tr h names w rw es : objs_ok h w -> (forall e, In e es -> eqn_ok h e) ->
  forall m m' r, add_equations m es names w rw = (m', r) -> tr h m h m'.
Proof.
  intros W. induction es as [|e es IH]; intros He m m' r H; simpl in H.
  - injection H as <- _. apply tr_refl.
  - unfold add_equation in H.
    destruct (convert_symbolic names w _) as [e2|x] eqn:Ec; [|injection H as <- _; apply tr_refl].
    assert (O : eqn_ok h e2).
    { apply (convert_eqn_ok _ _ _ _ _ W) with (2 := Ec). exact (He e (or_introl eq_refl)). }
    eapply tr_trans; [exact (tr_eqs h m (eq_name e2) e2 O)|]. eapply tr_trans; [|exact (IH (fun x Hx => He x (or_intror Hx)) _ _ _ H)].
    apply tr_same; reflexivity.
Qed.

Lemma incorporate_tr h m donor f h' m' r : model_ok h m -> model_ok h donor ->
  incorporate h m donor f = (h', m', r) -> tr h m h' m'.
Proof.
  intros M D H. unfold incorporate in H.
  destruct (if i_vars f then _ else _) as [[h1 m1] r1] eqn:E1.
  assert (T1 : tr h m h1 m1).
  { destruct (i_vars f); [|injection E1 as <- <- _; apply tr_refl].
    exact (add_all_tr _ _ add_variable_tr _ _ _ _ _ _ _ (locs_dict _ _ _ (proj1 D)) E1). }
  destruct r1 as [[]|x]; [|injection H as <- <- _; exact T1].
  destruct (if i_pars f then _ else _) as [[h2 m2] r2] eqn:E2.
  assert (D1 := model_grow _ _ _ (tr_grows _ _ _ _ T1) D).
  assert (T2 : tr h1 m1 h2 m2).
  { destruct (i_pars f); [|injection E2 as <- <- _; apply tr_refl].
    exact (add_all_tr _ _ add_parameter_tr _ _ _ _ _ _ _ (locs_dict _ _ _ (proj1 (proj2 D1))) E2). }
  assert (T12 := tr_trans _ _ _ _ _ _ T1 T2).
  destruct r2 as [[]|x]; [|injection H as <- <- _; exact T12].
  destruct (if i_cons f then _ else _) as [[h3 m3] r3] eqn:E3.
  assert (D2 := model_grow _ _ _ (tr_grows _ _ _ _ T2) D1).
  assert (T3 : tr h2 m2 h3 m3).
  { destruct (i_cons f); [|injection E3 as <- <- _; apply tr_refl].
    exact (add_all_tr _ _ add_constant_tr _ _ _ _ _ _ _ (locs_dict _ _ _ (proj1 (proj2 (proj2 D2)))) E3). }
  assert (T123 := tr_trans _ _ _ _ _ _ T12 T3).
  destruct r3 as [[]|x]; [|injection H as <- <- _; exact T123].
  assert (D3 := model_grow _ _ _ (tr_grows _ _ _ _ T3) D2).
  destruct (i_eqs f); [|injection H as <- <- _; exact T123].
  destruct (add_equations m3 _ _ _ _) as [m4 r4] eqn:E4. injection H as <- <- _.
  eapply tr_trans; [exact T123|].
  refine (add_equations_tr h3 _ _ _ _ (whole_objs _ _ (tr_ok _ _ _ _ T123 M)) _ _ _ _ E4).
  intros e He. apply in_map_iff in He. destruct He as [[k e'] [<- Hin]]. exact (proj2 (proj2 (proj2 (proj2 D3))) k e' Hin).
Qed.

(** ** Connections *)
Lemma residual_again a e e1 e2 : (forall l, a <> EATuple l OOther) -> set_residual e a = (e1, Ok tt) ->
  exists e2', set_residual e2 a = (e2', Ok tt) /\ eq_expr e2' = eq_expr e1 /\ eq_type e2' = eq_type e1 /\
    eq_name e2' = eq_name e2 /\ eq_owner e2' = eq_owner e2 /\
    (eq_elem e2 = eq_elem e1 -> eq_elem e2' = eq_elem e1) /\ (eq_elementary e2 = eq_elementary e1 -> eq_elementary e2' = eq_elementary e1).
Proof.
  intros NO H. unfold set_residual, finish_residual in *. destruct a as [n|l r|].
  - cbv beta iota zeta delta [with_expr eq_expr] in *. injection H as <-. eexists. split; [reflexivity|]. repeat (split; [reflexivity|]); split; intros K; first [exact K|reflexivity].
  - destruct r as [n|k|]; [..|now destruct (NO l)].
    + destruct (node_sub l (ONode n)) as [d|x]; [|discriminate].
      cbv beta iota zeta delta [with_expr with_form with_elem eq_expr] in *. injection H as <-.
      eexists. split; [reflexivity|]. repeat (split; [reflexivity|]); split; intros K; first [exact K|reflexivity].
    + destruct (node_sub l (ONode (number_node k (nd_unit l)))) as [d|x]; [|discriminate].
      cbv beta iota zeta delta [with_expr with_form with_elem eq_expr] in *. injection H as <-.
      eexists. split; [reflexivity|]. repeat (split; [reflexivity|]); split; intros K; first [exact K|reflexivity].
  - discriminate.
Qed.

(** What a connection becomes, for a written expression. *)
Lemma connection_data h q a u name u' e : name <> "" -> build_eq h q = Ok a -> connection_init u name a = (u', Ok e) ->
  eqn_ok h e /\ eq_name e = name /\ exists n, eq_expr e = Some n /\ eq_objs e = Some (nd_smap n) /\
    exact_map h (fun l => eq_occurs l q) (nd_smap n) /\
    (forall v en, env_for h v en -> den (nd_sym n) en = residual_meaning h v q).
Proof.
  intros Ne Hb H. unfold connection_init in H.
  destruct (init_outcome u main_thread name a "") as [u1 E]. rewrite E in H. clear E.
  apply String.eqb_neq in Ne. rewrite Ne in H.
  destruct (set_residual (blank_eqn name) a) as [e1 [[]|x]] eqn:Er; [|discriminate].
  destruct (residual_again a _ _ (with_eowner e1 "") (built_not_other _ _ _ Hb) Er) as (e2 & E2 & X & T & N & _ & El & Ef).
  rewrite E2 in H. assert (D := Er). apply (eq_data _ _ _ _ _ Hb) in D.
  destruct D as (n & En & Nn & Ty & Cl & M & _ & _ & V & _).
  unfold sweep_objects in H. rewrite X, En in H. injection H as _ <-.
  split.
  { exists n, (nd_smap n). simpl. split; [now rewrite X|]. split; [reflexivity|]. split; [exact (exact_objs _ _ _ M)|].
    split; [rewrite T, Ty; now apply type_some|]. rewrite (El eq_refl), (Ef eq_refl).
    apply (residual_elem _ _ _ Er); [discriminate|]. apply (built_not_other _ _ _ Hb). }
  split; [simpl; rewrite N; exact Nn|]. exists n. simpl. rewrite X.
  split; [exact En|]. split; [reflexivity|]. split; [exact M|exact V].
Qed.

(** The default expression as a written one. *)
Fixpoint total (acc : uexpr loc) (ls : list loc) : uexpr loc :=
  match ls with
  | [] => acc
  | l :: r => total (UBin BAdd acc (UQty l)) r
  end.
Definition opening (ls : list loc) : option (uexpr loc) :=
  match ls with [] => None | l :: r => Some (total (UNumL BAdd (PInt 0) (UQty l)) r) end.
Definition balance_expr (ins outs : list loc) : option (uexpr loc) :=
  match opening ins, opening outs with
  | Some a, Some b => Some (UBin BSub a b)
  | Some a, None => Some (UNumR BSub a (PInt 0))
  | None, Some b => Some (UNumL BSub (PInt 0) b)
  | None, None => None
  end.

Lemma sum_from_built h ls : forall acc n s, build h acc = Ok n -> sum_from h n ls = Ok s -> build h (total acc ls) = Ok s.
Proof.
  induction ls as [|l ls IH]; intros acc n s Ha H; cbn [sum_from total] in *; [congruence|].
  binv. apply (IH _ x0); [|exact H].
  change (build h (UBin BAdd acc (UQty l))) with (rbind (build h acc) (fun x => rbind (build_qty h l) (fun y => node_add x (ONode y)))).
  rewrite Ha. cbn [rbind]. rewrite Hb. exact Hb0.
Qed.
Lemma sum_calls_built h ls r : sum_calls h ls = Ok r ->
  match r, opening ls with Some s, Some e => build h e = Ok s | None, None => ls = [] | _, _ => False end.
Proof.
  intros H. destruct ls as [|l ls]; cbn [sum_calls opening] in *; [injection H as <-; reflexivity|].
  binv. apply (sum_from_built _ _ _ x0); [|exact Hb1].
  change (build h (UNumL BAdd (PInt 0) (UQty l))) with (rbind (build_qty h l) (fun x => node_add x (ONum (PInt 0)))).
  rewrite Hb. exact Hb0.
Qed.
Lemma balance_built h ins outs a : balance h ins outs = Ok a ->
  (a = EAOther /\ ins = [] /\ outs = []) \/
  (exists e, balance_expr ins outs = Some e /\ build_eq h (UResid e) = Ok a).
Proof.
  intros H. unfold balance in H. binv. apply sum_calls_built in Hb, Hb0. unfold balance_expr.
  destruct x as [x|], (opening ins) as [ei|]; try contradiction;
    destruct x0 as [y|], (opening outs) as [eo|]; try contradiction.
  - binv. right. eexists. split; [reflexivity|]. cbn [build_eq build]. rewrite Hb, Hb0. cbn [rbind node_op]. now rewrite Hb1.
  - binv. right. eexists. split; [reflexivity|]. cbn [build_eq build]. rewrite Hb. cbn [rbind node_op]. now rewrite Hb1.
  - binv. right. eexists. split; [reflexivity|]. cbn [build_eq build]. rewrite Hb0. cbn [rbind node_rop]. now rewrite Hb1.
  - injection H as <-. now left.
Qed.

Lemma arith_add_assoc a b c : arith BAdd (arith BAdd a b) c = arith BAdd a (arith BAdd b c).
Proof. destruct a, b, c; simpl; try reflexivity. f_equal. ring. Qed.
Lemma total_meaning h v ls : forall acc, ls <> [] \/ True ->
  meaning h v (total acc ls) = arith BAdd (meaning h v acc) (sum_meaning h v ls).
Proof.
  induction ls as [|l ls IH]; intros acc _; cbn [total sum_meaning].
  - destruct (meaning h v acc); simpl; [|reflexivity]. f_equal. ring.
  - rewrite IH by now right. cbn [meaning]. apply arith_add_assoc.
Qed.
Lemma zero_value : num_value (PInt 0) = Some 0%R.
Proof. reflexivity. Qed.
Lemma opening_meaning h v ls e : opening ls = Some e -> meaning h v e = sum_meaning h v ls.
Proof.
  destruct ls as [|l ls]; [discriminate|]. intros H. injection H as <-. rewrite total_meaning by now right.
  cbn [meaning sum_meaning]. rewrite zero_value. destruct (qty_meaning h v l), (sum_meaning h v ls); simpl; try reflexivity. f_equal. ring.
Qed.
Lemma balance_meaning h v ins outs e : balance_expr ins outs = Some e ->
  meaning h v e = arith BSub (sum_meaning h v ins) (sum_meaning h v outs).
Proof.
  unfold balance_expr. destruct (opening ins) as [a|] eqn:A, (opening outs) as [b|] eqn:B; intros H; try discriminate; injection H as <-.
  - cbn [meaning]. now rewrite (opening_meaning _ _ _ _ A), (opening_meaning _ _ _ _ B).
  - cbn [meaning]. rewrite (opening_meaning _ _ _ _ A). destruct outs; [|discriminate]. reflexivity.
  - cbn [meaning]. rewrite (opening_meaning _ _ _ _ B). destruct ins; [|discriminate]. reflexivity.
Qed.

Lemma append_ne a b c : (a ++ String b c)%string <> "".
Proof. destruct a; discriminate. Qed.

Lemma model_connection_tr w outs ins a w' r : (a = EAOther \/ exists q, build_eq (w_heap w) q = Ok a) ->
  model_connection w outs ins a = (w', r) -> tr (w_heap w) (w_mod w) (w_heap w') (w_mod w').
Proof.
  intros Ha H. unfold model_connection in H.
  destruct (forallb (is_variable (w_heap w)) ins && forallb (is_variable (w_heap w)) outs); [|injection H as <- _; apply tr_refl].
  destruct (rbind (qty_names (w_heap w) outs) _) as [name|x] eqn:En; [|injection H as <- _; apply tr_refl].
  assert (Nn : name <> "") by (binv; apply append_ne).
  destruct (connection_init (w_uids w) name a) as [u [e|x]] eqn:Ec; injection H as <- _; [|apply tr_refl].
  destruct Ha as [->|[q Hq]].
  - unfold connection_init, equation_init in Ec. destruct (String.eqb name ""); simpl in Ec; discriminate.
  - apply tr_eqs. exact (proj1 (connection_data _ _ _ _ _ _ _ Nn Hq Ec)).
Qed.

(** ** Sessions *)
Definition wok (w : pworld) : Prop :=
  (forall i m d, get_model w i = Some (m, d) -> model_ok (pw_heap w) m) /\
  (forall l q, hget (pw_heap w) l = Some q -> q_kind q = KVariable ->
     exists i m d, get_model w i = Some (m, d) /\ In (q_name q) (dkeys (m_vars m))).

Record wstep (w w' : pworld) : Prop := mkWS {
  ws_grows : grows (pw_heap w) (pw_heap w');
  ws_models : forall i m d, get_model w i = Some (m, d) ->
     exists m', get_model w' i = Some (m', d) /\ m_name m' = m_name m /\ kincl m m';
  ws_count : List.length (pw_models w') = List.length (pw_models w);
  ws_ok : wok w' }.

Lemma wstep_refl w : wok w -> wstep w w.
Proof. intros O. constructor; auto using grows_refl. intros i m d G. exists m. auto using kincl_refl. Qed.
Lemma wstep_trans a b c : wstep a b -> wstep b c -> wstep a c.
Proof.
  intros A B. constructor.
  - exact (grows_trans _ _ _ (ws_grows _ _ A) (ws_grows _ _ B)).
  - intros i m d G. destruct (ws_models _ _ A i m d G) as (m1 & G1 & N1 & K1).
    destruct (ws_models _ _ B i m1 d G1) as (m2 & G2 & N2 & K2). exists m2. split; [exact G2|].
    split; [congruence|exact (kincl_trans _ _ _ K1 K2)].
  - rewrite (ws_count _ _ B). exact (ws_count _ _ A).
  - exact (ws_ok _ _ B).
Qed.

Lemma set_nth_length {A} (l : list A) : forall i x, List.length (set_nth l i x) = List.length l.
Proof. induction l as [|y l IH]; intros [|i] x; simpl; auto. Qed.
Lemma set_nth_eq {A} (l : list A) : forall i x, (i < List.length l)%nat -> nth_error (set_nth l i x) i = Some x.
Proof. induction l as [|y l IH]; intros [|i] x H; simpl in *; try lia; [reflexivity|apply IH; lia]. Qed.
Lemma set_nth_neq {A} (l : list A) : forall i j x, j <> i -> nth_error (set_nth l i x) j = nth_error l j.
Proof. induction l as [|y l IH]; intros [|i] [|j] x H; simpl; try congruence. apply IH. congruence. Qed.

Lemma on_model_spec {A} w i (f : decls -> mworld -> mworld * res A) w2 r : on_model w i f = (w2, r) ->
  (get_model w i = None /\ w2 = w /\ r = Raise EName) \/
  exists m d w', get_model w i = Some (m, d) /\ f d (mkW (pw_heap w) (pw_uids w) m) = (w', r) /\
    pw_heap w2 = w_heap w' /\ get_model w2 i = Some (w_mod w', d) /\ (forall j, j <> i -> get_model w2 j = get_model w j) /\
    List.length (pw_models w2) = List.length (pw_models w).
Proof.
  unfold on_model. destruct (get_model w i) as [[m d]|] eqn:G; intros H; [|left; injection H as <- <-; auto].
  right. destruct (f d _) as [w' r'] eqn:F. injection H as <- <-. exists m, d, w'.
  split; [reflexivity|]. split; [exact F|]. split; [reflexivity|]. unfold get_model in *. simpl.
  split; [apply set_nth_eq, nth_error_Some; congruence|]. split; [intros j Hj; now apply set_nth_neq|apply set_nth_length].
Qed.

Lemma on_model_step {A} w i (f : decls -> mworld -> mworld * res A) w2 r : wok w ->
  (forall m d w' r, get_model w i = Some (m, d) -> f d (mkW (pw_heap w) (pw_uids w) m) = (w', r) ->
     tr (pw_heap w) m (w_heap w') (w_mod w')) ->
  on_model w i f = (w2, r) -> wstep w w2.
Proof.
  intros O HF H. apply on_model_spec in H. destruct H as [(_ & -> & _)|(m & d & w' & G & F & Hh & G2 & Go & L)]; [now apply wstep_refl|].
  assert (T := HF m d w' r G F). constructor.
  - rewrite Hh. exact (tr_grows _ _ _ _ T).
  - intros j mj dj Gj. destruct (Nat.eq_dec j i) as [->|Hne].
    + assert (E : Some (m, d) = Some (mj, dj)) by congruence. injection E as <- <-. exists (w_mod w'). split; [exact G2|].
      split; [exact (tr_name _ _ _ _ T)|exact (tr_keys _ _ _ _ T)].
    + exists mj. rewrite Go by exact Hne. split; [exact Gj|]. split; [reflexivity|apply kincl_refl].
  - exact L.
  - destruct O as [O1 O2]. split.
    + intros j mj dj Gj. rewrite Hh. destruct (Nat.eq_dec j i) as [->|Hne].
      * assert (E : Some (w_mod w', d) = Some (mj, dj)) by congruence. injection E as <- <-. apply (tr_ok _ _ _ _ T). exact (O1 i m d G).
      * rewrite Go in Gj by exact Hne. apply (model_grow _ _ _ (tr_grows _ _ _ _ T)). exact (O1 j mj dj Gj).
    + intros l q Gl K. rewrite Hh in Gl. destruct (tr_vars _ _ _ _ T l q Gl K) as [(q0 & G0 & K0 & N0)|Hin].
      * destruct (O2 l q0 G0 K0) as (j & mj & dj & Gj & Hin). rewrite N0 in Hin. destruct (Nat.eq_dec j i) as [->|Hne].
        -- assert (E : Some (m, d) = Some (mj, dj)) by congruence. injection E as <- <-. exists i, (w_mod w'), d.
           split; [exact G2|]. now apply (tr_keys _ _ _ _ T).
        -- exists j, mj, dj. rewrite Go by exact Hne. auto.
      * exists i, (w_mod w'), d. auto.
Qed.

Lemma reload_step is : forall w w' r, wok w -> reload w is = (w', r) -> wstep w w'.
Proof.
  induction is as [|i is IH]; intros w w' r O H; simpl in H; [injection H as <- _; now apply wstep_refl|].
  destruct (on_model w i model_call) as [w1 r1] eqn:E.
  assert (S : wstep w w1).
  { apply (on_model_step w i model_call w1 r1 O); [|exact E]. intros m d w2 r2 _ F.
    exact (run_cmds_tr _ _ _ _ F). }
  destruct r1 as [[]|x].
  - exact (wstep_trans _ _ _ S (IH _ _ _ (ws_ok _ _ S) H)).
  - injection H as <- _. exact S.
Qed.
