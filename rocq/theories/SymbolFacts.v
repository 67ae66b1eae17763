(** Facts about the symbols the equations of a problem contain (C57). *)
From Verif Require Import Base BaseFacts Num NumFacts UnitModel UnitFacts Sympy Node Build EquationModel ModelModel ProblemModel
  SpecUnits UnitThms SpecExpr SpecQty QtyFacts SpecModel BuildFacts EquationFacts ModelFacts SpecInc IncFacts SpecCall CallFacts
  SpecProblem ProblemFacts SessionFacts UsualFacts ConnFacts SolverModel SpecSymbols.
From Coq Require Import Reals Permutation.
Notation num := Verif.Num.num.

(** ** One equation *)
Definition free_name (h : heap) (q : ueq loc) (x : string) : Prop :=
  exists l o, eq_occurs l q /\ hget h l = Some o /\ q_name o = x /\ q_spec o = false.

Lemma maps_free h n S x : maps_ok h n S ->
  In x (fsyms (nd_sym n)) <-> exists l o, S l /\ hget h l = Some o /\ q_name o = x /\ q_spec o = false.
Proof.
  intros (_ & (N & A & B) & Fs). rewrite Fs. split.
  - intros Hx. destruct (in_keys_dget _ _ Hx) as [l Hl]. destruct (A x l Hl) as [[Sl (o & Eo & So)] (o' & E' & N')].
    exists l, o. replace o' with o in N' by congruence. auto.
  - intros (l & o & Sl & E & <- & So). destruct (B l) as (o' & E' & G); [split; [exact Sl|exists o; auto]|].
    replace o' with o in G by congruence. destruct (dget (q_name o) (nd_vmap n)) eqn:Eg; [|congruence]. now apply dget_in_keys in Eg.
Qed.

Lemma number_node_fsyms k u : fsyms (nd_sym (number_node k u)) = [].
Proof. reflexivity. Qed.

(** The symbols of a new equation are the names of the free quantities written. *)
Lemma eq_symbols h q arg name e n : build_eq h q = Ok arg -> set_residual (blank_eqn name) arg = (e, Ok tt) ->
  eq_expr e = Some n ->
  (forall x, In x (fsyms (nd_sym n)) <-> free_name h q x) /\
  (forall x, has_symbol e x -> free_name h q x).
Proof.
  intros Hq Hr En. unfold free_name. destruct q as [x|l r|l k]; simpl in Hq; binv.
  - unfold set_residual, finish_residual in Hr. simpl in Hr. injection Hr as <-. simpl in *. injection En as <-.
    assert (M := build_maps _ _ _ Hb). split; [intros y; exact (maps_free _ _ _ y M)|].
    intros y [(n & En & Hy)|(a & b & E & _)]; [|discriminate]. simpl in En. injection En as <-. now apply (maps_free _ _ _ y M).
  - unfold set_residual in Hr. destruct (node_sub x (ONode x0)) as [d|] eqn:Es; [|discriminate].
    unfold finish_residual in Hr. cbv beta iota zeta delta [with_form with_expr with_elem with_type with_objs eq_expr] in Hr.
    injection Hr as <-. simpl in *. injection En as <-.
    assert (Hbd : build h (UBin BSub l r) = Ok d) by (simpl; rewrite Hb; simpl; rewrite Hb0; exact Es).
    assert (M := build_maps _ _ _ Hbd). split; [intros y; exact (maps_free _ _ _ y M)|].
    intros y [(n & En & Hy)|(a & b & E & Hy)]; simpl in *.
    + injection En as <-. now apply (maps_free _ _ _ y M).
    + injection E as <- <-. destruct Hy as [Hy|Hy].
      * apply (maps_free _ _ _ y (build_maps _ _ _ Hb)) in Hy. destruct Hy as (i & o & Hi & Ho). exists i, o. tauto.
      * apply (maps_free _ _ _ y (build_maps _ _ _ Hb0)) in Hy. destruct Hy as (i & o & Hi & Ho). exists i, o. tauto.
  - unfold set_residual in Hr. destruct (node_sub x (ONode (number_node k (nd_unit x)))) as [d|] eqn:Es; [|discriminate].
    unfold finish_residual in Hr. cbv beta iota zeta delta [with_form with_expr with_elem with_type with_objs eq_expr] in Hr.
    injection Hr as <-. simpl in *. injection En as <-.
    assert (M := build_maps _ _ _ Hb).
    unfold unit_sub in Es. destruct (coherent (nd_unit x) (nd_unit x)) as [[]|] eqn:Ec; simpl in Es; try discriminate.
    assert (Fs : fsyms (nd_sym d) = fsyms (nd_sym x)) by (injection Es as <-; simpl; now rewrite app_nil_r).
    rewrite Fs. split; [intros y; exact (maps_free _ _ _ y M)|].
    intros y [(n & En & Hy)|(a & b & E & Hy)]; simpl in *.
    + injection En as <-. rewrite Fs in Hy. now apply (maps_free _ _ _ y M).
    + injection E as <- <-. destruct Hy as [Hy|[]]. now apply (maps_free _ _ _ y M).
Qed.

(** Every symbol is the name of a Variable among the objects. *)
Definition covered (h : heap) (e : eqn) : Prop := forall x, has_symbol e x -> uses_variable h x e.
(** Every Variable among the objects is a symbol of the residual. *)
Definition occurring (h : heap) (e : eqn) : Prop :=
  exists n d, eq_expr e = Some n /\ eq_objs e = Some d /\ objs_ok h d /\ forall x, uses_variable h x e -> In x (fsyms (nd_sym n)).
Definition free_vars (h : heap) : Prop := forall l q, hget h l = Some q -> q_kind q = KVariable -> q_spec q = false.

Lemma covered_grows h h' e : grows h h' -> covered h e -> covered h' e.
Proof.
  intros G C x Hx. destruct (C x Hx) as (d & k & l & q & Ed & Hin & Hl & K & N). destruct (G l q Hl) as (q' & Hl' & N' & K').
  exists d, k, l, q'. repeat split; try assumption; congruence.
Qed.
Lemma occurring_grows h h' e : grows h h' -> occurring h e -> occurring h' e.
Proof.
  intros G (n & d & En & Ed & O & H). exists n, d. split; [exact En|]. split; [exact Ed|]. split; [now apply (objs_grow h)|].
  intros x (d' & k & l & q & Ed' & Hin & Hl & K & N). apply H. assert (d' = d) by congruence. subst d'.
  destruct O as [_ O]. destruct (O k l Hin) as (q0 & H0 & N0). destruct (G l q0 H0) as (q' & H' & N' & K').
  exists d, k, l, q0. repeat split; try assumption; congruence.
Qed.

(** The condition on the quantities a new equation is written with. *)
Definition usable (h : heap) (VS : string -> Prop) (l : loc) : Prop :=
  exists o, hget h l = Some o /\ ((q_kind o = KVariable /\ VS (q_name o)) \/ (q_spec o = true /\ ~ VS (q_name o))).

Lemma new_covered h q arg name e n e' VS : build_eq h q = Ok arg -> set_residual (blank_eqn name) arg = (e, Ok tt) ->
  eq_expr e = Some n -> (forall l, eq_occurs l q -> usable h VS l) ->
  eq_expr e' = eq_expr e -> eq_elem e' = eq_elem e -> eq_objs e' = Some (nd_smap n) ->
  covered h e' /\ (free_vars h -> occurring h e').
Proof.
  intros Hb Hr En U X1 X2 X3. destruct (eq_symbols _ _ _ _ _ _ Hb Hr En) as [S1 S2].
  destruct (eq_data _ _ _ _ _ Hb Hr) as (n' & En' & _ & _ & _ & M & _). assert (n' = n) by congruence. subst n'.
  assert (M0 := M). destruct M as (Nd & M1 & M2). split.
  - intros x Hx. assert (Hx' : has_symbol e x) by (unfold has_symbol in *; now rewrite X1, X2 in Hx).
    destruct (S2 x Hx') as (l & o & Ol & El & <- & So). destruct (U l Ol) as (o1 & E1 & C). replace o1 with o in C by congruence.
    destruct C as [[K V]|[C _]]; [|congruence].
    destruct (M2 l Ol) as (o2 & E2 & G). replace o2 with o in G by congruence.
    destruct (dget (q_name o) (nd_smap n)) as [l'|] eqn:Eg; [|congruence].
    destruct (M1 _ _ Eg) as [Ol' (o' & E' & N')]. destruct (U l' Ol') as (o1' & E1' & C'). replace o1' with o' in C' by congruence.
    destruct C' as [[K' _]|[_ NV]]; [|rewrite N' in NV; contradiction].
    exists (nd_smap n), (q_name o), l', o'. repeat split; try assumption. now apply dget_some_in.
  - intros F. exists n, (nd_smap n). split; [congruence|]. split; [exact X3|]. split; [exact (exact_objs _ _ _ M0)|].
    intros x (d & k & l & o & Ed & Hin & El & K & N). assert (d = nd_smap n) by congruence. subst d.
    apply S1. assert (Hg := in_dget_nodup _ _ _ Nd Hin). destruct (M1 _ _ Hg) as [Ol _].
    exists l, o. repeat split; try assumption. exact (F l o El K).
Qed.

(** ** Statements *)
Definition grows2 (h h' : heap) : Prop :=
  forall l q, hget h l = Some q -> exists q', hget h' l = Some q' /\ q_name q' = q_name q /\ q_kind q' = q_kind q /\
                                              (q_spec q = true -> q_spec q' = true).
Lemma grows2_refl h : grows2 h h.
Proof. intros l q H. exists q. auto. Qed.
Lemma grows2_app h t : grows2 h (h ++ t).
Proof. intros l q H. exists q. split; [now apply hget_app|auto]. Qed.
Lemma grows2_hset h l q q' : hget h l = Some q -> q_name q' = q_name q -> q_kind q' = q_kind q ->
  (q_spec q = true -> q_spec q' = true) -> grows2 h (hset h l q').
Proof.
  intros G N K S i p Gi. destruct (Nat.eq_dec i l) as [->|Hne].
  - exists q'. rewrite hget_hset_eq by now apply hget_lt in G. replace p with q by congruence. auto.
  - exists p. rewrite hget_hset_neq by exact Hne. auto.
Qed.
Lemma grows2_grows h h' : grows2 h h' -> grows h h'.
Proof. intros G l q H. destruct (G l q H) as (q' & A & B & C & _). exists q'. auto. Qed.

Lemma usable_grows h h' VS l : grows2 h h' -> usable h VS l -> usable h' VS l.
Proof.
  intros G (o & E & C). destruct (G l o E) as (o' & E' & N & K & S). exists o'. split; [exact E'|]. rewrite N, K.
  destruct C as [[A B]|[A B]]; [left|right]; auto.
Qed.

(** What a step of a model keeps. *)
Record kept (fx : bool) (h : heap) (m : mstate) (h' : heap) (m' : mstate) : Prop := mkKept {
  k_grows : grows h h';
  k_free : fx = false -> free_vars h -> free_vars h';
  k_eqs : forall k e, In (k, e) (m_eqs m') ->
    In (k, e) (m_eqs m) \/ (covered h' e /\ (fx = false -> free_vars h -> occurring h' e)) }.

Lemma kept_refl fx h m : kept fx h m h m.
Proof. constructor; auto using grows_refl. Qed.
Lemma kept_trans fx h m h1 m1 h2 m2 : kept fx h m h1 m1 -> kept fx h1 m1 h2 m2 -> kept fx h m h2 m2.
Proof.
  intros A B. constructor.
  - exact (grows_trans _ _ _ (k_grows _ _ _ _ _ A) (k_grows _ _ _ _ _ B)).
  - intros E F. exact (k_free _ _ _ _ _ B E (k_free _ _ _ _ _ A E F)).
  - intros k e H. destruct (k_eqs _ _ _ _ _ B k e H) as [H1|[C1 O1]].
    + destruct (k_eqs _ _ _ _ _ A k e H1) as [H2|[C2 O2]]; [now left|right]. split.
      * exact (covered_grows _ _ _ (k_grows _ _ _ _ _ B) C2).
      * intros E F. exact (occurring_grows _ _ _ (k_grows _ _ _ _ _ B) (O2 E F)).
    + right. split; [exact C1|]. intros E F. exact (O1 E (k_free _ _ _ _ _ A E F)).
Qed.

(** What the reading of a script says of the model. *)
Record reads (VS : string -> Prop) (r : reading) (w : mworld) : Prop := mkReads {
  rd_ready : forall a, among (ready r) a = true -> exists l, attr_qty (w_mod w) a = Ok l /\ usable (w_heap w) VS l;
  rd_given : forall a, among (given r) a = true -> exists l o, attr_qty (w_mod w) a = Ok l /\ hget (w_heap w) l = Some o /\
                 q_kind o <> KVariable /\ ~ VS (q_name o) }.

Lemma among_drop a l b : among (drop a l) b = true <-> a <> b /\ among l b = true.
Proof.
  unfold among, drop. rewrite !existsb_exists. split.
  - intros (x & Hx & E). apply String.eqb_eq in E. subst x. apply filter_In in Hx. destruct Hx as [Hx N].
    split; [intros ->; rewrite String.eqb_refl in N; discriminate|]. exists b. split; [exact Hx|apply String.eqb_refl].
  - intros (N & x & Hx & E). apply String.eqb_eq in E. subst x. exists b. split; [|apply String.eqb_refl].
    apply filter_In. split; [exact Hx|]. apply String.eqb_neq in N. now rewrite N.
Qed.
Lemma among_cons a l b : among (a :: l) b = true <-> a = b \/ among l b = true.
Proof. unfold among. simpl. rewrite Bool.orb_true_iff, String.eqb_eq. split; intros [->|H]; auto. Qed.

Lemma attr_set m a x b : attr_qty (set_attr m a x) b = if String.eqb a b then match x with AQty l => Ok l | AEqn _ => Raise EType end else attr_qty m b.
Proof.
  unfold attr_qty, set_attr, with_attrs. cbn [m_attrs]. rewrite dget_dset. rewrite String.eqb_sym.
  destruct (String.eqb a b); [destruct x|]; reflexivity.
Qed.

Lemma resolve_occurs {B} (f : B -> res loc) (p : B -> bool) :
  (forall e e', resolve f e = Ok e' -> all_atoms p e = true -> forall l, occurs l e' -> exists a, p a = true /\ f a = Ok l) /\
  (forall r r', resolve_args f r = Ok r' -> all_atoms_args p r = true -> forall l, occurs_args l r' -> exists a, p a = true /\ f a = Ok l).
Proof.
  apply uexpr_uargs_ind.
  - intros a e' H P l O. cbn in H. binv. simpl in O. subst x. exists a. auto.
  - intros o x IHx y IHy e' H P l O. cbn in H. binv. cbn in P. apply andb_prop in P. destruct P. destruct O; eauto.
  - intros o x IHx k e' H P l O. cbn in H. binv. cbn in P, O. eauto.
  - intros o k x IHx e' H P l O. cbn in H. binv. cbn in P, O. eauto.
  - intros g x IHx e' H P l O. cbn in H. binv. cbn in P, O. eauto.
  - intros g k e' H P l O. cbn in H. binv. destruct O.
  - intros a [t|] e' H P l O; cbn in H; binv; cbn in P, O; subst; eauto.
  - intros mx r IH e' H P l O. cbn in H. binv. cbn in P, O. eauto.
  - intros r' H P l O. cbn in H. binv. destruct O.
  - intros e IHe r IHr r' H P l O. cbn in H. binv. cbn in P. apply andb_prop in P. destruct P. destruct O; eauto.
  - intros k r IH r' H P l O. cbn in H. binv. cbn in P, O. eauto.
Qed.

Lemma resolve_eq_occurs {B} (f : B -> res loc) (p : B -> bool) q q' : resolve_eq f q = Ok q' -> all_atoms_eq p q = true ->
  forall l, eq_occurs l q' -> exists a, p a = true /\ f a = Ok l.
Proof.
  intros H P l O. assert (R := proj1 (resolve_occurs f p)). destruct q as [e|x y|x k]; cbn in H, P; binv.
  - cbn in O. eauto.
  - apply andb_prop in P. destruct P. destruct O; eauto.
  - cbn in O. eauto.
Qed.

Definition fits (VS : string -> Prop) (nm : string) (c : cmd) : Prop :=
  match c with
  | CVar _ n _ _ _ _ => VS (full_name n nm)
  | CPar _ n _ _ | CCon _ n _ _ => ~ VS (full_name n nm)
  | _ => True
  end.

Lemma free_app h q : q_spec q = false -> free_vars h -> free_vars (h ++ [q]).
Proof. intros S F l o H K. destruct (hget_snoc _ _ _ _ H) as [H1| ->]; [exact (F l o H1 K)|exact S]. Qed.

(** Heap changes that leave the attributes alone. *)
Lemma reads_heap VS r h h' u u' m : grows2 h h' -> reads VS r (mkW h u m) -> reads VS r (mkW h' u' m).
Proof.
  intros G [R1 R2]. constructor; simpl in *.
  - intros a Ha. destruct (R1 a Ha) as (l & A & U). exists l. split; [exact A|exact (usable_grows _ _ _ _ G U)].
  - intros a Ha. destruct (R2 a Ha) as (l & o & A & E & K & N). destruct (G l o E) as (o' & E' & N' & K' & _).
    exists l, o'. rewrite N', K'. auto.
Qed.

(** A new attribute that holds the new quantity. *)
Lemma reads_new_var (VS : string -> Prop) r w m q a u : m_attrs m = m_attrs (w_mod w) -> q_kind q = KVariable -> VS (q_name q) -> reads VS r w ->
  reads VS (mkReading (a :: ready r) (drop a (given r))) (mkW (w_heap w ++ [q]) u (set_attr m a (AQty (List.length (w_heap w))))).
Proof.
  intros Em K V [R1 R2]. constructor; cbn [w_heap w_mod ready given].
  - intros b Hb. rewrite attr_set. destruct (String.eqb_spec a b) as [<-|Hne].
    + eexists. split; [reflexivity|]. exists q. split; [apply hget_last|]. left. auto.
    + apply among_cons in Hb. destruct Hb as [Hb|Hb]; [contradiction|]. destruct (R1 b Hb) as (l & A & U). exists l.
      split; [unfold attr_qty; rewrite Em; exact A|exact (usable_grows _ _ _ _ (grows2_app _ _) U)].
  - intros b Hb. apply among_drop in Hb. destruct Hb as [Hne Hb]. rewrite attr_set. apply String.eqb_neq in Hne. rewrite Hne.
    destruct (R2 b Hb) as (l & o & A & E & C). exists l, o. split; [unfold attr_qty; rewrite Em; exact A|]. split; [now apply hget_app|exact C].
Qed.
Lemma reads_new_given (VS : string -> Prop) r w m q a u : m_attrs m = m_attrs (w_mod w) -> q_kind q <> KVariable -> ~ VS (q_name q) -> reads VS r w ->
  reads VS (mkReading (drop a (ready r)) (a :: given r)) (mkW (w_heap w ++ [q]) u (set_attr m a (AQty (List.length (w_heap w))))).
Proof.
  intros Em K V [R1 R2]. constructor; cbn [w_heap w_mod ready given].
  - intros b Hb. apply among_drop in Hb. destruct Hb as [Hne Hb]. rewrite attr_set. apply String.eqb_neq in Hne. rewrite Hne.
    destruct (R1 b Hb) as (l & A & U). exists l.
    split; [unfold attr_qty; rewrite Em; exact A|exact (usable_grows _ _ _ _ (grows2_app _ _) U)].
  - intros b Hb. rewrite attr_set. destruct (String.eqb_spec a b) as [<-|Hne].
    + eexists _, q. split; [reflexivity|]. split; [apply hget_last|]. auto.
    + apply among_cons in Hb. destruct Hb as [Hb|Hb]; [contradiction|].
      destruct (R2 b Hb) as (l & o & A & E & C). exists l, o. split; [unfold attr_qty; rewrite Em; exact A|]. split; [now apply hget_app|exact C].
Qed.
Lemma reads_new_eq (VS : string -> Prop) r w m e a u : m_attrs m = m_attrs (w_mod w) -> reads VS r w ->
  reads VS (mkReading (drop a (ready r)) (drop a (given r))) (mkW (w_heap w) u (set_attr m a (AEqn e))).
Proof.
  intros Em [R1 R2]. constructor; cbn [w_heap w_mod ready given]; intros b Hb; apply among_drop in Hb; destruct Hb as [Hne Hb];
    rewrite attr_set; apply String.eqb_neq in Hne; rewrite Hne.
  - destruct (R1 b Hb) as (l & A & U). exists l. split; [unfold attr_qty; rewrite Em; exact A|exact U].
  - destruct (R2 b Hb) as (l & o & A & C). exists l, o. split; [unfold attr_qty; rewrite Em; exact A|exact C].
Qed.

Lemma kept_new fx h m q m' : q_spec q = false -> m_eqs m' = m_eqs m -> kept fx h m (h ++ [q]) m'.
Proof. intros S E. constructor; [apply grows_app|intros _; now apply free_app|]. intros k e H. left. now rewrite <- E. Qed.

Lemma kept_set fx h m l q q' : hget h l = Some q -> q_name q' = q_name q -> q_kind q' = q_kind q ->
  (fx = false -> q_kind q = KVariable -> q_spec q = false -> q_spec q' = false) -> kept fx h m (hset h l q') m.
Proof.
  intros G N K S. constructor; [now apply (grows_hset _ _ q)| |auto]. intros E F i o Gi Ki.
  destruct (Nat.eq_dec i l) as [->|Hne].
  - rewrite hget_hset_eq in Gi by now apply hget_lt in G. injection Gi as <-. apply S; [exact E|congruence|]. apply (F l q G). congruence.
  - rewrite hget_hset_neq in Gi by exact Hne. exact (F i o Gi Ki).
Qed.

Lemma cmd_kept fx VS r w c r' w' res0 : run_cmd w c = (w', res0) -> reads VS r w -> read_cmd fx r c = Some r' ->
  fits VS (m_name (w_mod w)) c ->
  kept fx (w_heap w) (w_mod w) (w_heap w') (w_mod w') /\ (res0 = Ok tt -> reads VS r' w').
Proof.
  intros H R Hr Hf. destruct c as [a n u ex ty v|a n u v|a n u v|a v u|a|a n q check]; cbn [run_cmd read_cmd fits] in *.
  - injection Hr as <-. unfold assign_qty, create_variable in H.
    destruct ex; [destruct (String.eqb ty "input"); [|destruct (String.eqb ty "output")]|]; injection H as <- <-;
      (split; [now apply kept_new|]); intros E; try discriminate E; (apply reads_new_var; [reflexivity|reflexivity|exact Hf|exact R]).
  - injection Hr as <-. injection H as <- <-. split; [now apply kept_new|]. intros _.
    apply reads_new_given; [reflexivity|discriminate|exact Hf|exact R].
  - injection Hr as <-. injection H as <- <-. split; [now apply kept_new|]. intros _.
    apply reads_new_given; [reflexivity|discriminate|exact Hf|exact R].
  - destruct (attr_qty (w_mod w) a) as [l|x] eqn:Ea; [|injection H as <- <-; split; [apply kept_refl|discriminate]].
    destruct (match v with SANum n => _ | SAAttr b => _ end) as [sv|x]; [|injection H as <- <-; split; [apply kept_refl|discriminate]].
    unfold heap_set_value in H. destruct (hget (w_heap w) l) as [q|] eqn:G; [|injection H as <- <-; split; [apply kept_refl|discriminate]].
    destruct (set_value q sv u) as [q'|x] eqn:Es; injection H as <- <-; [|split; [apply kept_refl|discriminate]].
    destruct (set_value_effect _ _ _ _ Es) as (_ & Sq & _ & N & K & _). cbn [w_heap w_mod].
    assert (Gr : grows2 (w_heap w) (hset (w_heap w) l q')) by (apply (grows2_hset _ _ q); auto).
    assert (R' : reads VS r (mkW (hset (w_heap w) l q') (w_uids w) (w_mod w))).
    { destruct w as [wh wu wm]. cbn [w_heap w_uids w_mod] in *. exact (reads_heap _ _ _ _ _ _ _ Gr R). }
    destruct (among (given r) a) eqn:Eg.
    + injection Hr as <-. destruct (rd_given _ _ _ R a Eg) as (l1 & o & A & E & Kn & Vn).
      assert (l1 = l) by congruence. subst l1. assert (o = q) by congruence. subst o. split.
      * apply (kept_set _ _ _ _ q); try assumption. intros _ E2. contradiction.
      * intros _. constructor; cbn [w_heap w_mod ready given].
        -- intros b Hb. apply among_cons in Hb. destruct Hb as [<-|Hb]; [|exact (rd_ready _ _ _ R' b Hb)].
           exists l. split; [exact Ea|]. exists q'. split; [apply hget_hset_eq; now apply hget_lt in G|].
           right. split; [exact Sq|]. now rewrite N.
        -- exact (rd_given _ _ _ R').
    + destruct (fx && among (ready r) a) eqn:Ef; [|discriminate]. injection Hr as <-. apply andb_prop in Ef. destruct Ef as [-> Er].
      split; [apply (kept_set _ _ _ _ q); try assumption; discriminate|]. intros _. exact R'.
  - injection Hr as <-. destruct (attr_qty (w_mod w) a) as [l|x] eqn:Ea; [|injection H as <- <-; split; [apply kept_refl|discriminate]].
    destruct (hget (w_heap w) l) as [q|] eqn:G; [|injection H as <- <-; split; [apply kept_refl|discriminate]].
    destruct (qkind_eqb (q_kind q) KVariable); injection H as <- <-; [|split; [apply kept_refl|discriminate]]. cbn [w_heap w_mod].
    split; [apply (kept_set _ _ _ _ q); auto|]. intros _.
    destruct w as [wh wu wm]. cbn [w_heap w_uids w_mod] in *. apply (reads_heap _ _ wh _ wu); [|exact R]. apply (grows2_hset _ _ q); auto.
  - destruct (all_atoms_eq (among (ready r)) q) eqn:Ep; [|discriminate]. injection Hr as <-.
    destruct (rbind (resolve_eq (attr_qty (w_mod w)) q) (fun q' => build_eq (w_heap w) q')) as [arg|x] eqn:Eb;
      [|injection H as <- <-; split; [apply kept_refl|discriminate]].
    binv. destruct (create_outcome w n arg check) as [u' E]. rewrite E in H. clear E.
    destruct (set_residual _ arg) as [e0 [[]|x2]] eqn:Er; [|injection H as <- <-; split; [apply kept_refl|discriminate]].
    destruct (eq_expr e0) as [nn|] eqn:En; [|injection H as <- <-; split; [apply kept_refl|discriminate]]. cbv zeta in H.
    assert (U : forall l, eq_occurs l x -> usable (w_heap w) VS l).
    { intros l Hl. destruct (resolve_eq_occurs _ _ _ _ Hb Ep l Hl) as (b & Pb & Ab).
      destruct (rd_ready _ _ _ R b Pb) as (l' & A' & U'). assert (l' = l) by congruence. subst l'. exact U'. }
    set (e2 := mkEqn (stored_name w n) (Some nn) (eq_elem e0) (eq_elementary e0) (eq_type e0) (Some (nd_smap nn)) (m_name (w_mod w))) in *.
    destruct (new_covered _ _ _ _ _ nn e2 VS Eb Er En U) as [C O]; [now rewrite En|reflexivity|reflexivity|].
    assert (Kp : forall m', m_eqs m' = dset (stored_name w n) e2 (m_eqs (w_mod w)) -> kept fx (w_heap w) (w_mod w) (w_heap w) m').
    { intros m' Em. constructor; [apply grows_refl|auto|]. intros k e Hin. rewrite Em in Hin.
      apply in_dset in Hin. destruct Hin as [[_ ->]|Hin]; [right; auto|now left]. }
    destruct check; [destruct (forallb _ _)|]; injection H as <- <-.
    + split; [now apply Kp|]. intros _. apply reads_new_eq; [reflexivity|exact R].
    + split; [apply kept_refl|discriminate].
    + split; [now apply Kp|]. intros _. apply reads_new_eq; [reflexivity|exact R].
Qed.

Lemma cmds_kept fx VS cs : forall r w r' w' res0, run_cmds w cs = (w', res0) -> reads VS r w -> read_cmds fx r cs = Some r' ->
  (forall c, In c cs -> fits VS (m_name (w_mod w)) c) ->
  kept fx (w_heap w) (w_mod w) (w_heap w') (w_mod w').
Proof.
  induction cs as [|c cs IH]; intros r w r' w' res0 H R Hr Hf; cbn [run_cmds read_cmds] in *.
  - injection H as <- _. apply kept_refl.
  - destruct (run_cmd w c) as [w1 r1] eqn:E. destruct (read_cmd fx r c) as [r2|] eqn:E2; [|discriminate].
    destruct (cmd_kept _ _ _ _ _ _ _ _ E R E2 (Hf c (or_introl eq_refl))) as [K Rn]. destruct r1 as [[]|x].
    + eapply kept_trans; [exact K|]. apply (IH r2 w1 r' w' res0 H (Rn eq_refl) Hr). intros c' Hc.
      rewrite (run_cmd_name _ _ _ _ E). apply Hf. now right.
    + injection H as <- _. exact K.
Qed.

Lemma full_name_cancel a b n : full_name a n = full_name b n -> a = b.
Proof.
  unfold full_name. intros H. apply (append_cancel_r ("_" ++ n)%string). exact H.
Qed.

Lemma call_kept fx d w w' r : prepared fx d = true -> model_call d w = (w', r) ->
  kept fx (w_heap w) (w_mod w) (w_heap w') (w_mod w').
Proof.
  intros P H. unfold prepared in P. cbv zeta in P. unfold model_call in H. set (cs := d_cons d ++ d_pars d ++ d_vars d ++ d_eqs d) in *.
  apply andb_prop in P. destruct P as [P1 P2]. destruct (read_cmds fx _ cs) as [r'|] eqn:Er; [|discriminate].
  apply (cmds_kept fx (fun x => exists n, In n (var_names_of cs) /\ x = full_name n (m_name (w_mod w))) cs _ _ _ _ _ H) with (2 := Er).
  - constructor; discriminate.
  - intros c Hc. destruct c as [a n u ex ty v|a n u v|a n u v|a v u|a|a n q check]; cbn [fits]; try exact I.
    + exists n. split; [|reflexivity]. unfold var_names_of. apply in_flat_map. eexists. split; [exact Hc|]. now left.
    + intros (n' & Hn & E). apply full_name_cancel in E. subst n'. rewrite forallb_forall in P2. assert (X := P2 n).
      rewrite Bool.negb_true_iff in X. unfold among in X. apply Bool.not_true_iff_false in X.
      * apply X. apply existsb_exists. exists n. split; [exact Hn|apply String.eqb_refl].
      * unfold other_names_of. apply in_flat_map. eexists. split; [exact Hc|]. now left.
    + intros (n' & Hn & E). apply full_name_cancel in E. subst n'. rewrite forallb_forall in P2. assert (X := P2 n).
      rewrite Bool.negb_true_iff in X. unfold among in X. apply Bool.not_true_iff_false in X.
      * apply X. apply existsb_exists. exists n. split; [exact Hn|apply String.eqb_refl].
      * unfold other_names_of. apply in_flat_map. eexists. split; [exact Hc|]. now left.
Qed.

(** ** Sessions *)
Record holds (fx : bool) (w : pworld) : Prop := mkHolds {
  h_prep : forall i m d, get_model w i = Some (m, d) -> prepared fx d = true;
  h_cov : forall i m d k e, get_model w i = Some (m, d) -> In (k, e) (m_eqs m) -> covered (pw_heap w) e;
  h_free : fx = false -> free_vars (pw_heap w);
  h_occ : fx = false -> forall i m d k e, get_model w i = Some (m, d) -> In (k, e) (m_eqs m) -> occurring (pw_heap w) e }.

Lemma on_model_holds {A} fx w i (f : decls -> mworld -> mworld * res A) w2 r : holds fx w ->
  (forall m d w' r, get_model w i = Some (m, d) -> f d (mkW (pw_heap w) (pw_uids w) m) = (w', r) ->
     kept fx (pw_heap w) m (w_heap w') (w_mod w')) ->
  on_model w i f = (w2, r) -> holds fx w2.
Proof.
  intros O HF H. apply on_model_spec in H. destruct H as [(_ & -> & _)|(m & d & w' & G & F & Hh & G2 & Go & L)]; [exact O|].
  assert (K := HF m d w' r G F). constructor.
  - intros j mj dj Gj. destruct (Nat.eq_dec j i) as [->|Hne].
    + assert (X : Some (mj, dj) = Some (w_mod w', d)) by congruence. injection X as -> ->. exact (h_prep _ _ O i m d G).
    + rewrite Go in Gj by exact Hne. exact (h_prep _ _ O j mj dj Gj).
  - intros j mj dj k e Gj Hin. rewrite Hh. destruct (Nat.eq_dec j i) as [->|Hne].
    + assert (X : Some (mj, dj) = Some (w_mod w', d)) by congruence. injection X as -> ->.
      destruct (k_eqs _ _ _ _ _ K k e Hin) as [Hm|[C _]]; [|exact C].
      exact (covered_grows _ _ _ (k_grows _ _ _ _ _ K) (h_cov _ _ O i m d k e G Hm)).
    + rewrite Go in Gj by exact Hne. exact (covered_grows _ _ _ (k_grows _ _ _ _ _ K) (h_cov _ _ O j mj dj k e Gj Hin)).
  - intros E. rewrite Hh. exact (k_free _ _ _ _ _ K E (h_free _ _ O E)).
  - intros E j mj dj k e Gj Hin. rewrite Hh. destruct (Nat.eq_dec j i) as [->|Hne].
    + assert (X : Some (mj, dj) = Some (w_mod w', d)) by congruence. injection X as -> ->.
      destruct (k_eqs _ _ _ _ _ K k e Hin) as [Hm|[_ C]]; [|exact (C E (h_free _ _ O E))].
      exact (occurring_grows _ _ _ (k_grows _ _ _ _ _ K) (h_occ _ _ O E i m d k e G Hm)).
    + rewrite Go in Gj by exact Hne. exact (occurring_grows _ _ _ (k_grows _ _ _ _ _ K) (h_occ _ _ O E j mj dj k e Gj Hin)).
Qed.

Lemma call_holds fx w i w2 r : holds fx w -> on_model w i model_call = (w2, r) -> holds fx w2.
Proof.
  intros O. apply (on_model_holds _ _ _ _ _ _ O). intros m d w' r' G F. exact (call_kept _ _ _ _ _ (h_prep _ _ O i m d G) F).
Qed.
Lemma reload_holds fx is : forall w w' r, holds fx w -> reload w is = (w', r) -> holds fx w'.
Proof.
  induction is as [|i is IH]; intros w w' r O H; simpl in H; [now injection H as <- _|].
  destruct (on_model w i model_call) as [w1 [[]|x]] eqn:E.
  - apply (IH _ _ _ (call_holds _ _ _ _ _ O E) H).
  - injection H as <- _. exact (call_holds _ _ _ _ _ O E).
Qed.

Lemma total_occurs l ls : forall acc, occurs l (total acc ls) <-> occurs l acc \/ In l ls.
Proof.
  induction ls as [|x ls IH]; intros acc; cbn [total].
  - simpl. tauto.
  - rewrite IH. cbn [occurs In]. tauto.
Qed.
Lemma opening_occurs l ls e : opening ls = Some e -> occurs l e -> In l ls.
Proof.
  destruct ls as [|x ls]; [discriminate|]. cbn [opening]. intros H. injection H as <-. rewrite total_occurs. cbn. tauto.
Qed.
Lemma balance_occurs l ins outs e : balance_expr ins outs = Some e -> occurs l e -> In l ins \/ In l outs.
Proof.
  unfold balance_expr. destruct (opening ins) as [a|] eqn:Ea, (opening outs) as [b|] eqn:Eb; intros H; try discriminate H; injection H as <-.
  - cbn [occurs]. intros [H|H]; [left|right]; eapply opening_occurs; eassumption.
  - cbn [occurs]. intros H. left. eapply opening_occurs; eassumption.
  - cbn [occurs]. intros H. right. eapply opening_occurs; eassumption.
Qed.

Lemma connection_kept fx w outs ins a w' r : balance (w_heap w) ins outs = Ok a ->
  model_connection w outs ins a = (w', r) -> kept fx (w_heap w) (w_mod w) (w_heap w') (w_mod w').
Proof.
  intros Ba H. unfold model_connection in H.
  destruct (forallb (is_variable (w_heap w)) ins && forallb (is_variable (w_heap w)) outs) eqn:Ev; [|injection H as <- _; apply kept_refl].
  destruct (rbind (qty_names (w_heap w) outs) _) as [name|x] eqn:En; [|injection H as <- _; apply kept_refl].
  assert (Ne : name <> "") by (binv; apply append_ne).
  destruct (connection_init (w_uids w) name a) as [u [e|x]] eqn:Ec; injection H as <- _; [|apply kept_refl].
  apply balance_built in Ba. destruct Ba as [(-> & _)|(q & Eq & Hb)].
  { exfalso. unfold connection_init, equation_init in Ec. destruct (String.eqb name ""); simpl in Ec; discriminate. }
  assert (U : forall l, eq_occurs l (UResid q) -> usable (w_heap w) (fun _ => True) l).
  { intros l Hl. apply (balance_occurs _ _ _ _ Eq) in Hl. apply andb_prop in Ev. destruct Ev as [V1 V2].
    rewrite forallb_forall in V1, V2. assert (V : is_variable (w_heap w) l = true) by (destruct Hl; auto).
    unfold is_variable in V. destruct (hget (w_heap w) l) as [o|] eqn:G; [|discriminate]. exists o. split; [exact G|]. left.
    destruct (q_kind o); simpl in V; try discriminate; auto. }
  unfold connection_init in Ec.
  destruct (init_outcome (w_uids w) main_thread name a "") as [u1 E]. rewrite E in Ec. clear E.
  apply String.eqb_neq in Ne. rewrite Ne in Ec.
  destruct (set_residual (blank_eqn name) a) as [e1 [[]|x]] eqn:Er; [|discriminate].
  destruct (residual_again a _ _ (with_eowner e1 "") (built_not_other _ _ _ Hb) Er) as (e2 & E2 & X & T & N & _ & El & Ef).
  rewrite E2 in Ec. assert (D := Er). apply (eq_data _ _ _ _ _ Hb) in D. destruct D as (n & Enn & _).
  unfold sweep_objects in Ec. rewrite X, Enn in Ec. injection Ec as _ <-.
  match goal with |- context [dset name ?z _] => destruct (new_covered _ _ _ _ _ n z (fun _ => True) Hb Er Enn U) as [C O] end;
    [exact X|exact (El eq_refl)|reflexivity|].
  constructor; [apply grows_refl|auto|]. intros k e Hin. cbn [w_mod m_eqs with_eqs] in Hin. apply in_dset in Hin.
  destruct Hin as [[_ ->]|Hin]; [right; auto|now left].
Qed.

Lemma do_act_holds fx s a : good s -> ordinary fx a = true -> holds fx (fst s) -> holds fx (fst (fst (do_act s a))).
Proof.
  intros G P O. destruct s as [w p]. destruct (do_act (w, p) a) as [[w' p'] r] eqn:E. simpl in *.
  destruct a as [n dd|k c|k|k j f|k|m1 m2 outs ins e|m1 m2 out inp|names|c|]; simpl in E, P; try discriminate P.
  - injection E as <- _ _. destruct O as [O1 O2 O3 O4].
    assert (X : forall i m d, get_model (mkPW (pw_heap w) (pw_uids w) (pw_puids w) (pw_models w ++ [(new_model n, dd)])) i = Some (m, d) ->
                get_model w i = Some (m, d) \/ (m = new_model n /\ d = dd)).
    { intros i m d H. unfold get_model in *. simpl in H. destruct (Nat.lt_ge_cases i (List.length (pw_models w))) as [L|L].
      - left. now rewrite nth_error_app1 in H by exact L.
      - right. rewrite nth_error_app2 in H by exact L. destruct (i - _)%nat as [|z]; [|destruct z; discriminate]. injection H as <- <-. auto. }
    constructor; simpl.
    + intros i m d H. destruct (X i m d H) as [H1|[_ ->]]; [exact (O1 i m d H1)|exact P].
    + intros i m d k e H Hin. destruct (X i m d H) as [H1|[-> _]]; [exact (O2 i m d k e H1 Hin)|destruct Hin].
    + exact O3.
    + intros Ef i m d k e H Hin. destruct (X i m d H) as [H1|[-> _]]; [exact (O4 Ef i m d k e H1 Hin)|destruct Hin].
  - destruct (on_model w k _) as [w1 r1] eqn:E1. injection E as <- _ _.
    apply (on_model_holds _ _ _ _ _ _ O) with (2 := E1). intros m d w2 r2 _ F.
    destruct c as [a n u ex ty v|a n u v|a n u v|a v u|a|a n q check]; try discriminate P; cbn [run_cmd w_mod w_heap] in F.
    + subst fx. destruct (attr_qty m a) as [l|x] eqn:Ea; [|injection F as <- _; apply kept_refl].
      destruct (match v with SANum n => _ | SAAttr b => _ end) as [sv|x]; [|injection F as <- _; apply kept_refl].
      unfold heap_set_value in F. destruct (hget (pw_heap w) l) as [q|] eqn:Gl; [|injection F as <- _; apply kept_refl].
      destruct (set_value q sv u) as [q'|x] eqn:Es; injection F as <- _; [|apply kept_refl].
      destruct (set_value_effect _ _ _ _ Es) as (_ & Sq & _ & N & K & _). apply (kept_set _ _ _ _ q); auto; discriminate.
    + destruct (attr_qty m a) as [l|x] eqn:Ea; [|injection F as <- _; apply kept_refl].
      destruct (hget (pw_heap w) l) as [q|] eqn:Gl; [|injection F as <- _; apply kept_refl].
      destruct (qkind_eqb (q_kind q) KVariable); injection F as <- _; [|apply kept_refl].
      apply (kept_set _ _ _ _ q); auto.
  - destruct (on_model w k _) as [w1 r1] eqn:E1. injection E as <- _ _. exact (call_holds _ _ _ _ _ O E1).
  - destruct (get_model w k); injection E as <- _ _; exact O.
  - destruct e as [q|]; [discriminate P|].
    unfold connect_vars in E. destruct (get_model w m2) as [[s2 d2]|]; [|injection E as <- _ _; exact O].
    destruct (match m1 with CMName _ => _ | CMModel i => _ end); [|injection E as <- _ _; exact O].
    destruct (forallb _ (cv_list ins) && forallb _ (cv_list outs)).
    2: { destruct ins, outs; injection E as <- _ _; exact O. }
    destruct (balance (pw_heap w) (cv_list ins) (cv_list outs)) as [ar|] eqn:Ba; [|injection E as <- _ _; exact O].
    destruct (rbind (qty_names (pw_heap w) (cv_list outs)) _) as [[o i']|]; [|injection E as <- _ _; exact O].
    destruct (on_model w m2 _) as [w1 r1] eqn:E1.
    assert (Q : holds fx w1).
    { apply (on_model_holds _ _ _ _ _ _ O) with (2 := E1). intros m d w2 r2 _ F. exact (connection_kept _ (mkW (pw_heap w) (pw_uids w) m) _ _ _ _ _ Ba F). }
    destruct r1; injection E as <- _ _; exact Q.
  - injection E as <- _ _. exact O.
  - injection E as <- _ _. exact O.
  - unfold presolve in E. destruct (reload w (dvals (pr_models p))) as [w1 r1] eqn:E1.
    assert (Q := reload_holds _ _ _ _ _ O E1).
    destruct r1 as [[]|x]; [|injection E as <- _ _; exact Q]. destruct (build_block w1 p); [|injection E as <- _ _; exact Q].
    destruct (block_call _) as [b' r']. injection E as <- _ _. exact Q.
Qed.

Lemma run_holds fx acts : forallb (ordinary fx) acts = true -> holds fx (fst (run_acts start_session acts)).
Proof.
  induction acts as [|a acts IH] using rev_ind; intros P.
  - constructor.
    + intros i m d H. unfold get_model in H; destruct i; discriminate.
    + intros i m d k e H. unfold get_model in H; destruct i; discriminate.
    + intros _ l q H. unfold hget in H. destruct l; discriminate.
    + intros _ i m d k e H. unfold get_model in H; destruct i; discriminate.
  - rewrite forallb_app in P. apply andb_prop in P. destruct P as [P1 P2]. simpl in P2. rewrite Bool.andb_true_r in P2.
    rewrite run_acts_app. simpl. apply do_act_holds; [apply run_good, start_good|exact P2|now apply IH].
Qed.

Lemma ordinary_plain fx acts : forallb (ordinary fx) acts = true -> forallb plain acts = true.
Proof.
  intros H. rewrite forallb_forall in *. intros a Ha. specialize (H a Ha).
  destruct a as [n dd|k c|k|k j f|k|m1 m2 outs ins e|m1 m2 out inp|names|c|]; simpl in *; try reflexivity; try discriminate.
  destruct c; try reflexivity; discriminate.
Qed.

Lemma block_holds fx acts s b : resolved acts s b -> forallb (ordinary fx) acts = true -> holds fx (fst s).
Proof.
  intros [H _] P. replace s with (fst (do_act (run_acts start_session acts) AResolve)) by now rewrite H.
  apply do_act_holds; [apply run_good, start_good|reflexivity|now apply run_holds].
Qed.

Lemma block_model acts s b e : resolved acts s b -> In e (b_eqs b) ->
  exists i m d k, get_model (fst s) i = Some (m, d) /\ In (k, e) (m_eqs m).
Proof.
  intros R He. destruct (resolved_block _ _ _ R) as (_ & B & _). rewrite (bf_eqs _ _ B) in He.
  unfold equations_of in He. apply in_flat_map in He. destruct He as (i & _ & He). unfold model_of in He.
  destruct (get_model (fst s) i) as [[m d]|] eqn:G; [|destruct He]. simpl in He.
  unfold dvals in He. apply in_map_iff in He. destruct He as ([k e'] & E & Hin). simpl in E. subst e'. exists i, m, d, k. auto.
Qed.

(** ** The unknowns *)
Lemma symbols_unknowns fx acts s b e x : resolved acts s b -> forallb (ordinary fx) acts = true -> called_then_added acts ->
  In e (b_eqs b) -> has_symbol e x -> In x (b_varlist b).
Proof.
  intros R P C He Hx. destruct (unknowns_usual _ _ _ R (ordinary_plain _ _ P) C) as [_ U]. apply U. exists e. split; [exact He|].
  destruct (block_model _ _ _ _ R He) as (i & m & d & k & G & Hin). exact (h_cov _ _ (block_holds _ _ _ _ R P) i m d k e G Hin x Hx).
Qed.

Lemma unknowns_symbols acts s b x : resolved acts s b -> forallb (ordinary false) acts = true -> called_then_added acts ->
  In x (b_varlist b) -> exists e n, In e (b_eqs b) /\ eq_expr e = Some n /\ In x (fsyms (nd_sym n)).
Proof.
  intros R P C Hx. destruct (unknowns_usual _ _ _ R (ordinary_plain _ _ P) C) as [_ U]. apply U in Hx. destruct Hx as (e & He & Hu).
  destruct (block_model _ _ _ _ R He) as (i & m & d & k & G & Hin).
  destruct (h_occ _ _ (block_holds _ _ _ _ R P) eq_refl i m d k e G Hin) as (n & d' & En & _ & _ & Ho). exists e, n. auto.
Qed.

Lemma map_res_in {A B} (f : A -> res B) l : forall ys y, map_res f l = Ok ys -> In y ys -> exists x, In x l /\ f x = Ok y.
Proof.
  induction l as [|a l IH]; intros ys y H Hy; cbn [map_res] in H; [injection H as <-; destruct Hy|].
  binv. destruct Hy as [<-|Hy]; [exists a; split; [now left|assumption]|].
  destruct (IH _ y Hb0 Hy) as (z & Hz & Ez). exists z. split; [now right|exact Ez].
Qed.

(** The expressions handed to the solvers. *)
Lemma exprs_closed fx acts s b : resolved acts s b -> forallb (ordinary fx) acts = true -> called_then_added acts ->
  forall ex, In ex (b_exprs b) -> incl (fsyms ex) (b_varlist b).
Proof.
  intros R P C ex Hex x Hx. destruct (resolved_block _ _ _ R) as (_ & B & _).
  destruct (map_res_in _ _ _ _ (bf_list _ _ B) Hex) as (e & He & Es).
  apply (symbols_unknowns fx acts s b e x R P C He). unfold get_symbolic in Es. destruct (eq_elementary e).
  - destruct (eq_elem e) as [[a c]|] eqn:El; [|discriminate]. injection Es as <-. right. exists a, c. auto.
  - destruct (eq_expr e) as [n|] eqn:En; [|discriminate]. injection Es as <-. left. exists n. auto.
Qed.

Lemma closed_call names es args : List.length names = List.length args ->
  (forall e, In e es -> incl (fsyms e) names /\ has_der e = false) ->
  exists vs, call_function names es args = Ok vs /\ List.length vs = List.length es.
Proof.
  intros L H. unfold call_function. rewrite L, Nat.eqb_refl. induction es as [|e es IH]; cbn [map_res]; [eexists; split; reflexivity|].
  destruct (H e (or_introl eq_refl)) as [I D].
  assert (C : closed names e = true).
  { unfold closed. rewrite D, Bool.andb_true_r. apply forallb_forall. intros x Hx. apply existsb_exists. exists x. split; [now apply I|apply String.eqb_refl]. }
  rewrite C. cbn [rbind]. destruct IH as (vs & E & Lv); [intros e' He; apply H; now right|]. rewrite E. cbn [rbind].
  eexists. split; [reflexivity|]. simpl. now rewrite Lv.
Qed.

Lemma function_runs fx acts s b args : resolved acts s b -> forallb (ordinary fx) acts = true -> called_then_added acts ->
  (forall e, In e (b_exprs b) -> has_der e = false) -> List.length args = List.length (b_varlist b) ->
  exists vs, call_function (b_varlist b) (b_exprs b) args = Ok vs /\ List.length vs = List.length (b_eqs b).
Proof.
  intros R P C D L. destruct (resolved_block _ _ _ R) as (_ & B & _). rewrite <- (bf_exprs _ _ B).
  apply closed_call; [now symmetry|]. intros e He. split; [exact (exprs_closed _ _ _ _ R P C e He)|now apply D].
Qed.
