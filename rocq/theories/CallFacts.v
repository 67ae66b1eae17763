(** Facts about calling a model repeatedly (C23). *)
From Verif Require Import Base BaseFacts Num NumFacts UnitModel UnitFacts Sympy Node Build EquationModel ModelModel
  SpecUnits SpecExpr SpecQty SpecModel SpecCall BuildFacts QtyFacts EquationFacts ModelFacts IncFacts.
Notation num := Verif.Num.num.

(** ** Moving locations *)
Definition dmap (f : loc -> loc) (d : dict loc) : dict loc := map (fun kv => (fst kv, f (snd kv))) d.
Definition nmap (f : loc -> loc) (n : node) : node :=
  mkNode (nd_sym n) (dmap f (nd_smap n)) (dmap f (nd_vmap n)) (nd_ty n) (nd_unit n) (nd_repr n).
Definition omap (f : loc -> loc) (o : opd) : opd :=
  match o with ONode n => ONode (nmap f n) | ONum k => ONum k | OOther => OOther end.
Definition rm {A B} (g : A -> B) (r : res A) : res B := match r with Ok a => Ok (g a) | Raise x => Raise x end.

Lemma dset_dmap f k l d : dset k (f l) (dmap f d) = dmap f (dset k l d).
Proof. induction d as [|[k' l'] d IH]; simpl; [reflexivity|]. destruct (String.eqb k k'); simpl; [reflexivity|]. now f_equal. Qed.

Lemma dupdate_dmap f e : forall d, dupdate (dmap f d) (dmap f e) = dmap f (dupdate d e).
Proof.
  induction e as [|[k l] e IH]; intros d; [reflexivity|].
  change (dmap f ((k, l) :: e)) with ((k, f l) :: dmap f e). rewrite !dupdate_cons, dset_dmap. apply IH.
Qed.

Lemma is_empty_dmap f d : is_empty (dmap f d) = is_empty d.
Proof. destruct d; reflexivity. Qed.

Lemma dget_dmap f k d : dget k (dmap f d) = option_map f (dget k d).
Proof. apply dget_map. Qed.
Lemma dkeys_dmap f (d : dict loc) : dkeys (dmap f d) = dkeys d.
Proof. unfold dmap. apply (dkeys_map (fun kv => f (snd kv))). Qed.

Lemma node_op_nmap f o a b : node_op o (nmap f a) (ONode (nmap f b)) = rm (nmap f) (node_op o a (ONode b)).
Proof.
  destruct o; simpl; unfold ty_product; simpl; rewrite ?is_empty_dmap, ?dupdate_dmap; try reflexivity.
  - destruct (unit_add (nd_unit a) (nd_unit b)); simpl; reflexivity.
  - destruct (unit_sub (nd_unit a) (nd_unit b)); simpl; reflexivity.
  - destruct (is_dimensionless (nd_unit b)); [|reflexivity].
    destruct (unit_pow_unit (nd_unit a) (nd_unit b)); simpl; reflexivity.
Qed.
Lemma node_op_num_nmap f o a k : node_op o (nmap f a) (ONum k) = rm (nmap f) (node_op o a (ONum k)).
Proof. destruct o; reflexivity. Qed.
Lemma node_rop_nmap f o a k : node_rop o (nmap f a) k = rm (nmap f) (node_rop o a k).
Proof. destruct o; reflexivity. Qed.
Lemma node_fun_nmap f g a : node_fun g (ONode (nmap f a)) = rm (nmap f) (node_fun g (ONode a)).
Proof. simpl. destruct (is_dimensionless (nd_unit a)); reflexivity. Qed.
Lemma qty_call_nmap f l q : qty_call (f l) q = nmap f (qty_call l q).
Proof. unfold qty_call. destruct (q_spec q); reflexivity. Qed.

Lemma fold_smap f os : forall d, fold_left opd_smap (map (omap f) os) (dmap f d) = dmap f (fold_left opd_smap os d).
Proof.
  induction os as [|o os IH]; intros d; [reflexivity|]. simpl. rewrite <- IH. f_equal.
  destruct o; simpl; [apply dupdate_dmap|reflexivity|reflexivity].
Qed.
Lemma fold_vmap f os : forall d, fold_left opd_vmap (map (omap f) os) (dmap f d) = dmap f (fold_left opd_vmap os d).
Proof.
  induction os as [|o os IH]; intros d; [reflexivity|]. simpl. rewrite <- IH. f_equal.
  destruct o; simpl; [apply dupdate_dmap|reflexivity|reflexivity].
Qed.

Lemma node_minmax_nmap f mx os : node_minmax mx (map (omap f) os) = rm (nmap f) (node_minmax mx os).
Proof.
  unfold node_minmax.
  assert (E1 : map opd_sym (map (omap f) os) = map opd_sym os).
  { rewrite map_map. apply map_ext. intros [n|k|]; reflexivity. }
  assert (E2 : forallb is_num_opd (map (omap f) os) = forallb is_num_opd os).
  { clear. induction os as [|o os IH]; [reflexivity|]. simpl. rewrite IH. destruct o; reflexivity. }
  assert (E3 : forallb is_node_opd (map (omap f) os) = forallb is_node_opd os).
  { clear. induction os as [|o os IH]; [reflexivity|]. simpl. rewrite IH. destruct o; reflexivity. }
  assert (E4 : first_unit (map (omap f) os) = first_unit os).
  { clear. induction os as [|o os IH]; [reflexivity|]. simpl. rewrite IH. destruct o; reflexivity. }
  rewrite E1, E2, E3, E4.
  change (@nil (string * loc)) with (dmap f []) at 1 3. rewrite fold_smap.
  change (fold_left opd_vmap (map (omap f) os) []) with (fold_left opd_vmap (map (omap f) os) (dmap f [])).
  rewrite fold_vmap.
  destruct (forallb is_num_opd os); [reflexivity|]. destruct (forallb is_node_opd os); [reflexivity|].
  destruct (first_unit os); reflexivity.
Qed.

Lemma var_diff_nmap f l q t : var_diff (f l) q t = rm (nmap f) (var_diff l q t).
Proof.
  unfold var_diff. destruct (negb (q_domain q)); [reflexivity|]. rewrite qty_call_nmap.
  destruct t as [p|]; [destruct (q_spec p)|]; reflexivity.
Qed.


(** Locations of a node. *)
Definition din (P : loc -> Prop) (d : dict loc) : Prop := forall k l, In (k, l) d -> P l.
Definition nin (P : loc -> Prop) (n : node) : Prop := din P (nd_smap n) /\ din P (nd_vmap n).
Definition oin (P : loc -> Prop) (o : opd) : Prop := match o with ONode n => nin P n | _ => True end.

Lemma din_update P d e : din P d -> din P e -> din P (dupdate d e).
Proof. intros A B k l H. apply in_dupdate in H. destruct H; eauto. Qed.
Lemma din_nil P : din P [].
Proof. intros k l []. Qed.
Lemma nin_mk P s m v t u r : din P m -> din P v -> nin P (mkNode s m v t u r).
Proof. now split. Qed.

Lemma node_op_nin P o a b n : nin P a -> oin P b -> node_op o a b = Ok n -> nin P n.
Proof.
  intros [A1 A2] B H. destruct b as [b|k|].
  - destruct B as [B1 B2]. destruct o; simpl in H;
      try (destruct (is_dimensionless (nd_unit b)); [|discriminate]); binv; split; simpl; now apply din_update.
  - destruct o; simpl in H; binv; split; assumption.
  - destruct o; discriminate H.
Qed.
Lemma node_rop_nin P o a k n : nin P a -> node_rop o a k = Ok n -> nin P n.
Proof. intros [A1 A2] H. destruct o; simpl in H; unfold node_rsub, node_rdiv, node_rpow in H; simpl in H; binv; split; assumption. Qed.
Lemma node_minmax_nin P mx os n : Forall (oin P) os -> node_minmax mx os = Ok n -> nin P n.
Proof.
  intros F H. unfold node_minmax in H.
  assert (S1 : din P (fold_left opd_smap os [])).
  { clear H. assert (G : forall d, din P d -> din P (fold_left opd_smap os d)).
    { induction F as [|o os Ho F IH]; intros d D; [exact D|]. simpl. apply IH.
      destruct o; simpl; [apply din_update; [exact D|apply Ho]|exact D|exact D]. }
    apply G, din_nil. }
  assert (S2 : din P (fold_left opd_vmap os [])).
  { clear H S1. assert (G : forall d, din P d -> din P (fold_left opd_vmap os d)).
    { induction F as [|o os Ho F IH]; intros d D; [exact D|]. simpl. apply IH.
      destruct o; simpl; [apply din_update; [exact D|apply Ho]|exact D|exact D]. }
    apply G, din_nil. }
  destruct (forallb is_num_opd os); [injection H as <-; now split|]. destruct (forallb is_node_opd os); [discriminate|].
  destruct (first_unit os); [|discriminate]. injection H as <-. now split.
Qed.
Lemma qty_call_nin (P : loc -> Prop) l q : P l -> nin P (qty_call l q).
Proof. intros H. unfold qty_call. destruct (q_spec q); split; simpl; intros k i; firstorder congruence. Qed.
Lemma var_diff_nin (P : loc -> Prop) l q t n : P l -> var_diff l q t = Ok n -> nin P n.
Proof.
  intros H V. unfold var_diff in V. destruct (negb (q_domain q)); [discriminate|].
  pose proof (qty_call_nin P l q H) as [A1 A2].
  destruct t as [p|]; [destruct (q_spec p)|]; try discriminate; injection V as <-; now split.
Qed.

Section Move.
Variables (A : Type) (fa fb : A -> res loc) (f : loc -> loc) (P : loc -> Prop) (hA hB : heap).
Hypothesis Hf : forall a l, fa a = Ok l -> fb a = Ok (f l) /\ hget hB (f l) = hget hA l /\ P l.

Lemma move_build_mut :
  (forall (e : uexpr A) eA n, resolve fa e = Ok eA -> build hA eA = Ok n ->
     (exists eB, resolve fb e = Ok eB /\ build hB eB = Ok (nmap f n)) /\ nin P n) /\
  (forall (l : uargs A) lA os, resolve_args fa l = Ok lA -> build_args hA lA = Ok os ->
     (exists lB, resolve_args fb l = Ok lB /\ build_args hB lB = Ok (map (omap f) os)) /\ Forall (oin P) os).
Proof.
  apply uexpr_uargs_ind.
  - intros a eA n H Hn. simpl in H. binv. destruct (Hf _ _ Hb) as [F1 [F2 F3]]. simpl in *. rewrite F1. simpl.
    unfold build_qty in Hn. destruct (hget hA x) as [q|] eqn:E; [|discriminate]. injection Hn as <-.
    split; [|now apply qty_call_nin].
    eexists. split; [reflexivity|]. simpl. unfold build_qty. rewrite F2. now rewrite qty_call_nmap.
  - intros o e1 IH1 e2 IH2 eA n H Hn. simpl in H. binv. simpl in Hn. binv.
    destruct (IH1 _ _ Hb Hb1) as [[y1 [A1 A2]] A3]. destruct (IH2 _ _ Hb0 Hb2) as [[y2 [B1 B2]] B3].
    split; [|exact (node_op_nin P _ _ (ONode _) _ A3 B3 Hn)].
    simpl. rewrite A1, B1. simpl. eexists. split; [reflexivity|]. simpl. rewrite A2, B2. simpl.
    change (node_op o (nmap f x1) (ONode (nmap f x2)) = Ok (nmap f n)). now rewrite node_op_nmap, Hn.
  - intros o e IH k eA n H Hn. simpl in H. binv. simpl in Hn. binv.
    destruct (IH _ _ Hb Hb0) as [[y1 [A1 A2]] A3].
    split; [|exact (node_op_nin P _ _ (ONum k) _ A3 I Hn)].
    simpl. rewrite A1. simpl. eexists. split; [reflexivity|]. simpl. rewrite A2. simpl.
    change (node_op o (nmap f x0) (ONum k) = Ok (nmap f n)). now rewrite node_op_num_nmap, Hn.
  - intros o k e IH eA n H Hn. simpl in H. binv. simpl in Hn. binv.
    destruct (IH _ _ Hb Hb0) as [[y1 [A1 A2]] A3].
    split; [|exact (node_rop_nin P _ _ _ _ A3 Hn)].
    simpl. rewrite A1. simpl. eexists. split; [reflexivity|]. simpl. rewrite A2. simpl.
    change (node_rop o (nmap f x0) k = Ok (nmap f n)). now rewrite node_rop_nmap, Hn.
  - intros g e IH eA n H Hn. simpl in H. binv. simpl in Hn. binv.
    destruct (IH _ _ Hb Hb0) as [[y1 [A1 A2]] A3].
    simpl. rewrite A1. simpl. destruct (is_dimensionless (nd_unit x0)) eqn:Ed; [|discriminate]. injection Hn as <-.
    split; [|exact A3]. eexists. split; [reflexivity|]. simpl. rewrite A2. simpl. now rewrite Ed.
  - intros g k eA n H Hn. simpl in H. binv. discriminate.
  - intros a [t|] eA n H Hn; simpl in H; binv; simpl in Hn; unfold build_diff in Hn.
    + destruct (Hf _ _ Hb) as [F1 [F2 F3]]. destruct (Hf _ _ Hb0) as [G1 [G2 G3]]. simpl. rewrite F1, G1. simpl.
      destruct (hget hA x) as [q|] eqn:E1; [|discriminate].
      destruct (negb (qkind_eqb (q_kind q) KVariable)) eqn:E2; [discriminate|].
      destruct (hget hA x0) as [p|] eqn:E3; [|discriminate].
      split; [|exact (var_diff_nin P _ _ _ _ F3 Hn)].
      eexists. split; [reflexivity|]. simpl. unfold build_diff. rewrite F2, G2, E2. now rewrite var_diff_nmap, Hn.
    + destruct (Hf _ _ Hb) as [F1 [F2 F3]]. simpl. rewrite F1. simpl.
      destruct (hget hA x) as [q|] eqn:E1; [|discriminate].
      destruct (negb (qkind_eqb (q_kind q) KVariable)) eqn:E2; [discriminate|].
      split; [|exact (var_diff_nin P _ _ _ _ F3 Hn)].
      eexists. split; [reflexivity|]. simpl. unfold build_diff. rewrite F2, E2. now rewrite var_diff_nmap, Hn.
  - intros mx l IH eA n H Hn. simpl in H. binv. change (rbind (build_args hA x) (node_minmax mx) = Ok n) in Hn. binv.
    destruct (IH _ _ Hb Hb0) as [[y1 [A1 A2]] A3]. split; [|exact (node_minmax_nin P _ _ _ A3 Hn)].
    eexists. split; [simpl; rewrite A1; reflexivity|].
    change (rbind (build_args hB y1) (node_minmax mx) = Ok (nmap f n)). rewrite A2. simpl.
    now rewrite node_minmax_nmap, Hn.
  - intros lA os H Hn. simpl in H. binv. simpl in Hn. binv. split; [|constructor]. eexists. split; reflexivity.
  - intros e IHe l IHl lA os H Hn. simpl in H. binv. simpl in Hn. binv.
    destruct (IHe _ _ Hb Hb1) as [[y1 [A1 A2]] A3]. destruct (IHl _ _ Hb0 Hb2) as [[y2 [B1 B2]] B3].
    split; [|now constructor].
    simpl. rewrite A1, B1. simpl. eexists. split; [reflexivity|]. simpl. rewrite A2, B2. reflexivity.
  - intros k l IHl lA os H Hn. simpl in H. binv. simpl in Hn. binv.
    destruct (IHl _ _ Hb Hb0) as [[y2 [B1 B2]] B3]. split; [|now constructor].
    simpl. rewrite B1. simpl. eexists. split; [reflexivity|]. simpl. rewrite B2. reflexivity.
Qed.
End Move.

Definition amap (f : loc -> loc) (a : earg) : earg :=
  match a with EANode n => EANode (nmap f n) | EATuple x o => EATuple (nmap f x) (omap f o) | EAOther => EAOther end.
Definition ain (P : loc -> Prop) (a : earg) : Prop :=
  match a with EANode n => nin P n | EATuple x o => nin P x /\ oin P o | EAOther => True end.

Lemma move_build_eq {A} (fa fb : A -> res loc) f (P : loc -> Prop) hA hB (q : ueq A) arg :
  (forall a l, fa a = Ok l -> fb a = Ok (f l) /\ hget hB (f l) = hget hA l /\ P l) ->
  rbind (resolve_eq fa q) (fun q' => build_eq hA q') = Ok arg ->
  rbind (resolve_eq fb q) (fun q' => build_eq hB q') = Ok (amap f arg) /\ ain P arg.
Proof.
  intros Hf H. pose proof (proj1 (move_build_mut A fa fb f P hA hB Hf)) as M.
  apply rbind_ok in H. destruct H as [q' [H1 H2]]. destruct q as [e|l r|l k]; simpl in H1.
  - apply rbind_ok in H1. destruct H1 as [e' [H1 H3]]. injection H3 as <-. simpl in H2.
    apply rbind_ok in H2. destruct H2 as [n [H2 H3]]. injection H3 as <-.
    destruct (M _ _ _ H1 H2) as [[y [A1 A2]] A3]. split; [|exact A3]. simpl. rewrite A1. simpl. rewrite A2. reflexivity.
  - apply rbind_ok in H1. destruct H1 as [e' [H1 H3]]. apply rbind_ok in H3. destruct H3 as [e2 [H4 H3]].
    injection H3 as <-. simpl in H2.
    apply rbind_ok in H2. destruct H2 as [n [H2 H3]]. apply rbind_ok in H3. destruct H3 as [n2 [H5 H3]].
    simpl in H3. injection H3 as <-.
    destruct (M _ _ _ H1 H2) as [[y [A1 A2]] A3]. destruct (M _ _ _ H4 H5) as [[z [B1 B2]] B3].
    split; [|now split]. simpl. rewrite A1, B1. simpl. rewrite A2, B2. reflexivity.
  - apply rbind_ok in H1. destruct H1 as [e' [H1 H3]]. injection H3 as <-. simpl in H2.
    apply rbind_ok in H2. destruct H2 as [n [H2 H3]]. simpl in H3. injection H3 as <-.
    destruct (M _ _ _ H1 H2) as [[y [A1 A2]] A3]. split; [|split; [exact A3|exact I]].
    simpl. rewrite A1. simpl. rewrite A2. reflexivity.
Qed.

(** ** Equations *)
Definition pmap (f : loc -> loc) (p : node * node) := (nmap f (fst p), nmap f (snd p)).
Definition eqmap (f : loc -> loc) (e : eqn) : eqn :=
  mkEqn (eq_name e) (option_map (nmap f) (eq_expr e)) (option_map (pmap f) (eq_elem e)) (eq_elementary e)
        (eq_type e) (option_map (dmap f) (eq_objs e)) (eq_owner e).
Definition ein (P : loc -> Prop) (e : eqn) : Prop :=
  match eq_expr e with Some n => nin P n | None => True end /\
  match eq_elem e with Some (a, b) => nin P a /\ nin P b | None => True end.

Lemma move_residual f (P : loc -> Prop) n arg e : ain P arg -> set_residual (blank_eqn n) arg = (e, Ok tt) ->
  set_residual (blank_eqn n) (amap f arg) = (eqmap f e, Ok tt) /\ ein P e.
Proof.
  intros Ha H.
  assert (G : forall a b d e', nin P a -> nin P b -> node_sub a (ONode b) = Ok d ->
    finish_residual (with_form (with_expr (with_elem (blank_eqn n) a b) d) true) = (e', Ok tt) ->
    node_sub (nmap f a) (ONode (nmap f b)) = Ok (nmap f d) /\
    finish_residual (with_form (with_expr (with_elem (blank_eqn n) (nmap f a) (nmap f b)) (nmap f d)) true) = (eqmap f e', Ok tt) /\ ein P e').
  { intros a b d e' A B E F. pose proof (node_op_nmap f BSub a b) as M.
    change (node_op BSub (nmap f a) (ONode (nmap f b))) with (node_sub (nmap f a) (ONode (nmap f b))) in M.
    change (node_op BSub a (ONode b)) with (node_sub a (ONode b)) in M. rewrite E in M. split; [exact M|].
    injection F as <-. split; [reflexivity|]. split; [exact (node_op_nin P BSub a (ONode b) d A B E)|]. now split. }
  destruct arg as [a|a b|]; unfold set_residual in H; unfold set_residual; cbv beta iota zeta delta [amap omap] in *.
  - injection H as <-. now split.
  - destruct b as [b|k|].
    + destruct (node_sub a (ONode b)) as [d|x] eqn:E; [|discriminate]. destruct Ha as [Ha1 Ha2].
      destruct (G a b d e Ha1 Ha2 E H) as (G1 & G2 & G3). rewrite G1. now split.
    + change (number_node k (nd_unit (nmap f a))) with (nmap f (number_node k (nd_unit a))).
      destruct (node_sub a (ONode (number_node k (nd_unit a)))) as [d|x] eqn:E; [|discriminate]. destruct Ha as [Ha1 _].
      destruct (G a (number_node k (nd_unit a)) d e Ha1 (conj (din_nil P) (din_nil P)) E H) as (G1 & G2 & G3). rewrite G1. now split.
    + discriminate.
  - discriminate.
Qed.

(** ** Two runs of the same statements *)
Lemma hset_app (h c : heap) l q : (List.length h <= l)%nat -> hset (h ++ c) l q = h ++ hset c (l - List.length h)%nat q.
Proof.
  revert l. induction h as [|p h IH]; intros l H; simpl in *.
  - now rewrite Nat.sub_0_r.
  - destruct l as [|l]; [lia|]. simpl. f_equal. apply IH. lia.
Qed.

Section Sim.
Variables (h0 h1 : heap).
Definition sh (l : loc) : loc := (l - List.length h0 + List.length h1)%nat.
Definition inr (c : heap) (l : loc) : Prop := (List.length h0 <= l < List.length h0 + List.length c)%nat.

Lemma hget_sh c l : (List.length h0 <= l)%nat -> hget (h1 ++ c) (sh l) = hget (h0 ++ c) l.
Proof.
  intros H. unfold hget, sh. rewrite !nth_error_app2 by (lia).
  f_equal. lia.
Qed.

Definition rel_dict (c : heap) (dA dB : dict loc) : Prop :=
  forall k l, dget k dA = Some l -> inr c l /\ dget k dB = Some (sh l).
Definition rel_attr (c : heap) (dA dB : dict attr) : Prop :=
  forall k x, dget k dA = Some x ->
    match x with
    | AQty l => inr c l /\ dget k dB = Some (AQty (sh l))
    | AEqn e => exists e', dget k dB = Some (AEqn e')
    end.
Definition rel_eqs (c : heap) (dA dB : dict eqn) : Prop :=
  forall k e, dget k dA = Some e -> ein (inr c) e /\ dget k dB = Some (eqmap sh e).

Record sim (c : heap) (A B : mworld) : Prop := mkSim {
  s_heapA : w_heap A = h0 ++ c;
  s_heapB : w_heap B = h1 ++ c;
  s_name : m_name (w_mod B) = m_name (w_mod A);
  s_vars : rel_dict c (m_vars (w_mod A)) (m_vars (w_mod B));
  s_pars : rel_dict c (m_pars (w_mod A)) (m_pars (w_mod B));
  s_cons : rel_dict c (m_cons (w_mod A)) (m_cons (w_mod B));
  s_eqs : rel_eqs c (m_eqs (w_mod A)) (m_eqs (w_mod B));
  s_attrs : rel_attr c (m_attrs (w_mod A)) (m_attrs (w_mod B))
}.

Lemma inr_le (c c' : heap) l : (List.length c <= List.length c')%nat -> inr c l -> inr c' l.
Proof. unfold inr. lia. Qed.
Lemma ein_le (P Q : loc -> Prop) e : (forall l, P l -> Q l) -> ein P e -> ein Q e.
Proof.
  intros H [E1 E2]. assert (G : forall n, nin P n -> nin Q n).
  { intros n [A1 A2]. split; intros k l I; apply H; eauto. }
  split; [destruct (eq_expr e); auto|]. destruct (eq_elem e) as [[a b]|]; [|exact I]. destruct E2. split; auto.
Qed.
Lemma rel_dict_le (c c' : heap) dA dB : (List.length c <= List.length c')%nat -> rel_dict c dA dB -> rel_dict c' dA dB.
Proof. intros H R k l G. destruct (R k l G). split; [eapply inr_le; eauto|assumption]. Qed.
Lemma rel_eqs_le (c c' : heap) dA dB : (List.length c <= List.length c')%nat -> rel_eqs c dA dB -> rel_eqs c' dA dB.
Proof. intros H R k l G. destruct (R k l G) as [X Y]. split; [|assumption]. revert X. apply ein_le. intros i. now apply inr_le. Qed.
Lemma rel_attr_le (c c' : heap) dA dB : (List.length c <= List.length c')%nat -> rel_attr c dA dB -> rel_attr c' dA dB.
Proof.
  intros H R k x G. pose proof (R k x G) as X. destruct x as [l|e]; [|exact X].
  destruct X. split; [eapply inr_le; eauto|assumption].
Qed.

Lemma rel_dict_set c dA dB k l : rel_dict c dA dB -> inr c l -> rel_dict c (dset k l dA) (dset k (sh l) dB).
Proof.
  intros R I x y G. rewrite dget_dset in *. destruct (String.eqb x k); [|now apply R].
  injection G as <-. now split.
Qed.
Lemma rel_attr_set c dA dB k l : rel_attr c dA dB -> inr c l -> rel_attr c (dset k (AQty l) dA) (dset k (AQty (sh l)) dB).
Proof.
  intros R I x y G. rewrite dget_dset in *. destruct (String.eqb x k); [|apply R; assumption].
  injection G as <-. now split.
Qed.
Lemma rel_attr_sete c dA dB k e e' : rel_attr c dA dB -> rel_attr c (dset k (AEqn e) dA) (dset k (AEqn e') dB).
Proof.
  intros R x y G. rewrite dget_dset in *. destruct (String.eqb x k); [|apply R; assumption].
  injection G as <-. eauto.
Qed.
Lemma rel_eqs_set c dA dB k e : rel_eqs c dA dB -> ein (inr c) e -> rel_eqs c (dset k e dA) (dset k (eqmap sh e) dB).
Proof.
  intros R I x y G. rewrite dget_dset in *. destruct (String.eqb x k); [|now apply R].
  injection G as <-. now split.
Qed.

Lemma sh_new (c : heap) : sh (List.length (h0 ++ c)) = List.length (h1 ++ c).
Proof. unfold sh. rewrite !app_length. lia. Qed.
Lemma inr_new (c : heap) q : inr (c ++ [q]) (List.length (h0 ++ c)).
Proof. unfold inr. rewrite !app_length. simpl. lia. Qed.
End Sim.

(** Key lists. *)
Definition kincl (m m' : mstate) : Prop :=
  incl (dkeys (m_vars m)) (dkeys (m_vars m')) /\ incl (dkeys (m_pars m)) (dkeys (m_pars m')) /\
  incl (dkeys (m_cons m)) (dkeys (m_cons m')) /\ incl (dkeys (m_eqs m)) (dkeys (m_eqs m')).

Lemma kincl_refl m : kincl m m.
Proof. repeat split; apply incl_refl. Qed.
Lemma kincl_trans a b c : kincl a b -> kincl b c -> kincl a c.
Proof. intros (A & B & C & D) (E & F & G & H). repeat split; eapply incl_tran; eauto. Qed.
Lemma same_keys_refl m : same_keys m m.
Proof. repeat split. Qed.
Lemma same_keys_trans a b c : same_keys a b -> same_keys b c -> same_keys a c.
Proof. intros (A & B & C & D) (E & F & G & H). repeat split; congruence. Qed.
Lemma same_keys_incl a b : same_keys a b -> kincl b a /\ kincl a b.
Proof. intros (A & B & C & D). split; repeat split; rewrite ?A, ?B, ?C, ?D; apply incl_refl. Qed.
Lemma incl_dset {V} k (v : V) d : incl (dkeys d) (dkeys (dset k v d)).
Proof. intros x H. apply in_dkeys_dset. now right. Qed.
Lemma keys_dset_incl {V W} k (v : V) (d : dict V) (w : W) (d' : dict W) :
  incl (dkeys (dset k v d)) (dkeys d') -> dkeys (dset k w d') = dkeys d'.
Proof. intros H. apply dkeys_dset_in, H, in_dkeys_dset. now left. Qed.

Lemma run_cmd_keys c w w' : run_cmd w c = (w', Ok tt) -> kincl (w_mod w) (w_mod w').
Proof.
  intros H. destruct c as [a n u ex ty v|a n u v|a n u v|a v u|a|a n q check]; simpl in H.
  - unfold assign_qty, create_variable in H. destruct ex; [destruct (String.eqb ty "input"); [|destruct (String.eqb ty "output"); [|discriminate]]|];
      injection H as <-; repeat split; simpl; try apply incl_refl; apply incl_dset.
  - injection H as <-. repeat split; simpl; try apply incl_refl; apply incl_dset.
  - injection H as <-. repeat split; simpl; try apply incl_refl; apply incl_dset.
  - destruct (attr_qty (w_mod w) a) as [l|x]; [|discriminate].
    destruct (match v with SANum n => _ | SAAttr b => _ end) as [sv|x]; [|discriminate].
    destruct (heap_set_value (w_heap w) l sv u) as [h' r']. injection H as <- _. apply kincl_refl.
  - destruct (attr_qty (w_mod w) a) as [l|x]; [|discriminate].
    destruct (hget (w_heap w) l) as [q|]; [|discriminate].
    destruct (qkind_eqb (q_kind q) KVariable); [|discriminate]. injection H as <-. apply kincl_refl.
  - destruct (rbind (resolve_eq (attr_qty (w_mod w)) q) (fun q' => build_eq (w_heap w) q')) as [arg|x] eqn:Eb; [|discriminate].
    destruct (create_outcome w n arg check) as [u' E]. rewrite E in H.
    destruct (set_residual _ arg) as [e0 [[]|x2]]; [|discriminate].
    destruct (eq_expr e0) as [nn|]; [|discriminate]. cbv zeta in H.
    destruct check; [destruct (forallb _ _); [|discriminate]|]; injection H as <-;
      (repeat split; simpl; try apply incl_refl; apply incl_dset).
Qed.

Lemma run_cmds_keys cs : forall w w', run_cmds w cs = (w', Ok tt) -> kincl (w_mod w) (w_mod w').
Proof.
  induction cs as [|c cs IH]; intros w w' H; simpl in H.
  - injection H as <-. apply kincl_refl.
  - destruct (run_cmd w c) as [w1 [[]|x]] eqn:E; [|discriminate].
    eapply kincl_trans; [exact (run_cmd_keys _ _ _ E)|now apply IH].
Qed.

Lemma attr_sim h0 h1 c A B : sim h0 h1 c A B -> forall a l, attr_qty (w_mod A) a = Ok l ->
  attr_qty (w_mod B) a = Ok (sh h0 h1 l) /\ hget (w_heap B) (sh h0 h1 l) = hget (w_heap A) l /\ inr h0 c l.
Proof.
  intros S a l H. unfold attr_qty in *. destruct (dget a (m_attrs (w_mod A))) as [[i|e]|] eqn:E; [|discriminate|discriminate].
  injection H as ->. destruct (s_attrs _ _ _ _ _ S _ _ E) as [I G]. rewrite G. split; [reflexivity|]. split; [|exact I].
  rewrite (s_heapA _ _ _ _ _ S), (s_heapB _ _ _ _ _ S). apply hget_sh. apply I.
Qed.

Lemma declared_sim h0 h1 c A B : sim h0 h1 c A B -> incl (declared (w_mod A)) (declared (w_mod B)).
Proof.
  intros S x H. unfold declared in *. rewrite !in_app_iff in *.
  destruct H as [H|[H|H]]; apply in_keys_dget in H; destruct H as [l H].
  - left. apply (s_vars _ _ _ _ _ S) in H. destruct H as [_ H]. now apply dget_in_keys in H.
  - right; left. apply (s_pars _ _ _ _ _ S) in H. destruct H as [_ H]. now apply dget_in_keys in H.
  - right; right. apply (s_cons _ _ _ _ _ S) in H. destruct H as [_ H]. now apply dget_in_keys in H.
Qed.

Lemma sim_new h0 h1 c A B u u' mA mB q a :
  sim h0 h1 c A B ->
  m_name mA = m_name (w_mod A) -> m_name mB = m_name (w_mod B) ->
  m_attrs mA = m_attrs (w_mod A) -> m_attrs mB = m_attrs (w_mod B) ->
  m_eqs mA = m_eqs (w_mod A) -> m_eqs mB = m_eqs (w_mod B) ->
  rel_dict h0 h1 (c ++ [q]) (m_vars mA) (m_vars mB) ->
  rel_dict h0 h1 (c ++ [q]) (m_pars mA) (m_pars mB) ->
  rel_dict h0 h1 (c ++ [q]) (m_cons mA) (m_cons mB) ->
  sim h0 h1 (c ++ [q])
    (mkW (w_heap A ++ [q]) u (set_attr mA a (AQty (List.length (w_heap A)))))
    (mkW (w_heap B ++ [q]) u' (set_attr mB a (AQty (List.length (w_heap B))))).
Proof.
  intros S NA NB AA AB EA EB V P C.
  assert (L : (List.length c <= List.length (c ++ [q]))%nat) by (rewrite app_length; simpl; lia).
  constructor; simpl; auto.
  - now rewrite (s_heapA _ _ _ _ _ S), app_assoc.
  - now rewrite (s_heapB _ _ _ _ _ S), app_assoc.
  - rewrite NA, NB. apply (s_name _ _ _ _ _ S).
  - rewrite EA, EB. eapply rel_eqs_le; [exact L|apply (s_eqs _ _ _ _ _ S)].
  - rewrite AA, AB, (s_heapA _ _ _ _ _ S), (s_heapB _ _ _ _ _ S), <- (sh_new h0 h1). apply rel_attr_set.
    + eapply rel_attr_le; [exact L|apply (s_attrs _ _ _ _ _ S)].
    + apply inr_new.
Qed.

Lemma hset_length (h : heap) l q : List.length (hset h l q) = List.length h.
Proof. apply length_hset. Qed.

Lemma sim_set h0 h1 c A B l q : sim h0 h1 c A B -> inr h0 c l ->
  sim h0 h1 (hset c (l - List.length h0)%nat q)
    (mkW (hset (w_heap A) l q) (w_uids A) (w_mod A)) (mkW (hset (w_heap B) (sh h0 h1 l) q) (w_uids B) (w_mod B)).
Proof.
  intros S I.
  assert (L : (List.length c <= List.length (hset c (l - List.length h0)%nat q))%nat) by (rewrite hset_length; lia).
  destruct S as [S1 S2 S3 S4 S5 S6 S7 S8]. constructor; simpl; auto.
  - rewrite S1. apply hset_app. apply I.
  - rewrite S2. rewrite hset_app by (unfold sh; lia). f_equal. f_equal. unfold sh. lia.
  - eapply rel_dict_le; eauto.
  - eapply rel_dict_le; eauto.
  - eapply rel_dict_le; eauto.
  - eapply rel_eqs_le; eauto.
  - eapply rel_attr_le; eauto.
Qed.

Ltac sim_dict S L IN SH := cbn;
  first [ reflexivity | exact S
        | solve [eapply rel_dict_le; [apply L|first [apply (s_vars _ _ _ _ _ S)|apply (s_pars _ _ _ _ _ S)|apply (s_cons _ _ _ _ _ S)]]]
        | rewrite <- SH; apply rel_dict_set;
          [eapply rel_dict_le; [apply L|first [apply (s_vars _ _ _ _ _ S)|apply (s_pars _ _ _ _ _ S)|apply (s_cons _ _ _ _ _ S)]]|apply IN] ].

Lemma run_cmd_sim h0 h1 c A A' B cm : named_cmd cm = true -> run_cmd A cm = (A', Ok tt) -> sim h0 h1 c A B ->
  exists B' c', run_cmd B cm = (B', Ok tt) /\ sim h0 h1 c' A' B' /\
    (kincl (w_mod A') (w_mod B) -> same_keys (w_mod B) (w_mod B')).
Proof.
  intros Nm H S. pose proof (s_name _ _ _ _ _ S) as SN.
  assert (SH := sh_new h0 h1 c). rewrite <- (s_heapA _ _ _ _ _ S), <- (s_heapB _ _ _ _ _ S) in SH.
  assert (L : forall q : qty, (List.length c <= List.length (c ++ [q]))%nat) by (intros q; rewrite app_length; simpl; lia).
  assert (IN : forall q, inr h0 (c ++ [q]) (List.length (w_heap A))).
  { intros q. rewrite (s_heapA _ _ _ _ _ S). apply inr_new. }
  destruct cm as [a n u ex ty v|a n u v|a n u v|a v u|a|a n q check]; simpl in H.
  - unfold assign_qty, create_variable in H. simpl. unfold assign_qty, create_variable. rewrite SN.
    destruct ex; [destruct (String.eqb ty "input"); [|destruct (String.eqb ty "output"); [|discriminate]]|];
      injection H as <-; do 2 eexists; (split; [reflexivity|]);
      (split; [apply sim_new; sim_dict S L IN SH
       |intros (K1 & K2 & K3 & K4); repeat split; simpl; eapply keys_dset_incl; exact K1]).
  - simpl. unfold assign_qty, create_parameter in *. rewrite SN.
    injection H as <-; do 2 eexists; (split; [reflexivity|]);
      (split; [apply sim_new; sim_dict S L IN SH
       |intros (K1 & K2 & K3 & K4); repeat split; simpl; eapply keys_dset_incl; exact K2]).
  - simpl. unfold assign_qty, create_constant in *. rewrite SN.
    injection H as <-; do 2 eexists; (split; [reflexivity|]);
      (split; [apply sim_new; sim_dict S L IN SH
       |intros (K1 & K2 & K3 & K4); repeat split; simpl; eapply keys_dset_incl; exact K3]).
  - destruct (attr_qty (w_mod A) a) as [l|x] eqn:Ea; [|discriminate].
    destruct (attr_sim _ _ _ _ _ S _ _ Ea) as [G1 [G2 G3]].
    destruct (match v with SANum n => _ | SAAttr b => _ end) as [sv|x] eqn:Ev; [|discriminate].
    simpl. rewrite G1.
    assert (Ev' : match v with
                  | SANum n => Ok (SVNum n)
                  | SAAttr b => let* i := attr_qty (w_mod B) b in
                                match hget (w_heap B) i with Some q => Ok (SVQty q) | None => Raise EName end
                  end = Ok sv).
    { destruct v as [k|b]; [exact Ev|]. apply rbind_ok in Ev. destruct Ev as [i [E1 E2]].
      destruct (attr_sim _ _ _ _ _ S _ _ E1) as [F1 [F2 F3]]. rewrite F1. simpl. now rewrite F2. }
    rewrite Ev'. unfold heap_set_value in *. rewrite G2.
    destruct (hget (w_heap A) l) as [q0|]; [|discriminate].
    destruct (set_value q0 sv u) as [q'|x]; [|discriminate]. injection H as <-.
    do 2 eexists. split; [reflexivity|]. split; [exact (sim_set _ _ _ _ _ _ _ S G3)|]. intros _. apply same_keys_refl.
  - destruct (attr_qty (w_mod A) a) as [l|x] eqn:Ea; [|discriminate].
    destruct (attr_sim _ _ _ _ _ S _ _ Ea) as [G1 [G2 G3]].
    simpl. rewrite G1, G2. destruct (hget (w_heap A) l) as [q0|]; [|discriminate].
    destruct (qkind_eqb (q_kind q0) KVariable); [|discriminate]. injection H as <-.
    do 2 eexists. split; [reflexivity|]. split; [exact (sim_set _ _ _ _ _ _ _ S G3)|]. intros _. apply same_keys_refl.
  - destruct (rbind (resolve_eq (attr_qty (w_mod A)) q) (fun q' => build_eq (w_heap A) q')) as [arg|x] eqn:Eb; [|discriminate].
    destruct (move_build_eq _ _ (sh h0 h1) (inr h0 c) _ (w_heap B) q arg (attr_sim _ _ _ _ _ S) Eb) as [Eb' Ia].
    simpl. rewrite Eb'.
    destruct (create_outcome A n arg check) as [u' E]. rewrite E in H. clear E.
    destruct (create_outcome B n (amap (sh h0 h1) arg) check) as [u2 E2]. rewrite E2. clear E2.
    simpl in Nm. apply negb_true_iff in Nm. unfold stored_name in *. rewrite Nm in *. rewrite SN.
    destruct (set_residual (blank_eqn n) arg) as [e0 [[]|x2]] eqn:Er; [|discriminate].
    destruct (move_residual (sh h0 h1) _ _ _ _ Ia Er) as [Er' Ie]. rewrite Er'.
    simpl (eq_expr (eqmap _ _)). destruct (eq_expr e0) as [nn|] eqn:Ex; [|discriminate]. cbv zeta in H |- *. simpl option_map.
    cbv iota.
    change (nd_smap (nmap (sh h0 h1) nn)) with (dmap (sh h0 h1) (nd_smap nn)). rewrite dkeys_dmap.
    set (e2 := mkEqn (full_name n (m_name (w_mod A))) (Some nn) (eq_elem e0) (eq_elementary e0) (eq_type e0)
                 (Some (nd_smap nn)) (m_name (w_mod A))) in *.
    assert (I2 : ein (inr h0 c) e2).
    { destruct Ie as [Ie1 Ie2]. rewrite Ex in Ie1. split; simpl; assumption. }
    assert (Hc : (if check then forallb (fun k => mem_str k (declared (w_mod B))) (dkeys (nd_smap nn)) else true) = true).
    { destruct check; [|reflexivity]. destruct (forallb (fun k => mem_str k (declared (w_mod A))) (dkeys (nd_smap nn))) eqn:F; [|discriminate].
      rewrite forallb_forall in *. intros x Hx. apply mem_str_spec. apply (declared_sim _ _ _ _ _ S). apply mem_str_spec. now apply F. }
    assert (HA : A' = mkW (w_heap A) u' (set_attr (with_eqs (w_mod A) (dset (full_name n (m_name (w_mod A))) e2 (m_eqs (w_mod A)))) a (AEqn e2))).
    { destruct check; [destruct (forallb _ _); [|discriminate]|]; now injection H as <-. }
    exists (mkW (w_heap B) u2 (set_attr (with_eqs (w_mod B) (dset (full_name n (m_name (w_mod A))) (eqmap (sh h0 h1) e2) (m_eqs (w_mod B)))) a (AEqn (eqmap (sh h0 h1) e2)))), c.
    split; [destruct check; [rewrite Hc|]; reflexivity|]. subst A'. destruct S as [S1 S2 S3 S4 S5 S6 S7 S8]. split.
    + constructor; simpl; auto; [now apply rel_eqs_set|now apply rel_attr_sete].
    + intros (K1 & K2 & K3 & K4). repeat split; simpl. eapply keys_dset_incl. exact K4.
Qed.

Lemma run_cmds_sim h0 h1 cs : forall c A A' B, forallb named_cmd cs = true -> run_cmds A cs = (A', Ok tt) -> sim h0 h1 c A B ->
  exists B' c', run_cmds B cs = (B', Ok tt) /\ sim h0 h1 c' A' B' /\
    (kincl (w_mod A') (w_mod B) -> same_keys (w_mod B) (w_mod B')).
Proof.
  induction cs as [|cm cs IH]; intros c A A' B Nm H S; simpl in *.
  - injection H as <-. exists B, c. split; [reflexivity|]. split; [exact S|]. intros _. apply same_keys_refl.
  - apply andb_prop in Nm. destruct Nm as [N1 N2].
    destruct (run_cmd A cm) as [A1 [[]|x]] eqn:E; [|discriminate].
    destruct (run_cmd_sim _ _ _ _ _ _ _ N1 E S) as (B1 & c1 & R1 & S1 & K1). rewrite R1.
    destruct (IH _ _ _ _ N2 H S1) as (B2 & c2 & R2 & S2 & K2).
    exists B2, c2. split; [exact R2|]. split; [exact S2|]. intros K.
    assert (Q := K1 (kincl_trans _ _ _ (run_cmds_keys _ _ _ H) K)).
    eapply same_keys_trans; [exact Q|]. apply K2. eapply kincl_trans; [exact K|]. now apply same_keys_incl.
Qed.

Lemma sim_start h u name B : m_name (w_mod B) = name ->
  sim h (w_heap B) [] (mkW h u (new_model name)) B.
Proof. intros H. constructor; simpl; rewrite ?app_nil_r; auto; intros k x G; discriminate. Qed.

Lemma same_objects_sh h0 h1 c (d : dict loc) : din (inr h0 c) d -> same_objects (h0 ++ c) (h1 ++ c) d (dmap (sh h0 h1) d).
Proof.
  intros D k l G. pose proof (D k l (dget_some_in _ _ _ G)) as I.
  destruct (hget (h0 ++ c) l) as [q|] eqn:E.
  - exists (sh h0 h1 l), q. rewrite dget_dmap, G. split; [reflexivity|]. split; [reflexivity|]. rewrite hget_sh; [exact E|apply I].
  - exfalso. unfold hget in E. apply nth_error_None in E. unfold inr in I. rewrite app_length in E. lia.
Qed.
Lemma same_node_sh h0 h1 c n : nin (inr h0 c) n -> same_node (h0 ++ c) (h1 ++ c) n (nmap (sh h0 h1) n).
Proof.
  intros [I1 I2]. unfold same_node. simpl. rewrite !dkeys_dmap. repeat split; now apply same_objects_sh.
Qed.

Lemma sim_same h0 h1 c A B : sim h0 h1 c A B -> same_model A B.
Proof.
  intros [S1 S2 S3 S4 S5 S6 S7 S8].
  assert (G : forall dA dB, rel_dict h0 h1 c dA dB -> same_objects (w_heap A) (w_heap B) dA dB).
  { intros dA dB R k l G. destruct (R k l G) as [I D]. rewrite S1, S2.
    destruct (hget (h0 ++ c) l) as [q|] eqn:E.
    - exists (sh h0 h1 l), q. split; [exact D|]. split; [reflexivity|]. rewrite hget_sh; [exact E|apply I].
    - exfalso. unfold hget in E. apply nth_error_None in E. unfold inr in I. rewrite app_length in E. lia. }
  unfold same_model. split; [auto|]. split; [auto|]. split; [auto|].
  intros k e E. destruct (S7 k e E) as [[I1 I2] D]. exists (eqmap (sh h0 h1) e). split; [exact D|].
  rewrite S1, S2. unfold same_eqn. simpl. repeat (split; [reflexivity|]). split.
  - unfold same_onode. destruct (eq_expr e); simpl; [now apply same_node_sh|exact I].
  - destruct (eq_elem e) as [[a b]|]; simpl; [|exact I]. destruct I2. split; now apply same_node_sh.
Qed.

(** ** Calling again *)
Lemma recall_ok d h u name A B : named d = true ->
  model_call d (mkW h u (new_model name)) = (A, Ok tt) -> m_name (w_mod B) = name ->
  exists B', model_call d B = (B', Ok tt) /\ same_model A B' /\ m_name (w_mod B') = name /\
    (same_keys (w_mod A) (w_mod B) -> same_keys (w_mod A) (w_mod B')).
Proof.
  intros Nm H N. unfold model_call, named in *.
  destruct (run_cmds_sim h (w_heap B) _ [] _ _ B Nm H (sim_start h u name B N)) as (B' & c & R & S & K).
  exists B'. split; [exact R|]. split; [exact (sim_same _ _ _ _ _ S)|]. split.
  - rewrite (s_name _ _ _ _ _ S).
    assert (Q : forall cs w w', run_cmds w cs = (w', Ok tt) -> m_name (w_mod w') = m_name (w_mod w)).
    { clear. induction cs as [|c cs IH]; intros w w' H; simpl in H; [now injection H as <-|].
      destruct (run_cmd w c) as [w1 [[]|x]] eqn:E; [|discriminate]. rewrite (IH _ _ H).
      destruct c as [a n u ex ty v|a n u v|a n u v|a v u|a|a n q check]; simpl in E.
      - unfold assign_qty, create_variable in E. destruct ex; [destruct (String.eqb ty "input"); [|destruct (String.eqb ty "output"); [|discriminate]]|];
          now injection E as <-.
      - now injection E as <-.
      - now injection E as <-.
      - destruct (attr_qty (w_mod w) a) as [l|x]; [|discriminate].
        destruct (match v with SANum n => _ | SAAttr b => _ end) as [sv|x]; [|discriminate].
        destruct (heap_set_value (w_heap w) l sv u) as [h' r']. now injection E as <- _.
      - destruct (attr_qty (w_mod w) a) as [l|x]; [|discriminate].
        destruct (hget (w_heap w) l) as [q|]; [|discriminate].
        destruct (qkind_eqb (q_kind q) KVariable); [|discriminate]. now injection E as <-.
      - destruct (rbind (resolve_eq (attr_qty (w_mod w)) q) (fun q' => build_eq (w_heap w) q')) as [arg|x] eqn:Eb; [|discriminate].
        destruct (create_outcome w n arg check) as [u' F]. rewrite F in E.
        destruct (set_residual _ arg) as [e0 [[]|x2]]; [|discriminate].
        destruct (eq_expr e0) as [nn|]; [|discriminate]. cbv zeta in E.
        destruct check; [destruct (forallb _ _); [|discriminate]|]; now injection E as <-. }
    now rewrite (Q _ _ _ H).
  - intros SK. eapply same_keys_trans; [exact SK|]. apply K. now apply same_keys_incl.
Qed.

Lemma calls_ok d h u name A : named d = true -> model_call d (mkW h u (new_model name)) = (A, Ok tt) ->
  forall n B, m_name (w_mod B) = name -> same_keys (w_mod A) (w_mod B) ->
  exists B', calls (S n) d B = (B', Ok tt) /\ same_model A B' /\ same_keys (w_mod A) (w_mod B').
Proof.
  intros Nm H. induction n as [|n IH]; intros B N SK.
  - destruct (recall_ok _ _ _ _ _ B Nm H N) as (B' & R & M & N' & K). exists B'. simpl. rewrite R. auto.
  - destruct (recall_ok _ _ _ _ _ B Nm H N) as (B' & R & M & N' & K).
    destruct (IH B' N' (K SK)) as (B2 & R2 & M2 & K2). exists B2.
    change (calls (S (S n)) d B) with (match model_call d B with (w', Ok _) => calls (S n) d w' | bad => bad end).
    rewrite R. auto.
Qed.

(** [n] calls in all, [n >= 1]. *)
Lemma calls_fresh d h u name A n : named d = true -> model_call d (mkW h u (new_model name)) = (A, Ok tt) ->
  exists B, calls (S n) d (mkW h u (new_model name)) = (B, Ok tt) /\ same_model A B /\ same_keys (w_mod A) (w_mod B).
Proof.
  intros Nm H.
  assert (NA : m_name (w_mod A) = name).
  { destruct (recall_ok _ _ _ _ _ (mkW h u (new_model name)) Nm H eq_refl) as (B' & R & M & N' & K).
    rewrite H in R. injection R as <-. exact N'. }
  destruct n as [|n].
  - exists A. simpl. rewrite H. split; [reflexivity|]. split; [|apply same_keys_refl].
    destruct (recall_ok _ _ _ _ _ (mkW h u (new_model name)) Nm H eq_refl) as (B' & R & M & N' & K).
    rewrite H in R. now injection R as <-.
  - change (calls (S (S n)) d (mkW h u (new_model name))) with
      (match model_call d (mkW h u (new_model name)) with (w', Ok _) => calls (S n) d w' | bad => bad end).
    rewrite H. apply (calls_ok _ _ _ _ _ Nm H); [exact NA|apply same_keys_refl].
Qed.
