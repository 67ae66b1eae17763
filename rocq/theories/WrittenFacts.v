(** Facts about the equations of written declarations (C64 and later). *)
From Verif Require Import Base BaseFacts Num NumFacts UnitModel UnitFacts Sympy Node Build EquationModel ModelModel ProblemModel
  SpecUnits UnitThms SpecExpr SpecQty QtyFacts SpecModel BuildFacts EquationFacts ModelFacts SpecInc IncFacts SpecCall CallFacts
  SpecProblem ProblemFacts SessionFacts UsualFacts ConnFacts SolverModel SpecSolver SolverFacts SpecSymbols SymbolFacts SpecWritten.
From Coq Require Import Reals Permutation.
Notation num := Verif.Num.num.

(** ** The reading and the model *)
Record stands (w : mworld) (D : dict thing) : Prop := mkStands {
  st_obj : forall a t, dget a D = Some t -> exists l q, attr_qty (w_mod w) a = Ok l /\ hget (w_heap w) l = Some q /\
             q_name q = th_name t /\ q_value q = th_value t /\ q_spec q = th_set t;
  st_inj : forall a b l, dget a D <> None -> dget b D <> None -> attr_qty (w_mod w) a = Ok l -> attr_qty (w_mod w) b = Ok l -> a = b }.

Lemma dget_forget a (D : dict thing) b : dget b (forget a D) = if String.eqb a b then None else dget b D.
Proof.
  unfold forget. induction D as [|[k x] D IH]; cbn [filter fst].
  - now destruct (String.eqb a b).
  - destruct (String.eqb_spec a k) as [->|Hne]; cbn [negb].
    + rewrite IH. cbn [dget]. destruct (String.eqb_spec k b) as [->|Hb]; [reflexivity|].
      destruct (String.eqb_spec b k) as [->|]; [contradiction|reflexivity].
    + cbn [dget]. rewrite IH. destruct (String.eqb_spec a b) as [->|Hb]; [|reflexivity].
      destruct (String.eqb_spec b k) as [->|]; [contradiction|reflexivity].
Qed.

Lemma stands_new w m a q D u : m_attrs m = m_attrs (w_mod w) -> q_spec q = false -> stands w D ->
  stands (mkW (w_heap w ++ [q]) u (set_attr m a (AQty (List.length (w_heap w))))) (dset a (mkThing (q_name q) (q_value q) false) D).
Proof.
  intros Em Sq [S1 S2]. constructor; cbn [w_heap w_mod].
  - intros b t Hb. rewrite attr_set. rewrite dget_dset in Hb. rewrite String.eqb_sym in Hb. destruct (String.eqb a b).
    + injection Hb as <-. eexists _, q. split; [reflexivity|]. split; [apply hget_last|]. auto.
    + destruct (S1 b t Hb) as (l & o & A & E & R). exists l, o. split; [unfold attr_qty; rewrite Em; exact A|]. split; [now apply hget_app|exact R].
  - assert (F : forall b l, dget b D <> None -> attr_qty m b = Ok l -> l <> List.length (w_heap w)).
    { intros b l Hb A. destruct (dget b D) as [t|] eqn:Eb; [|congruence]. destruct (S1 b t Eb) as (l' & o & A' & E & _).
      unfold attr_qty in A. rewrite Em in A. fold (attr_qty (w_mod w) b) in A. assert (l' = l) by congruence. subst l'.
      apply hget_lt in E. intros ->. exact (Nat.lt_irrefl _ E). }
    intros b c l Hb Hc. rewrite !attr_set. rewrite !dget_dset in *. rewrite (String.eqb_sym b a) in Hb. rewrite (String.eqb_sym c a) in Hc.
    destruct (String.eqb_spec a b) as [<-|Nb], (String.eqb_spec a c) as [<-|Nc]; intros A1 A2; auto.
    + injection A1 as <-. exfalso. exact (F c _ Hc A2 eq_refl).
    + injection A2 as <-. exfalso. exact (F b _ Hb A1 eq_refl).
    + apply (S2 b c l Hb Hc); unfold attr_qty; rewrite <- Em; assumption.
Qed.

Lemma stands_forget w m a e D u : m_attrs m = m_attrs (w_mod w) -> stands w D ->
  stands (mkW (w_heap w) u (set_attr m a (AEqn e))) (forget a D).
Proof.
  intros Em [S1 S2]. constructor; cbn [w_heap w_mod].
  - intros b t Hb. rewrite attr_set. rewrite dget_forget in Hb. destruct (String.eqb a b); [discriminate|].
    destruct (S1 b t Hb) as (l & o & A & R). exists l, o. split; [unfold attr_qty; rewrite Em; exact A|exact R].
  - intros b c l Hb Hc. rewrite !attr_set. rewrite !dget_forget in *.
    destruct (String.eqb a b); [congruence|]. destruct (String.eqb a c); [congruence|].
    intros A1 A2. apply (S2 b c l Hb Hc); unfold attr_qty; rewrite <- Em; assumption.
Qed.

Lemma stands_set h u m a l q q' t D : attr_qty m a = Ok l -> hget h l = Some q -> dget a D = Some t ->
  q_name q' = q_name q -> q_spec q' = true ->
  stands (mkW h u m) D -> stands (mkW (hset h l q') u m) (dset a (mkThing (th_name t) (q_value q') true) D).
Proof.
  intros A E Ha N Sq [S1 S2]. cbn [w_heap w_mod] in *. constructor; cbn [w_heap w_mod].
  - intros b s Hb. rewrite dget_dset in Hb. destruct (String.eqb_spec b a) as [->|Hne].
    + injection Hb as <-. exists l, q'. split; [exact A|]. split; [apply hget_hset_eq; now apply hget_lt in E|].
      destruct (S1 a t Ha) as (l1 & q1 & A1 & E1 & N1 & _). assert (l1 = l) by congruence. subst l1. assert (q1 = q) by congruence. subst q1.
      cbn. split; [congruence|auto].
    + destruct (S1 b s Hb) as (l1 & q1 & A1 & E1 & R). exists l1, q1. split; [exact A1|]. split; [|exact R].
      rewrite hget_hset_neq; [exact E1|]. intros ->. apply Hne. apply (S2 b a l); congruence.
  - intros b c x Hb Hc. rewrite dget_dset in Hb, Hc. apply S2; [destruct (String.eqb_spec b a) as [->|]; congruence|destruct (String.eqb_spec c a) as [->|]; congruence].
Qed.

Lemma stands_heap h h' u u' m D :
  (forall l q, hget h l = Some q -> exists q', hget h' l = Some q' /\ q_name q' = q_name q /\ q_value q' = q_value q /\ q_spec q' = q_spec q) ->
  stands (mkW h u m) D -> stands (mkW h' u' m) D.
Proof.
  intros G [S1 S2]. constructor; cbn [w_heap w_mod] in *; [|exact S2]. intros a t Ha. destruct (S1 a t Ha) as (l & q & A & E & N & V & S).
  destruct (G l q E) as (q' & E' & N' & V' & S'). exists l, q'. repeat split; congruence.
Qed.

(** ** Values of expressions *)
Definition named_val (h : heap) (en : env) : valuation :=
  let nm := fun l => match hget h l with Some q => q_name q | None => "" end in
  mkVal (fun l => e_sym en (nm l)) (fun l i => e_der en (nm l) (nm i)).

Lemma named_env h en : env_for h (named_val h en) en.
Proof.
  split.
  - intros l q E _. cbn. now rewrite E.
  - intros l q i p E _ E2 _. cbn. now rewrite E, E2.
Qed.

Lemma in_dict_some D a : in_dict D a = true -> exists t, dget a D = Some t.
Proof. unfold in_dict. destruct (dget a D) as [t|]; [eauto|discriminate]. Qed.

Lemma resolve_value w D en : stands w D ->
  (forall e e', resolve (attr_qty (w_mod w)) e = Ok e' -> uses_known D e = true ->
     meaning (w_heap w) (named_val (w_heap w) en) e' = expr_value D en e) /\
  (forall r r', resolve_args (attr_qty (w_mod w)) r = Ok r' -> uses_known_args D r = true ->
     meanings (w_heap w) (named_val (w_heap w) en) r' = args_values D en r).
Proof.
  intros [S1 _].
  assert (Q : forall a l, attr_qty (w_mod w) a = Ok l -> in_dict D a = true ->
            exists t q, dget a D = Some t /\ hget (w_heap w) l = Some q /\ q_name q = th_name t /\ q_value q = th_value t /\ q_spec q = th_set t).
  { intros a l A K. apply in_dict_some in K. destruct K as [t Et]. destruct (S1 a t Et) as (l' & q & A' & R). assert (l' = l) by congruence. subst l'.
    exists t, q. auto. }
  apply uexpr_uargs_ind.
  - intros a e' H K. cbn in H. binv. cbn in K. destruct (Q a x Hb K) as (t & q & Et & Eq & N & V & S).
    cbn [meaning expr_value]. unfold qty_meaning, thing_value. rewrite Et, Eq, S, V. cbn [v_q named_val]. now rewrite Eq, N.
  - intros o x IHx y IHy e' H K. cbn in H. binv. cbn in K. apply andb_prop in K. destruct K. cbn [meaning expr_value]. now rewrite (IHx _ Hb), (IHy _ Hb0).
  - intros o x IHx k e' H K. cbn in H. binv. cbn [meaning expr_value]. now rewrite (IHx _ Hb).
  - intros o k x IHx e' H K. cbn in H. binv. cbn [meaning expr_value]. now rewrite (IHx _ Hb).
  - intros g x IHx e' H K. cbn in H. binv. cbn [meaning expr_value]. now rewrite (IHx _ Hb).
  - intros g k e' H K. cbn in H. binv. reflexivity.
  - intros a [b|] e' H K; cbn in H; binv; cbn in K.
    + apply andb_prop in K. destruct K as [K1 K2]. destruct (Q _ _ Hb K1) as (t & q & Et & Eq & N & V & S).
      destruct (Q _ _ Hb0 K2) as (s & p & Es & Ep & N2 & _).
      cbn [meaning expr_value]. unfold der_meaning, thing_rate. rewrite Et, Es, Eq, S. cbn [v_d named_val]. now rewrite Eq, Ep, N, N2.
    + destruct (Q _ _ Hb K) as (t & q & Et & Eq & N & V & S).
      cbn [meaning expr_value]. unfold der_meaning, thing_rate. rewrite Et, Eq, S. cbn [v_d named_val]. now rewrite Eq, N.
  - intros mx r IH e' H K. cbn in H. binv. cbn [meaning expr_value]. now rewrite (IH _ Hb).
  - intros r' H K. cbn in H. binv. reflexivity.
  - intros e IHe r IHr r' H K. cbn in H. binv. cbn in K. apply andb_prop in K. destruct K. cbn [meanings args_values]. now rewrite (IHe _ Hb), (IHr _ Hb0).
  - intros k r IH r' H K. cbn in H. binv. cbn [meanings args_values]. now rewrite (IH _ Hb).
Qed.

(** The sides of the new equation. *)
Lemma eq_parts h q arg name e : build_eq h q = Ok arg -> set_residual (blank_eqn name) arg = (e, Ok tt) ->
  match q with
  | UResid _ => eq_elementary e = false
  | UElem l r => eq_elementary e = true /\ exists a b, eq_elem e = Some (a, b) /\ build h l = Ok a /\ build h r = Ok b
  | UElemN l k => eq_elementary e = true /\ exists a b, eq_elem e = Some (a, b) /\ build h l = Ok a /\ nd_sym b = SNum k
  end.
Proof.
  intros Hq Hr. destruct q as [x|l r|l k]; simpl in Hq; binv.
  - unfold set_residual, finish_residual in Hr. simpl in Hr. injection Hr as <-. reflexivity.
  - unfold set_residual in Hr. destruct (node_sub x (ONode x0)) as [d|] eqn:Es; [|discriminate].
    unfold finish_residual in Hr. cbv beta iota zeta delta [with_form with_expr with_elem with_type with_objs eq_expr] in Hr.
    injection Hr as <-. cbn. split; [reflexivity|]. exists x, x0. auto.
  - unfold set_residual in Hr. destruct (node_sub x (ONode (number_node k (nd_unit x)))) as [d|] eqn:Es; [|discriminate].
    unfold finish_residual in Hr. cbv beta iota zeta delta [with_form with_expr with_elem with_type with_objs eq_expr] in Hr.
    injection Hr as <-. cbn. split; [reflexivity|]. exists x, (number_node k (nd_unit x)). auto.
Qed.

Lemma says_stored w D q q' arg name e e' : stands w D -> resolve_eq (attr_qty (w_mod w)) q = Ok q' -> eq_known D q = true ->
  build_eq (w_heap w) q' = Ok arg -> set_residual (blank_eqn name) arg = (e, Ok tt) ->
  eq_expr e' = eq_expr e -> eq_elem e' = eq_elem e -> eq_elementary e' = eq_elementary e ->
  forall n, says (read_eq D n q) e'.
Proof.
  intros S Hq K Hb Hr X1 X2 X3 n. assert (P := eq_parts _ _ _ _ _ Hb Hr).
  destruct (eq_data _ _ _ _ _ Hb Hr) as (nn & En & _ & _ & _ & _ & _ & _ & Dn & _).
  assert (Dn' : forall en, den (nd_sym nn) en = residual_meaning (w_heap w) (named_val (w_heap w) en) q')
    by (intros en; apply Dn, named_env).
  clear Dn. unfold says. rewrite X1, X2, X3.
  assert (R := fun en => proj1 (resolve_value w D en S)).
  assert (B : forall en x a, build (w_heap w) x = Ok a -> den (nd_sym a) en = meaning (w_heap w) (named_val (w_heap w) en) x)
    by (intros en x a Ha; apply build_meaning; [apply named_env|exact Ha]).
  destruct q as [x|l r|l k]; cbn [resolve_eq] in Hq; binv; cbn [eq_known] in K; cbn [read_eq wr_value wr_sides]; cbn [residual_meaning] in Dn'.
  - split; [|exact P]. exists nn. split; [exact En|]. intros en. rewrite Dn'. now apply R.
  - apply andb_prop in K. destruct K as [K1 K2]. split.
    + exists nn. split; [exact En|]. intros en. rewrite Dn'. now rewrite (R en _ _ Hb0 K1), (R en _ _ Hb1 K2).
    + destruct P as (P1 & a & b & P2 & Ba & Bb). split; [exact P1|]. exists a, b. split; [exact P2|].
      split; intros en; [rewrite (B en _ _ Ba)|rewrite (B en _ _ Bb)]; now apply R.
  - split.
    + exists nn. split; [exact En|]. intros en. rewrite Dn'. now rewrite (R en _ _ Hb0 K).
    + destruct P as (P1 & a & b & P2 & Ba & Bb). split; [exact P1|]. exists a, b. split; [exact P2|].
      split; intros en; [rewrite (B en _ _ Ba); now apply R|]. now rewrite Bb.
Qed.

(** ** Statements *)
Definition step_known (D : dict thing) (c : cmd) : bool :=
  match c with
  | CSet a (SANum _) _ => in_dict D a
  | CSet a (SAAttr b) _ => in_dict D a && in_dict D b
  | CDist a => in_dict D a
  | CEq _ n q _ => eq_known D q && negb (String.eqb n "")
  | _ => true
  end.

Lemma cmd_written D w c w' : run_cmd w c = (w', Ok tt) -> stands w D -> step_known D c = true ->
  stands w' (note (m_name (w_mod w)) D c) /\
  match c with
  | CEq _ n q _ => exists e, m_eqs (w_mod w') = dset (full_name n (m_name (w_mod w))) e (m_eqs (w_mod w)) /\
                              eq_name e = full_name n (m_name (w_mod w)) /\ says (read_eq D n q) e
  | _ => m_eqs (w_mod w') = m_eqs (w_mod w)
  end.
Proof.
  intros H S K. destruct c as [a n u ex ty v|a n u v|a n u v|a x u|a|a n q check]; cbn [run_cmd note step_known] in *.
  - unfold assign_qty, create_variable in H.
    destruct ex; [destruct (String.eqb ty "input"); [|destruct (String.eqb ty "output")]|]; try discriminate H;
      injection H as <-; (split; [|reflexivity]);
      match goal with |- stands (mkW (_ ++ [?o]) ?uu (set_attr ?mm _ _)) _ => exact (stands_new w mm a o D uu eq_refl eq_refl S) end.
  - unfold assign_qty, create_parameter in H. injection H as <-. split; [|reflexivity].
    match goal with |- stands (mkW (_ ++ [?o]) ?uu (set_attr ?mm _ _)) _ => exact (stands_new w mm a o D uu eq_refl eq_refl S) end.
  - unfold assign_qty, create_constant in H. injection H as <-. split; [|reflexivity].
    match goal with |- stands (mkW (_ ++ [?o]) ?uu (set_attr ?mm _ _)) _ => exact (stands_new w mm a o D uu eq_refl eq_refl S) end.
  - destruct (attr_qty (w_mod w) a) as [l|] eqn:Ea; [|discriminate].
    assert (Ka : in_dict D a = true) by (destruct x; [exact K|apply andb_prop in K; tauto]).
    apply in_dict_some in Ka. destruct Ka as [t Et].
    destruct (match x with SANum n => _ | SAAttr b => _ end) as [sv|] eqn:Ev; [|discriminate].
    unfold heap_set_value in H. destruct (hget (w_heap w) l) as [q|] eqn:G; [|discriminate].
    destruct (set_value q sv u) as [q'|] eqn:Es; [|discriminate]. injection H as <-.
    destruct (set_value_effect _ _ _ _ Es) as (O & Sq & _ & N & _).
    assert (Hh : handed D x = Some (q_value q')).
    { destruct x as [k|b]; cbn [handed].
      - injection Ev as <-. exact O.
      - apply andb_prop in K. destruct K as [_ Kb]. apply in_dict_some in Kb. destruct Kb as [s Eb].
        destruct (st_obj _ _ S b s Eb) as (i & p & A & E & _ & V & _). rewrite A in Ev. cbn [rbind] in Ev. rewrite E in Ev. injection Ev as <-.
        cbn [offered] in O. rewrite Eb. cbn. congruence. }
    rewrite Et, Hh. split; [|reflexivity].
    destruct w as [wh wu wm]. cbn [w_heap w_uids w_mod] in *. now apply (stands_set wh wu wm a l q q' t D).
  - destruct (attr_qty (w_mod w) a) as [l|] eqn:Ea; [|discriminate].
    destruct (hget (w_heap w) l) as [q|] eqn:G; [|discriminate].
    destruct (qkind_eqb (q_kind q) KVariable); [|discriminate]. injection H as <-. split; [|reflexivity].
    destruct w as [wh wu wm]. cbn [w_heap w_uids w_mod] in *. apply (stands_heap wh _ wu); [|exact S].
    intros i o Gi. destruct (Nat.eq_dec i l) as [->|Hne].
    + exists (set_domain q). rewrite hget_hset_eq by now apply hget_lt in G. replace o with q by congruence. auto.
    + exists o. rewrite hget_hset_neq by exact Hne. auto.
  - apply andb_prop in K. destruct K as [K Kn]. apply Bool.negb_true_iff in Kn.
    destruct (rbind (resolve_eq (attr_qty (w_mod w)) q) (fun q' => build_eq (w_heap w) q')) as [arg|] eqn:Eb; [|discriminate].
    binv. destruct (create_outcome w n arg check) as [u' E]. rewrite E in H. clear E.
    destruct (set_residual _ arg) as [e0 [[]|]] eqn:Er; [|discriminate].
    destruct (eq_expr e0) as [nn|] eqn:En; [|discriminate]. cbv zeta in H.
    set (e2 := mkEqn (stored_name w n) (Some nn) (eq_elem e0) (eq_elementary e0) (eq_type e0) (Some (nd_smap nn)) (m_name (w_mod w))) in *.
    assert (Sy : says (read_eq D n q) e2) by (apply (says_stored w D q x arg _ e0 e2 S Hb K Eb Er); [now rewrite En|reflexivity|reflexivity]).
    assert (Nm : stored_name w n = full_name n (m_name (w_mod w))) by (unfold stored_name; now rewrite Kn).
    destruct check; [destruct (forallb _ _); [|discriminate]|]; injection H as <-;
      (split; [now apply (stands_forget w)|exists e2; split; [cbn; now rewrite Nm|split; [exact Nm|exact Sy]]]).
Qed.

Lemma read_eq_name D n q : wr_name (read_eq D n q) = n.
Proof. destruct q; reflexivity. Qed.

Lemma cmds_written cs : forall D w w', run_cmds w cs = (w', Ok tt) -> stands w D -> self_contained (m_name (w_mod w)) D cs = true ->
  m_name (w_mod w') = m_name (w_mod w) /\
  (NoDup (map wr_name (equations_written (m_name (w_mod w)) D cs)) ->
     forall x, In x (equations_written (m_name (w_mod w)) D cs) -> stored_in (m_name (w_mod w)) (w_mod w') x) /\
  (forall k, (forall x, In x (equations_written (m_name (w_mod w)) D cs) -> k <> full_name (wr_name x) (m_name (w_mod w))) ->
     dget k (m_eqs (w_mod w')) = dget k (m_eqs (w_mod w))).
Proof.
  induction cs as [|c cs IH]; intros D w w' H S K.
  - cbn [run_cmds] in H. injection H as <-. split; [reflexivity|]. split; [intros _ x []|auto].
  - cbn [run_cmds] in H. destruct (run_cmd w c) as [w1 [[]|]] eqn:E; [|discriminate].
    assert (K' : step_known D c = true /\ self_contained (m_name (w_mod w)) (note (m_name (w_mod w)) D c) cs = true)
      by (apply andb_prop; exact K).
    destruct K' as [K1 K2]. destruct (cmd_written D w c w1 E S K1) as [S1 W1].
    assert (Nm := run_cmd_name _ _ _ _ E). rewrite <- Nm in *.
    destruct (IH _ _ _ H S1 K2) as (I1 & I2 & I3). split; [congruence|].
    set (M := m_name (w_mod w1)) in *. set (rest := equations_written M (note M D c) cs) in *.
    assert (Oth : m_eqs (w_mod w1) = m_eqs (w_mod w) -> equations_written M D (c :: cs) = rest ->
      (NoDup (map wr_name (equations_written M D (c :: cs))) -> forall x, In x (equations_written M D (c :: cs)) -> stored_in M (w_mod w') x) /\
      (forall k, (forall x, In x (equations_written M D (c :: cs)) -> k <> full_name (wr_name x) M) -> dget k (m_eqs (w_mod w')) = dget k (m_eqs (w_mod w)))).
    { intros E1 ->. split; [exact I2|]. intros k Hk. rewrite (I3 k Hk). now rewrite E1. }
    destruct c as [a n u ex ty v|a n u v|a n u v|a x u|a|a n q check]; try (apply Oth; [exact W1|reflexivity]). clear Oth.
    destruct W1 as (e & W1 & Ne & Se).
    replace (equations_written M D (CEq a n q check :: cs)) with (read_eq D n q :: rest) by reflexivity.
    split.
    + intros ND x [<-|Hx].
      * exists e. split; [|split; [now rewrite read_eq_name|exact Se]]. cbn [map] in ND. apply NoDup_cons_iff in ND. destruct ND as [ND _]. rewrite read_eq_name in *.
        rewrite I3; [rewrite W1, dget_dset, String.eqb_refl; reflexivity|].
        intros y Hy E2. apply full_name_cancel in E2. apply ND. rewrite E2. now apply in_map.
      * cbn [map] in ND. apply NoDup_cons_iff in ND. exact (I2 (proj2 ND) x Hx).
    + intros k Hk. rewrite I3; [|intros y Hy; apply Hk; now right]. rewrite W1, dget_dset.
      assert (X := Hk _ (or_introl eq_refl)). rewrite read_eq_name in X. apply String.eqb_neq in X. now rewrite X.
Qed.

Lemma stands_nil w : stands w [].
Proof. constructor; [discriminate|]. cbn. congruence. Qed.

Lemma call_written d w w' : model_call d w = (w', Ok tt) -> legible (m_name (w_mod w)) d ->
  m_name (w_mod w') = m_name (w_mod w) /\
  (forall x, In x (written_by (m_name (w_mod w)) d) -> stored_in (m_name (w_mod w)) (w_mod w') x) /\
  (forall k, (forall x, In x (written_by (m_name (w_mod w)) d) -> k <> full_name (wr_name x) (m_name (w_mod w))) ->
     dget k (m_eqs (w_mod w')) = dget k (m_eqs (w_mod w))).
Proof.
  intros H [L1 L2]. destruct (cmds_written (script d) [] w w' H (stands_nil w) L1) as (A & B & C). auto.
Qed.

(** On a new model: exactly the written equations, in order. *)
Lemma dset_fresh {A} k (v : A) (d : dict A) : dget k d = None -> dset k v d = d ++ [(k, v)].
Proof.
  induction d as [|[k' v'] d IH]; cbn [dget dset]; intros H; [reflexivity|].
  destruct (String.eqb k k'); [discriminate|]. cbn. now rewrite IH.
Qed.

Lemma cmds_exact cs : forall D w w', run_cmds w cs = (w', Ok tt) -> stands w D -> self_contained (m_name (w_mod w)) D cs = true ->
  NoDup (map wr_name (equations_written (m_name (w_mod w)) D cs)) ->
  (forall x, In x (equations_written (m_name (w_mod w)) D cs) -> dget (full_name (wr_name x) (m_name (w_mod w))) (m_eqs (w_mod w)) = None) ->
  exists new, m_eqs (w_mod w') = m_eqs (w_mod w) ++ new /\
    Forall2 (fun x ke => fst ke = full_name (wr_name x) (m_name (w_mod w)) /\ says x (snd ke)) (equations_written (m_name (w_mod w)) D cs) new.
Proof.
  induction cs as [|c cs IH]; intros D w w' H S K ND Fr.
  - cbn [run_cmds] in H. injection H as <-. exists []. split; [now rewrite app_nil_r|constructor].
  - cbn [run_cmds] in H. destruct (run_cmd w c) as [w1 [[]|]] eqn:E; [|discriminate].
    assert (K' : step_known D c = true /\ self_contained (m_name (w_mod w)) (note (m_name (w_mod w)) D c) cs = true)
      by (apply andb_prop; exact K).
    destruct K' as [K1 K2]. destruct (cmd_written D w c w1 E S K1) as [S1 W1].
    assert (Nm := run_cmd_name _ _ _ _ E). rewrite <- Nm in *.
    set (M := m_name (w_mod w1)) in *. set (rest := equations_written M (note M D c) cs) in *.
    assert (Oth : m_eqs (w_mod w1) = m_eqs (w_mod w) -> equations_written M D (c :: cs) = rest ->
      exists new, m_eqs (w_mod w') = m_eqs (w_mod w) ++ new /\
        Forall2 (fun x ke => fst ke = full_name (wr_name x) M /\ says x (snd ke)) (equations_written M D (c :: cs)) new).
    { intros E1 E2. rewrite E2 in *. rewrite <- E1. apply (IH _ _ _ H S1 K2 ND). fold M. fold rest. rewrite E1. exact Fr. }
    destruct c as [a n u ex ty v|a n u v|a n u v|a x u|a|a n q check]; try (apply Oth; [exact W1|reflexivity]). clear Oth.
    destruct W1 as (e & W1 & Ne & Se).
    change (equations_written M D (CEq a n q check :: cs)) with (read_eq D n q :: rest) in *.
    cbn [map] in ND. apply NoDup_cons_iff in ND. destruct ND as [ND1 ND2]. rewrite read_eq_name in ND1.
    assert (F0 := Fr _ (or_introl eq_refl)). rewrite read_eq_name in F0.
    destruct (IH _ _ _ H S1 K2 ND2) as (new & En & F).
    { fold M. fold rest. intros x Hx. rewrite W1, dget_dset.
      destruct (String.eqb_spec (full_name (wr_name x) M) (full_name n M)) as [Eq|_]; [|apply Fr; now right].
      exfalso. apply full_name_cancel in Eq. apply ND1. rewrite <- Eq. now apply in_map. }
    exists ((full_name n M, e) :: new). split.
    + rewrite En, W1, (dset_fresh _ _ _ F0), <- app_assoc. reflexivity.
    + constructor; [cbn; rewrite read_eq_name; auto|exact F].
Qed.

Lemma new_exact M d h u w' : model_call d (mkW h u (new_model M)) = (w', Ok tt) -> legible M d ->
  Forall2 (fun x ke => fst ke = full_name (wr_name x) M /\ says x (snd ke)) (written_by M d) (m_eqs (w_mod w')).
Proof.
  intros H [L1 L2].
  destruct (cmds_exact (script d) [] (mkW h u (new_model M)) w' H (stands_nil _) L1 L2) as (new & E & F); [reflexivity|].
  cbn in E. rewrite E. exact F.
Qed.

(** ** Sessions *)
Lemma reload_calls is : forall w w', reload w is = (w', Ok tt) -> NoDup is ->
  (forall i, ~ In i is -> get_model w' i = get_model w i) /\
  (forall i, In i is -> exists m0 d h u w1, get_model w i = Some (m0, d) /\ model_call d (mkW h u m0) = (w1, Ok tt) /\
     get_model w' i = Some (w_mod w1, d)).
Proof.
  induction is as [|i is IH]; intros w w' H ND; cbn [reload] in H.
  - injection H as <-. split; [reflexivity|intros i []].
  - destruct (on_model w i model_call) as [w1 [[]|x]] eqn:E; [|discriminate].
    apply NoDup_cons_iff in ND. destruct ND as [Ni ND]. destruct (IH _ _ H ND) as [A B].
    apply on_model_spec in E. destruct E as [(_ & _ & X)|(m & d & w2 & G & F & _ & G2 & Go & _)]; [discriminate|]. split.
    + intros j Hj. rewrite A by (intros X; apply Hj; now right). apply Go. intros ->. apply Hj. now left.
    + intros j [<-|Hj].
      * exists m, d, (pw_heap w), (pw_uids w), w2. split; [exact G|]. split; [exact F|]. now rewrite (A i Ni).
      * destruct (B j Hj) as (m0 & d0 & h & u & w3 & G0 & F0 & G3). exists m0, d0, h, u, w3. split; [|auto].
        rewrite <- G0. symmetry. apply Go. intros ->. contradiction.
Qed.

Lemma resolved_reload acts s b : resolved acts s b ->
  reload (fst (run_acts start_session acts)) (dvals (pr_models (snd s))) = (fst s, Ok tt) /\ NoDup (dvals (pr_models (snd s))).
Proof.
  intros R. destruct (block_equations _ _ _ R) as (ND & _). destruct (resolved_block _ _ _ R) as (_ & _ & (E1 & _) & _).
  split; [|exact ND]. destruct R as [H Hb]. set (s0 := run_acts start_session acts) in *.
  rewrite E1. destruct s0 as [w p]. cbn [fst snd] in *. unfold do_act, presolve in H.
  destruct (reload w (dvals (pr_models p))) as [w1 [[]|x]] eqn:Er; [|discriminate].
  destruct (build_block w1 p) as [b1|]; [|discriminate]. destruct (block_call b1) as [b' r]. injection H as <- _. reflexivity.
Qed.

(** Names and declarations of the models. *)
Lemma on_model_count {A} w i (f : decls -> mworld -> mworld * res A) w2 r : on_model w i f = (w2, r) ->
  List.length (pw_models w2) = List.length (pw_models w).
Proof. intros H. apply on_model_spec in H. destruct H as [(_ & -> & _)|(m & d & w' & _ & _ & _ & _ & _ & L)]; [reflexivity|exact L]. Qed.
Lemma reload_count is : forall w w' r, reload w is = (w', r) -> List.length (pw_models w') = List.length (pw_models w).
Proof.
  induction is as [|i is IH]; intros w w' r H; cbn [reload] in H; [now injection H as <- _|].
  destruct (on_model w i model_call) as [w1 [[]|x]] eqn:E; apply on_model_count in E.
  - now rewrite (IH _ _ _ H).
  - now injection H as <- _.
Qed.
Lemma do_act_count w p a : List.length (pw_models (fst (fst (do_act (w, p) a)))) =
  (List.length (pw_models w) + List.length (created [a]))%nat.
Proof.
  destruct (do_act (w, p) a) as [[w' p'] r] eqn:E. cbn [fst].
  destruct a as [n d|i c|i|i j f|i|m1 m2 outs ins e|m1 m2 out inp|names|c|]; cbn [created flat_map app List.length]; rewrite ?Nat.add_0_r; cbn [do_act] in E.
  - injection E as <- _ _. cbn [pw_models]. now rewrite app_length.
  - destruct (on_model w i _) as [w1 r1] eqn:E1. injection E as <- _ _. exact (on_model_count _ _ _ _ _ E1).
  - destruct (on_model w i _) as [w1 r1] eqn:E1. injection E as <- _ _. exact (on_model_count _ _ _ _ _ E1).
  - destruct (get_model w j) as [[dm dd]|]; [|now injection E as <- _ _].
    destruct (on_model w i _) as [w1 r1] eqn:E1. injection E as <- _ _. exact (on_model_count _ _ _ _ _ E1).
  - destruct (get_model w i); now injection E as <- _ _.
  - destruct (match e with None => Ok None | Some q => _ end) as [x|x]; [|now injection E as <- _ _].
    unfold connect_vars in E. destruct (get_model w m2) as [[s2 d2]|]; [|now injection E as <- _ _].
    destruct (match m1 with CMName _ => _ | CMModel i => _ end); [|now injection E as <- _ _].
    destruct (_ && _); [|destruct ins, outs; now injection E as <- _ _].
    destruct (match x with Some a => Ok a | None => _ end); [|now injection E as <- _ _].
    destruct (rbind (qty_names (pw_heap w) (cv_list outs)) _) as [[o i']|]; [|now injection E as <- _ _].
    destruct (on_model w m2 _) as [w1 r1] eqn:E1. apply on_model_count in E1. destruct r1; injection E as <- _ _; exact E1.
  - destruct (rbind (build (pw_heap w) out) _) as [[o i]|x]; [|now injection E as <- _ _].
    unfold connect_nodes in E. destruct (get_model w m2) as [[s2 d2]|]; [|now injection E as <- _ _].
    destruct (match m1 with CMName _ => _ | CMModel i => _ end) as [pu [n1|x]]; [|now injection E as <- _ _].
    destruct (node_sub i (ONode o)); [|now injection E as <- _ _].
    destruct (on_model _ m2 _) as [w1 r1] eqn:E1. apply on_model_count in E1. destruct r1; injection E as <- _ _; exact E1.
  - now injection E as <- _ _.
  - now injection E as <- _ _.
  - unfold presolve in E. destruct (reload w (dvals (pr_models p))) as [w1 [[]|x]] eqn:E1; apply reload_count in E1.
    + destruct (build_block w1 p) as [b|]; [destruct (block_call b)|]; injection E as <- _ _; exact E1.
    + injection E as <- _ _. exact E1.
Qed.

Lemma created_app a b : created (a ++ b) = created a ++ created b.
Proof. apply flat_map_app. Qed.
Lemma created_count acts : List.length (pw_models (fst (run_acts start_session acts))) = List.length (created acts).
Proof.
  induction acts as [|a acts IH] using rev_ind; [reflexivity|]. rewrite run_acts_app, created_app, app_length, <- IH. cbn [run_acts].
  destruct (run_acts start_session acts) as [w p]. exact (do_act_count w p a).
Qed.
Lemma created_model acts i M d : nth_error (created acts) i = Some (M, d) ->
  exists m, get_model (fst (run_acts start_session acts)) i = Some (m, d) /\ m_name m = M.
Proof.
  induction acts as [|a acts IH] using rev_ind; intros H; [destruct i; discriminate|].
  rewrite created_app in H. rewrite run_acts_app. cbn [run_acts].
  assert (C := created_count acts). assert (G : good (run_acts start_session acts)) by apply run_good, start_good.
  destruct (run_acts start_session acts) as [w p]. destruct (do_act (w, p) a) as [[w' p'] r] eqn:E. cbn [fst] in *.
  destruct (Nat.lt_ge_cases i (List.length (created acts))) as [L|L].
  - rewrite nth_error_app1 in H by exact L. destruct (IH H) as (m & Gm & N).
    destruct (do_act_step _ _ _ _ _ _ (g_ok _ G) E) as [S _]. destruct (as_models _ _ S i m d Gm) as (m' & G' & N' & _). exists m'. split; [exact G'|congruence].
  - rewrite nth_error_app2 in H by exact L. destruct a as [n dd|j c|j|j j' f|j|m1 m2 outs ins e|m1 m2 out inp|names|c|];
      cbn [created flat_map app] in H; try (destruct (i - _)%nat; discriminate).
    destruct (i - List.length (created acts))%nat as [|z] eqn:Ez; [|destruct z; discriminate]. injection H as -> ->.
    cbn [do_act] in E. injection E as <- _ _. exists (new_model M). split; [|reflexivity].
    unfold get_model. cbn [pw_models]. rewrite nth_error_app2 by lia. replace (i - List.length (pw_models w))%nat with 0%nat by lia. reflexivity.
Qed.

(** Models of the problem. *)
Lemma member_added acts s b i : resolved acts s b -> distinct_models acts -> In i (added acts) -> In i (dvals (pr_models (snd s))).
Proof.
  intros R D Hi. destruct (resolved_block _ _ _ R) as (_ & _ & (E1 & _) & _). rewrite E1.
  replace (dvals (pr_models (snd (run_acts start_session acts)))) with (added acts); [exact Hi|]. symmetry. apply added_models.
  intros j k n Hj Hk Nj Nk. unfold name_of in *.
  destruct (model_of _ j) as [mj|] eqn:Ej; [|discriminate]. destruct (model_of _ k) as [mk|] eqn:Ek; [|discriminate].
  simpl in Nj, Nk. apply (D j k mj mk Hj Hk Ej Ek). congruence.
Qed.

Lemma member_equations acts s b i m d : resolved acts s b -> In i (dvals (pr_models (snd s))) -> get_model (fst s) i = Some (m, d) ->
  forall k e, dget k (m_eqs m) = Some e -> In e (b_eqs b).
Proof.
  intros R Hi G k e Hk. destruct (block_equations _ _ _ R) as (_ & E & _). rewrite E. unfold equations_of. apply in_flat_map. exists i. split; [exact Hi|].
  unfold model_of. rewrite G. cbn [option_map fst]. apply dget_some_in in Hk. exact (in_map snd _ _ Hk).
Qed.

(** After resolve, each written equation of each added model is in the block. *)
Lemma block_written acts s b i M d x : resolved acts s b -> distinct_models acts -> nth_error (created acts) i = Some (M, d) ->
  In i (added acts) -> legible M d -> In x (written_by M d) ->
  exists e, In e (b_eqs b) /\ eq_name e = full_name (wr_name x) M /\ says x e.
Proof.
  intros R D Ci Hi L Hx. assert (Hi' := member_added _ _ _ _ R D Hi).
  destruct (resolved_reload _ _ _ R) as [Rl ND]. destruct (reload_calls _ _ _ Rl ND) as [_ B].
  destruct (B i Hi') as (m0 & d0 & h & u & w1 & G0 & F & G1).
  destruct (created_model _ _ _ _ Ci) as (m & Gm & N). assert (E : Some (m, d) = Some (m0, d0)) by congruence. injection E as <- <-.
  destruct (call_written d (mkW h u m) w1 F) as (N1 & W & _); cbn [w_mod] in *; [now rewrite N|]. rewrite N in *.
  destruct (W x Hx) as (e & Ee & Ne & Se). exists e. split; [exact (member_equations _ _ _ _ _ _ R Hi' G1 _ _ Ee)|auto].
Qed.

(** ** Solutions *)
Lemma dof_nodup {A} (d : dict A) : NoDup (dkeys d) -> dof d = d.
Proof.
  unfold dof, dupdate. assert (H : forall acc, NoDup (dkeys (acc ++ d)) -> fold_left (fun x kv => dset (fst kv) (snd kv) x) d acc = acc ++ d).
  { induction d as [|[k v] d IH]; intros acc H; cbn [fold_left fst snd]; [now rewrite app_nil_r|].
    rewrite dset_notin.
    - rewrite IH; rewrite <- app_assoc; [reflexivity|exact H].
    - unfold dkeys in *. rewrite map_app in H. cbn [map fst] in H. apply NoDup_remove_2 in H. rewrite in_app_iff in H. tauto. }
  intros N. exact (H [] N).
Qed.
Lemma combine_keys {A} (vars : list string) : forall x : list A, List.length x = List.length vars -> dkeys (List.combine vars x) = vars.
Proof.
  unfold dkeys. induction vars as [|v vars IH]; intros [|a x] L; try discriminate; [reflexivity|]. cbn. f_equal. apply IH. now injection L.
Qed.
Lemma by_name_combine {A} vars (x : list A) : NoDup vars -> List.length x = List.length vars -> by_name vars x = List.combine vars x.
Proof. intros N L. unfold by_name. apply dof_nodup. now rewrite combine_keys. Qed.

Lemma last_in {A} (l : list A) x : last_of l = Ok x -> In x l.
Proof.
  unfold last_of. intros H. destruct (rev l) as [|y r] eqn:E; [discriminate|]. injection H as <-. apply in_rev. rewrite E. now left.
Qed.

Lemma symbolicsys_root eng ps guess b out one : honest eng -> NoDup (b_varlist b) -> symbolicsys one eng ps guess b = Ok out ->
  forall x, In x (b_exprs b) -> den x (bind_env out) = Some 0%R.
Proof.
  intros (_ & _ & Hr) N H x Hx. unfold symbolicsys in H. destruct (first_guess one guess (b_varlist b)) as [g|]; [|discriminate]. cbn [rbind] in H.
  destruct (root_find eng (b_varlist b) (b_exprs b) _) as [[] v] eqn:E; [|discriminate]. injection H as <-.
  destruct (Hr _ _ _ _ E) as [L Z]. rewrite (by_name_combine _ _ N L). now apply Z.
Qed.

Lemma la_root eng name guess b out one : honest eng -> NoDup (b_varlist b) -> la_solve one eng name guess b = Ok out -> solved (bind_env out) b.
Proof.
  intros Hh N H x Hx. unfold la_solve in H. destruct (la_lookup name) as [[]|]; [| | |discriminate].
  - apply last_in in H. destruct Hh as (Hs & _). now apply (Hs _ _ _ H).
  - binv. destruct Hh as (_ & Hd & _). destruct (Hd _ _ _ Hb) as [L Z]. rewrite (by_name_combine _ _ N L). now apply Z.
  - now apply (symbolicsys_root eng None guess b out one).
Qed.
Lemma nla_root eng name ps guess b out one : honest eng -> NoDup (b_varlist b) -> nla_solve one eng name ps guess b = Ok out -> solved (bind_env out) b.
Proof.
  intros Hh N H x Hx. unfold nla_solve in H. destruct (nla_lookup name) as [[]|]; [| | |discriminate]; cbn [rbind] in H.
  - apply last_in in H. destruct Hh as (Hs & _). now apply (Hs _ _ _ H).
  - now apply (symbolicsys_root eng ps guess b out one).
  - now apply (symbolicsys_root eng ps guess b out one).
Qed.

Lemma answer_solves acts s b eng out : resolved acts s b -> honest eng -> answer eng b out -> solved (bind_env out) b.
Proof.
  intros R Hh (one & name & guess & ps & [H|H]); destruct (resolved_block _ _ _ R) as (_ & B & _).
  - exact (la_root _ _ _ _ _ _ Hh (bf_nodup _ _ B) H).
  - exact (nla_root _ _ _ _ _ _ _ Hh (bf_nodup _ _ B) H).
Qed.

Lemma solution_written acts s b eng out i M d x : resolved acts s b -> distinct_models acts -> honest eng -> answer eng b out ->
  nth_error (created acts) i = Some (M, d) -> In i (added acts) -> legible M d -> In x (written_by M d) ->
  match wr_sides x with
  | None => wr_value x (bind_env out) = Some 0%R
  | Some (_, r) => r (bind_env out) = Some 0%R
  end.
Proof.
  intros R D Hh A Ci Hi L Hx. destruct (block_written _ _ _ _ _ _ _ R D Ci Hi L Hx) as (e & He & _ & (n & En & Dn) & Sd).
  assert (S := answer_solves _ _ _ _ _ R Hh A). rewrite (system_exact _ _ _ _ R) in S. specialize (S e He).
  destruct (wr_sides x) as [[f g]|].
  - destruct Sd as (El & a & c & Ee & _ & Dc). rewrite El in S. destruct S as (a' & c' & E' & Z). rewrite Ee in E'. injection E' as <- <-. now rewrite <- Dc.
  - rewrite Sd in S. destruct S as (n' & En' & Z). assert (n' = n) by congruence. subst n'. now rewrite <- Dn.
Qed.

(** ** Connections *)
Definition names_ok (h : heap) : Prop := forall l q, hget h l = Some q -> simple_name (q_name q).

Lemma clean_spec s : clean s = true <-> has_char "," s = false /\ has_char ">" s = false.
Proof. unfold clean. rewrite Bool.andb_true_iff, !Bool.negb_true_iff. reflexivity. Qed.
Lemma clean_full n M : clean n = true -> clean M = true -> clean (full_name n M) = true.
Proof.
  rewrite !clean_spec. intros [A B] [C D]. unfold full_name. rewrite !has_char_app. cbn [has_char]. rewrite A, B, C, D. auto.
Qed.
Lemma full_ne n M : full_name n M <> "".
Proof. unfold full_name. destruct n; discriminate. Qed.
Lemma simple_full n M : clean n = true -> clean M = true -> simple_name (full_name n M).
Proof. intros A B. assert (C := clean_full _ _ A B). apply clean_spec in C. split; [apply full_ne|exact C]. Qed.

Lemma names_new h q : names_ok h -> simple_name (q_name q) -> names_ok (h ++ [q]).
Proof. intros N S l o H. destruct (hget_snoc _ _ _ _ H) as [H1| ->]; [exact (N l o H1)|exact S]. Qed.
Lemma names_set h l q q' : names_ok h -> hget h l = Some q -> q_name q' = q_name q -> names_ok (hset h l q').
Proof.
  intros N G E i o H. destruct (Nat.eq_dec i l) as [->|Hne].
  - rewrite hget_hset_eq in H by now apply hget_lt in G. injection H as <-. rewrite E. exact (N l q G).
  - rewrite hget_hset_neq in H by exact Hne. exact (N i o H).
Qed.

(** Statements leave the equations of connections alone. *)
Definition same_arrows (m m' : mstate) : Prop := forall k e, In (k, e) (m_eqs m') -> has_char ">" k = true -> In (k, e) (m_eqs m).

Lemma cmd_arrows w c w' r : run_cmd w c = (w', r) -> clean (m_name (w_mod w)) = true -> clean_cmd c = true -> names_ok (w_heap w) ->
  names_ok (w_heap w') /\ same_arrows (w_mod w) (w_mod w').
Proof.
  intros H Cm Cc N.
  assert (Z : names_ok (w_heap w) /\ same_arrows (w_mod w) (w_mod w)) by (split; [exact N|intros k e Hk _; exact Hk]).
  destruct c as [a n u ex ty v|a n u v|a n u v|a x u|a|a n q check]; cbn [run_cmd clean_cmd] in *.
  - unfold assign_qty, create_variable in H.
    destruct ex; [destruct (String.eqb ty "input"); [|destruct (String.eqb ty "output")]|]; injection H as <- _;
      (split; [apply names_new; [exact N|now apply simple_full]|intros k e Hk _; exact Hk]).
  - injection H as <- _. split; [apply names_new; [exact N|now apply simple_full]|intros k e Hk _; exact Hk].
  - injection H as <- _. split; [apply names_new; [exact N|now apply simple_full]|intros k e Hk _; exact Hk].
  - destruct (attr_qty (w_mod w) a) as [l|]; [|injection H as <- _; exact Z].
    destruct (match x with SANum n => _ | SAAttr b => _ end) as [sv|]; [|injection H as <- _; exact Z].
    unfold heap_set_value in H. destruct (hget (w_heap w) l) as [q|] eqn:G; [|injection H as <- _; exact Z].
    destruct (set_value q sv u) as [q'|] eqn:Es; injection H as <- _; [|exact Z].
    destruct (set_value_effect _ _ _ _ Es) as (_ & _ & _ & Nq & _).
    split; [now apply (names_set _ _ q)|intros k e Hk _; exact Hk].
  - destruct (attr_qty (w_mod w) a) as [l|]; [|injection H as <- _; exact Z].
    destruct (hget (w_heap w) l) as [q|] eqn:G; [|injection H as <- _; exact Z].
    destruct (qkind_eqb (q_kind q) KVariable); injection H as <- _; [|exact Z].
    split; [now apply (names_set _ _ q)|intros k e Hk _; exact Hk].
  - apply andb_prop in Cc. destruct Cc as [Cn Ne]. apply Bool.negb_true_iff in Ne.
    destruct (rbind (resolve_eq (attr_qty (w_mod w)) q) (fun q' => build_eq (w_heap w) q')) as [arg|]; [|injection H as <- _; exact Z].
    destruct (create_outcome w n arg check) as [u' E]. rewrite E in H. clear E.
    destruct (set_residual _ arg) as [e0 [[]|]]; [|injection H as <- _; exact Z].
    destruct (eq_expr e0) as [nn|]; [|injection H as <- _; exact Z]. cbv zeta in H.
    assert (Nm : stored_name w n = full_name n (m_name (w_mod w))) by (unfold stored_name; now rewrite Ne).
    assert (Nk : has_char ">" (stored_name w n) = false) by (rewrite Nm; apply clean_spec, clean_full; assumption).
    assert (K : forall m' e2, m_eqs m' = dset (stored_name w n) e2 (m_eqs (w_mod w)) -> same_arrows (w_mod w) m').
    { intros m' e2 Em k e Hk Hc. rewrite Em in Hk. apply in_dset in Hk. destruct Hk as [[-> _]|Hk]; [congruence|exact Hk]. }
    destruct check; [destruct (forallb _ _)|]; injection H as <- _; try exact Z; (split; [exact N|]); eapply K; reflexivity.
Qed.

Lemma cmds_arrows cs : forall w w' r, run_cmds w cs = (w', r) -> clean (m_name (w_mod w)) = true -> forallb clean_cmd cs = true ->
  names_ok (w_heap w) -> names_ok (w_heap w') /\ same_arrows (w_mod w) (w_mod w').
Proof.
  induction cs as [|c cs IH]; intros w w' r H Cm Cc N; cbn [run_cmds forallb] in *.
  - injection H as <- _. split; [exact N|intros k e Hk _; exact Hk].
  - apply andb_prop in Cc. destruct Cc as [C1 C2]. destruct (run_cmd w c) as [w1 r1] eqn:E.
    destruct (cmd_arrows _ _ _ _ E Cm C1 N) as [N1 A1]. destruct r1 as [[]|x]; [|injection H as <- _; auto].
    assert (Nm := run_cmd_name _ _ _ _ E). destruct (IH w1 w' r H) as [N2 A2]; [now rewrite Nm|exact C2|exact N1|].
    split; [exact N2|]. intros k e Hk Hc. apply A1; [|exact Hc]. now apply A2.
Qed.

Lemma sum_free h en ls : (forall l, In l ls -> exists q, hget h l = Some q /\ q_spec q = false) ->
  sum_meaning h (named_val h en) ls = Some (sum_named en (var_names h ls)).
Proof.
  induction ls as [|l ls IH]; intros H; [reflexivity|]. cbn [sum_meaning var_names map sum_named].
  rewrite IH by (intros; apply H; now right). destruct (H l (or_introl eq_refl)) as (q & E & S). unfold qty_meaning. rewrite E, S.
  cbn [named_val v_q arith]. now rewrite E.
Qed.

Lemma variables_named h ls : names_ok h -> forallb (is_variable h) ls = true -> Forall simple_name (var_names h ls).
Proof.
  intros N V. rewrite forallb_forall in V. apply Forall_forall. intros x Hx. unfold var_names in Hx. apply in_map_iff in Hx.
  destruct Hx as (l & E & Hl). specialize (V l Hl). unfold is_variable in V. destruct (hget h l) as [q|] eqn:G; [|discriminate]. subst x. exact (N l q G).
Qed.

Lemma connection_arrows w outs ins a w' r : balance (w_heap w) ins outs = Ok a -> free_vars (w_heap w) -> names_ok (w_heap w) ->
  model_connection w outs ins a = (w', r) ->
  w_heap w' = w_heap w /\
  forall k e, In (k, e) (m_eqs (w_mod w')) -> In (k, e) (m_eqs (w_mod w)) \/
    exists os is, Forall simple_name os /\ Forall simple_name is /\ k = conn_name os is /\ balances os is e.
Proof.
  intros Ba Fv N H. unfold model_connection in H.
  destruct (forallb (is_variable (w_heap w)) ins && forallb (is_variable (w_heap w)) outs) eqn:Ev; [|injection H as <- _; auto].
  destruct (rbind (qty_names (w_heap w) outs) _) as [name|x] eqn:En; [|injection H as <- _; auto].
  assert (Ne : name <> "") by (binv; apply append_ne).
  assert (Nm : name = conn_name (var_names (w_heap w) outs) (var_names (w_heap w) ins))
    by (binv; apply qty_names_spec in Hb, Hb0; now rewrite Hb, Hb0).
  destruct (connection_init (w_uids w) name a) as [u [e|x]] eqn:Ec; injection H as <- _; [|auto].
  split; [reflexivity|]. cbn [w_mod with_eqs m_eqs]. intros k e' Hk. apply in_dset in Hk. destruct Hk as [[-> ->]|Hk]; [right|now left].
  apply andb_prop in Ev. destruct Ev as [V1 V2].
  exists (var_names (w_heap w) outs), (var_names (w_heap w) ins). split; [now apply variables_named|]. split; [now apply variables_named|]. split; [exact Nm|].
  apply balance_built in Ba. destruct Ba as [(-> & _)|(q & Eq & Hb)].
  { exfalso. unfold connection_init, equation_init in Ec. destruct (String.eqb name ""); simpl in Ec; discriminate. }
  destruct (connection_data _ _ _ _ _ _ _ Ne Hb Ec) as (_ & _ & n & Hn & _ & _ & Hd). split.
  - unfold connection_init in Ec. destruct (init_outcome (w_uids w) main_thread name a "") as [u1 E]. rewrite E in Ec. clear E.
    apply String.eqb_neq in Ne. rewrite Ne in Ec.
    destruct (set_residual (blank_eqn name) a) as [e1 [[]|x]] eqn:Er; [|discriminate].
    assert (P := eq_parts _ _ _ _ _ Hb Er). cbn in P.
    destruct (residual_again a _ _ (with_eowner e1 "") (built_not_other _ _ _ Hb) Er) as (e2 & E2 & X & T & N2 & _ & El & Ef).
    rewrite E2 in Ec. unfold sweep_objects in Ec. destruct (eq_expr e2); [|discriminate]. injection Ec as _ <-. cbn.
    rewrite (Ef eq_refl). exact P.
  - exists n. split; [exact Hn|]. intros en. rewrite (Hd _ _ (named_env (w_heap w) en)). cbn [residual_meaning].
    rewrite (balance_meaning _ _ _ _ _ Eq).
    assert (Fr : forall ls, forallb (is_variable (w_heap w)) ls = true -> forall l, In l ls -> exists q, hget (w_heap w) l = Some q /\ q_spec q = false).
    { intros ls V l Hl. rewrite forallb_forall in V. specialize (V l Hl). unfold is_variable in V.
      destruct (hget (w_heap w) l) as [o|] eqn:G; [|discriminate]. exists o. split; [reflexivity|]. apply (Fv l o G). destruct (q_kind o); try discriminate V; reflexivity. }
    rewrite (sum_free _ en _ (Fr _ V1)), (sum_free _ en _ (Fr _ V2)). reflexivity.
Qed.

Record arrows (w : pworld) : Prop := mkArrows {
  ar_names : names_ok (pw_heap w);
  ar_clean : forall i m d, get_model w i = Some (m, d) -> clean (m_name m) = true /\ forallb clean_cmd (script d) = true;
  ar_conn : forall i m d k e, get_model w i = Some (m, d) -> In (k, e) (m_eqs m) -> has_char ">" k = true ->
    exists os is, Forall simple_name os /\ Forall simple_name is /\ k = conn_name os is /\ balances os is e }.

Lemma on_model_arrows {A} w i (f : decls -> mworld -> mworld * res A) w2 r : arrows w ->
  (forall m d w' r, get_model w i = Some (m, d) -> f d (mkW (pw_heap w) (pw_uids w) m) = (w', r) ->
     names_ok (w_heap w') /\ m_name (w_mod w') = m_name m /\
     forall k e, In (k, e) (m_eqs (w_mod w')) -> has_char ">" k = true -> In (k, e) (m_eqs m) \/
       exists os is, Forall simple_name os /\ Forall simple_name is /\ k = conn_name os is /\ balances os is e) ->
  on_model w i f = (w2, r) -> arrows w2.
Proof.
  intros O HF H. apply on_model_spec in H. destruct H as [(_ & -> & _)|(m & d & w' & G & F & Hh & G2 & Go & L)]; [exact O|].
  destruct (HF m d w' r G F) as (N & Nm & K). constructor.
  - now rewrite Hh.
  - intros j mj dj Gj. destruct (Nat.eq_dec j i) as [->|Hne].
    + assert (X : Some (mj, dj) = Some (w_mod w', d)) by congruence. injection X as -> ->. rewrite Nm. exact (ar_clean _ O i m d G).
    + rewrite Go in Gj by exact Hne. exact (ar_clean _ O j mj dj Gj).
  - intros j mj dj k e Gj Hin Hc. destruct (Nat.eq_dec j i) as [->|Hne].
    + assert (X : Some (mj, dj) = Some (w_mod w', d)) by congruence. injection X as -> ->.
      destruct (K k e Hin Hc) as [Hm|C]; [exact (ar_conn _ O i m d k e G Hm Hc)|exact C].
    + rewrite Go in Gj by exact Hne. exact (ar_conn _ O j mj dj k e Gj Hin Hc).
Qed.

Lemma call_arrows w i w2 r : arrows w -> on_model w i model_call = (w2, r) -> arrows w2.
Proof.
  intros O. apply (on_model_arrows _ _ _ _ _ O). intros m d w' r' G F. destruct (ar_clean _ O i m d G) as [C1 C2].
  destruct (cmds_arrows (script d) (mkW (pw_heap w) (pw_uids w) m) w' r' F C1 C2 (ar_names _ O)) as [N A]. split; [exact N|].
  split; [exact (tr_name _ _ _ _ (run_cmds_tr _ _ _ _ F))|]. intros k e Hk Hc. left. exact (A k e Hk Hc).
Qed.
Lemma reload_arrows is : forall w w' r, arrows w -> reload w is = (w', r) -> arrows w'.
Proof.
  induction is as [|i is IH]; intros w w' r O H; cbn [reload] in H; [now injection H as <- _|].
  destruct (on_model w i model_call) as [w1 [[]|x]] eqn:E.
  - exact (IH _ _ _ (call_arrows _ _ _ _ O E) H).
  - injection H as <- _. exact (call_arrows _ _ _ _ O E).
Qed.

Lemma do_act_arrows s a : holds false (fst s) -> ordinary false a = true -> clean_act a = true -> arrows (fst s) -> arrows (fst (fst (do_act s a))).
Proof.
  intros Hs P Ca O. destruct s as [w p]. destruct (do_act (w, p) a) as [[w' p'] r] eqn:E. cbn [fst] in *.
  destruct a as [n dd|k c|k|k j f|k|m1 m2 outs ins e|m1 m2 out inp|names|c|]; cbn [do_act] in E; cbn [ordinary] in P; try discriminate P.
  - injection E as <- _ _. cbn [clean_act] in Ca. apply andb_prop in Ca. destruct O as [O1 O2 O3].
    assert (X : forall i m d, get_model (mkPW (pw_heap w) (pw_uids w) (pw_puids w) (pw_models w ++ [(new_model n, dd)])) i = Some (m, d) ->
                get_model w i = Some (m, d) \/ (m = new_model n /\ d = dd)).
    { intros i m d H. unfold get_model in *. simpl in H. destruct (Nat.lt_ge_cases i (List.length (pw_models w))) as [L|L].
      - left. now rewrite nth_error_app1 in H by exact L.
      - right. rewrite nth_error_app2 in H by exact L. destruct (i - _)%nat as [|z]; [|destruct z; discriminate]. injection H as <- <-. auto. }
    constructor; cbn [pw_heap].
    + exact O1.
    + intros i m d H. destruct (X i m d H) as [H1|[-> ->]]; [exact (O2 i m d H1)|exact Ca].
    + intros i m d k e H Hin. destruct (X i m d H) as [H1|[-> _]]; [exact (O3 i m d k e H1 Hin)|destruct Hin].
  - destruct (on_model w k _) as [w1 r1] eqn:E1. injection E as <- _ _.
    apply (on_model_arrows _ _ _ _ _ O) with (2 := E1). intros m d w2 r2 G F.
    assert (Cc : clean_cmd c = true) by (destruct c; try discriminate P; reflexivity).
    destruct (cmd_arrows (mkW (pw_heap w) (pw_uids w) m) c w2 r2 F (proj1 (ar_clean _ O k m d G)) Cc (ar_names _ O)) as [N A].
    split; [exact N|]. split; [exact (run_cmd_name _ _ _ _ F)|]. intros k' e' Hk Hc. left. exact (A _ _ Hk Hc).
  - destruct (on_model w k _) as [w1 r1] eqn:E1. injection E as <- _ _. exact (call_arrows _ _ _ _ O E1).
  - destruct (get_model w k); injection E as <- _ _; exact O.
  - destruct e as [q|]; [discriminate P|].
    unfold connect_vars in E. destruct (get_model w m2) as [[s2 d2]|]; [|injection E as <- _ _; exact O].
    destruct (match m1 with CMName _ => _ | CMModel i => _ end); [|injection E as <- _ _; exact O].
    destruct (forallb _ (cv_list ins) && forallb _ (cv_list outs)).
    2: { destruct ins, outs; injection E as <- _ _; exact O. }
    destruct (balance (pw_heap w) (cv_list ins) (cv_list outs)) as [ar|] eqn:Ba; [|injection E as <- _ _; exact O].
    destruct (rbind (qty_names (pw_heap w) (cv_list outs)) _) as [[o i']|]; [|injection E as <- _ _; exact O].
    destruct (on_model w m2 _) as [w1 r1] eqn:E1.
    assert (Q : arrows w1).
    { apply (on_model_arrows _ _ _ _ _ O) with (2 := E1). intros m d w2 r2 _ F.
      assert (T : m_name (w_mod w2) = m_name m).
      { unfold model_connection in F. cbn [w_heap w_mod w_uids] in F. destruct (_ && _); [|now injection F as <- _].
        destruct (rbind _ _); [|now injection F as <- _]. destruct (connection_init _ _ _) as [? []]; now injection F as <- _. }
      destruct (connection_arrows (mkW (pw_heap w) (pw_uids w) m) _ _ _ _ _ Ba (h_free _ _ Hs eq_refl) (ar_names _ O) F) as [Hh K].
      split; [rewrite Hh; exact (ar_names _ O)|]. split; [exact T|]. intros k e Hk _. exact (K k e Hk). }
    destruct r1; injection E as <- _ _; exact Q.
  - injection E as <- _ _. exact O.
  - injection E as <- _ _. exact O.
  - unfold presolve in E. destruct (reload w (dvals (pr_models p))) as [w1 r1] eqn:E1.
    assert (Q := reload_arrows _ _ _ _ O E1).
    destruct r1 as [[]|x]; [|injection E as <- _ _; exact Q]. destruct (build_block w1 p); [|injection E as <- _ _; exact Q].
    destruct (block_call _) as [b' r']. injection E as <- _ _. exact Q.
Qed.

Lemma run_arrows acts : forallb (ordinary false) acts = true -> forallb clean_act acts = true -> arrows (fst (run_acts start_session acts)).
Proof.
  induction acts as [|a acts IH] using rev_ind; intros P C.
  - constructor.
    + intros l q H. unfold hget in H. destruct l; discriminate.
    + intros i m d H. unfold get_model in H; destruct i; discriminate.
    + intros i m d k e H. unfold get_model in H; destruct i; discriminate.
  - rewrite forallb_app in P, C. apply andb_prop in P, C. destruct P as [P1 P2], C as [C1 C2]. cbn [forallb] in P2, C2. rewrite Bool.andb_true_r in P2, C2.
    rewrite run_acts_app. cbn [run_acts]. apply do_act_arrows; [now apply run_holds|exact P2|exact C2|now apply IH].
Qed.

(** A connection that was made is in the block. *)
Lemma block_connection acts s b a1 i j outs ins a2 s1 : resolved acts s b -> distinct_models acts ->
  forallb (ordinary false) acts = true -> forallb clean_act acts = true ->
  acts = a1 ++ AConn (CMModel i) j outs ins None :: a2 ->
  do_act (run_acts start_session a1) (AConn (CMModel i) j outs ins None) = (s1, Ok tt) -> In j (added acts) ->
  let h := pw_heap (fst (run_acts start_session a1)) in
  exists e, In e (b_eqs b) /\ balances (var_names h (cv_list outs)) (var_names h (cv_list ins)) e.
Proof.
  intros R D P C Ea Ed Hj h. set (c := mkConn i j outs ins None).
  assert (G0 : good (run_acts start_session a1)) by apply run_good, start_good.
  destruct (connect_accepted _ c _ G0 Ed) as (m1 & d1 & m2 & d2 & e & _ & G2 & _ & V & Hh & _ & _ & Gt & _). cbn [c_to c_outs c_ins joined fst snd c] in Gt, V.
  fold h in Gt, V. set (k := conn_name (var_names h (cv_list outs)) (var_names h (cv_list ins))) in *.
  assert (Gs : good s1) by (replace s1 with (fst (do_act (run_acts start_session a1) (AConn (CMModel i) j outs ins None))) by (now rewrite Ed); now apply do_act_good).
  assert (E1 : run_acts start_session acts = run_acts s1 a2) by (rewrite Ea, run_acts_app; cbn [run_acts]; now rewrite Ed).
  assert (Wr := proj1 R). rewrite E1 in Wr.
  assert (E2 : s = run_acts s1 (a2 ++ [AResolve])) by (rewrite run_acts_app; cbn [run_acts]; now rewrite Wr).
  destruct (as_models _ _ (run_step (a2 ++ [AResolve]) s1 Gs) j _ d2 Gt) as (m' & G' & _ & Kx). rewrite <- E2 in G'.
  destruct Kx as (_ & _ & _ & Kx).
  assert (Hk : In k (dkeys (m_eqs m'))) by (apply Kx; cbn [m_eqs with_eqs]; apply in_dkeys_dset; now left).
  apply in_keys_dget in Hk. destruct Hk as (e' & Ee).
  exists e'. split; [exact (member_equations _ _ _ _ _ _ R (member_added _ _ _ _ R D Hj) G' _ _ Ee)|].
  assert (As : arrows (fst s)).
  { replace s with (run_acts start_session (acts ++ [AResolve])) by (rewrite run_acts_app, E1; cbn [run_acts]; now rewrite Wr).
    apply run_arrows; rewrite forallb_app; [rewrite P|rewrite C]; reflexivity. }
  destruct (ar_conn _ As j m' d2 k e' G' (dget_some_in _ _ _ Ee) (conn_name_arrow _ _)) as (os & is & S1 & S2 & Ek & B).
  assert (A1 : arrows (fst (run_acts start_session a1))).
  { rewrite Ea in P, C. rewrite forallb_app in P, C. apply andb_prop in P, C. now apply run_arrows. }
  assert (Vn : forall ls, (forall l, In l ls -> is_variable h l = true) -> Forall simple_name (var_names h ls)).
  { intros ls Hl. apply variables_named; [exact (ar_names _ A1)|]. now apply forallb_forall. }
  assert (Q := conn_name_inj _ _ _ _ (Vn _ (fun l H => V l (in_or_app _ _ _ (or_introl H)))) (Vn _ (fun l H => V l (in_or_app _ _ _ (or_intror H)))) S1 S2 Ek).
  injection Q as -> ->. exact B.
Qed.

Lemma solution_residual acts s b eng out i M d x : resolved acts s b -> distinct_models acts -> honest eng -> answer eng b out ->
  nth_error (created acts) i = Some (M, d) -> In i (added acts) -> legible M d -> In x (written_by M d) -> one_sided x ->
  wr_value x (bind_env out) = Some 0%R.
Proof. intros Rs DM Ho An Cr Ad Le Hx O. pose proof (solution_written acts s b eng out i M d x Rs DM Ho An Cr Ad Le Hx) as H. now rewrite O in H. Qed.
Lemma solution_right acts s b eng out i M d x l r : resolved acts s b -> distinct_models acts -> honest eng -> answer eng b out ->
  nth_error (created acts) i = Some (M, d) -> In i (added acts) -> legible M d -> In x (written_by M d) -> wr_sides x = Some (l, r) ->
  r (bind_env out) = Some 0%R.
Proof. intros Rs DM Ho An Cr Ad Le Hx O. pose proof (solution_written acts s b eng out i M d x Rs DM Ho An Cr Ad Le Hx) as H. now rewrite O in H. Qed.

Lemma solution_connection acts s b eng out a1 i j outs ins a2 s1 : resolved acts s b -> distinct_models acts -> honest eng -> answer eng b out ->
  forallb (ordinary false) acts = true -> forallb clean_act acts = true ->
  acts = a1 ++ AConn (CMModel i) j outs ins None :: a2 ->
  do_act (run_acts start_session a1) (AConn (CMModel i) j outs ins None) = (s1, Ok tt) -> In j (added acts) ->
  let h := pw_heap (fst (run_acts start_session a1)) in
  sum_named (bind_env out) (var_names h (cv_list ins)) = sum_named (bind_env out) (var_names h (cv_list outs)).
Proof.
  intros R D Hh A P C Ea Ed Hj h. destruct (block_connection _ _ _ _ _ _ _ _ _ _ R D P C Ea Ed Hj) as (e & He & El & n & En & Dn).
  assert (S := answer_solves _ _ _ _ _ R Hh A). rewrite (system_exact _ _ _ _ R) in S. specialize (S e He). rewrite El in S.
  destruct S as (n' & En' & Z). assert (n' = n) by congruence. subst n'. rewrite Dn in Z. injection Z as Z. fold h in Z.
  apply Rminus_diag_uniq. exact Z.
Qed.
