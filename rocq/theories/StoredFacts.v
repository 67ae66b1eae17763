(** Facts about the equations stored by a call, whatever their names (C64). *)
From Verif Require Import Base BaseFacts Num NumFacts UnitModel UnitFacts Sympy Node Build EquationModel ModelModel ProblemModel
  SpecUnits UnitThms SpecExpr SpecQty QtyFacts SpecModel BuildFacts EquationFacts ModelFacts SpecInc IncFacts SpecCall CallFacts
  SpecProblem ProblemFacts SessionFacts UsualFacts ConnFacts SolverModel SpecSolver SolverFacts SpecSymbols SymbolFacts SpecWritten WrittenFacts SpecStored.
From Coq Require Import Lia.
Notation num := Verif.Num.num.

Definition step_assigned (D : dict thing) (c : cmd) : bool :=
  match c with
  | CSet a (SANum _) _ => in_dict D a
  | CSet a (SAAttr b) _ => in_dict D a && in_dict D b
  | CDist a => in_dict D a
  | CEq _ _ q _ => eq_known D q
  | _ => true
  end.

Lemma uids_step w n arg check w' e : create_equation w n (Some arg) check = (w', Ok e) ->
  (w_uids w main_thread <= w_uids w' main_thread)%nat /\ (n = "" -> (S (w_uids w main_thread) <= w_uids w' main_thread)%nat).
Proof.
  intros H. unfold create_equation in H.
  destruct (equation_init (w_uids w) main_thread n (Some arg) (m_name (w_mod w))) as [u' r] eqn:E.
  destruct r as [e0|]; [|discriminate]. destruct (sweep_objects _) as [e2 [[]|]]; [|discriminate].
  assert (U : w_uids w' = u') by (destruct check; [destruct (check_equation _ _); [|discriminate]|]; injection H as <- _; reflexivity).
  rewrite U. split.
  - assert (X := init_mono (w_uids w) main_thread n (Some arg) (m_name (w_mod w)) main_thread). now rewrite E in X.
  - intros ->. assert (X := init_unnamed (w_uids w) main_thread (Some arg) (m_name (w_mod w)) e0). rewrite E in X. exact (proj2 (X eq_refl)).
Qed.

Lemma cmd_stored D w c w' : run_cmd w c = (w', Ok tt) -> stands w D -> step_assigned D c = true ->
  stands w' (note (m_name (w_mod w)) D c) /\ (w_uids w main_thread <= w_uids w' main_thread)%nat /\
  match c with
  | CEq _ n q _ => exists e, m_eqs (w_mod w') = dset (stored_name w n) e (m_eqs (w_mod w)) /\
                              eq_name e = stored_name w n /\ says (read_eq D n q) e /\
                              (n = "" -> (S (w_uids w main_thread) <= w_uids w' main_thread)%nat)
  | _ => m_eqs (w_mod w') = m_eqs (w_mod w)
  end.
Proof.
  intros H S K.
  assert (G : step_known D c = true -> (forall a n q ch, c <> CEq a n q ch) -> stands w' (note (m_name (w_mod w)) D c) /\
    (w_uids w main_thread <= w_uids w' main_thread)%nat /\ m_eqs (w_mod w') = m_eqs (w_mod w)).
  { intros K2 N. destruct (cmd_written D w c w' H S K2) as [A B]. split; [exact A|].
    assert (m_eqs (w_mod w') = m_eqs (w_mod w)) by (destruct c; try exact B; exfalso; exact (N _ _ _ _ eq_refl)). split; [|assumption].
    assert (w_uids w' = w_uids w) as ->; [|lia]. clear - H N.
    destruct c as [a n u ex ty v|a n u v|a n u v|a x u|a|a n q check]; cbn [run_cmd] in H; try (exfalso; exact (N _ _ _ _ eq_refl)).
    - unfold assign_qty, create_variable in H.
      destruct ex; [destruct (String.eqb ty "input"); [|destruct (String.eqb ty "output")]|]; try discriminate H; injection H as <-; reflexivity.
    - unfold assign_qty, create_parameter in H. injection H as <-. reflexivity.
    - unfold assign_qty, create_constant in H. injection H as <-. reflexivity.
    - destruct (attr_qty (w_mod w) a); [|discriminate]. destruct (match x with SANum n => _ | SAAttr b => _ end); [|discriminate].
      destruct (heap_set_value _ _ _ _) as [h' r]. injection H as <- _. reflexivity.
    - destruct (attr_qty (w_mod w) a); [|discriminate]. destruct (hget _ _); [|discriminate].
      destruct (qkind_eqb _ _); [|discriminate]. injection H as <-. reflexivity. }
  destruct c as [a n u ex ty v|a n u v|a n u v|a x u|a|a n q check]; try (apply G; [exact K|discriminate]). clear G.
  cbn [run_cmd note step_assigned] in *.
  destruct (rbind (resolve_eq (attr_qty (w_mod w)) q) (fun q' => build_eq (w_heap w) q')) as [arg|] eqn:Eb; [|discriminate].
  binv. destruct (create_equation w n (Some arg) check) as [w1 [e1|]] eqn:Ec; [|discriminate].
  assert (U := uids_step _ _ _ _ _ _ Ec). injection H as <-. cbn [w_uids w_mod w_heap].
  destruct (create_outcome w n arg check) as [u' E]. rewrite E in Ec. clear E.
  destruct (set_residual _ arg) as [e0 [[]|]] eqn:Er; [|discriminate].
  destruct (eq_expr e0) as [nn|] eqn:En; [|discriminate]. cbv zeta in Ec.
  set (e2 := mkEqn (stored_name w n) (Some nn) (eq_elem e0) (eq_elementary e0) (eq_type e0) (Some (nd_smap nn)) (m_name (w_mod w))) in *.
  assert (Sy : says (read_eq D n q) e2) by (apply (says_stored w D q x arg _ e0 e2 S Hb K Eb Er); [now rewrite En|reflexivity|reflexivity]).
  destruct U as [U1 U2].
  destruct check; [destruct (forallb _ _); [|discriminate]|]; injection Ec as <- <-;
    (split; [now apply (stands_forget w)|split; [exact U1|exists e2; split; [reflexivity|split; [reflexivity|split; [exact Sy|exact U2]]]]]).
Qed.

Lemma keyed_mono M xs ks : forall u, keyed M u xs ks -> forall v, (v <= u)%nat -> keyed M v xs ks.
Proof.
  induction 1; intros v L; [constructor|constructor; auto|]. apply (keyed_drawn M v n); [assumption|lia|assumption].
Qed.

Lemma cmds_stored cs : forall D w w', run_cmds w cs = (w', Ok tt) -> stands w D -> assigned_before (m_name (w_mod w)) D cs = true ->
  m_name (w_mod w') = m_name (w_mod w) /\ stands w' (read_all (m_name (w_mod w)) D cs) /\
  exists ks es, keyed (m_name (w_mod w)) (w_uids w main_thread) (equations_written (m_name (w_mod w)) D cs) ks /\
    Forall2 says (equations_written (m_name (w_mod w)) D cs) es /\ Forall2 (fun k e => eq_name e = k) ks es /\
    m_eqs (w_mod w') = store_all ks es (m_eqs (w_mod w)).
Proof.
  induction cs as [|c cs IH]; intros D w w' H S K.
  - cbn [run_cmds] in H. injection H as <-. split; [reflexivity|]. split; [exact S|]. exists [], []. repeat split; constructor.
  - cbn [run_cmds] in H. destruct (run_cmd w c) as [w1 [[]|]] eqn:E; [|discriminate].
    assert (K' : step_assigned D c = true /\ assigned_before (m_name (w_mod w)) (note (m_name (w_mod w)) D c) cs = true)
      by (apply andb_prop; exact K).
    destruct K' as [K1 K2]. destruct (cmd_stored D w c w1 E S K1) as (S1 & U1 & W1).
    assert (Nm := run_cmd_name _ _ _ _ E). rewrite <- Nm in *.
    destruct (IH _ _ _ H S1 K2) as (I1 & I2 & ks & es & I3 & I4 & I5 & I6). split; [congruence|].
    set (M := m_name (w_mod w1)) in *. split; [exact I2|].
    set (rest := equations_written M (note M D c) cs) in *.
    assert (Oth : m_eqs (w_mod w1) = m_eqs (w_mod w) -> equations_written M D (c :: cs) = rest ->
      exists ks es, keyed M (w_uids w main_thread) (equations_written M D (c :: cs)) ks /\
        Forall2 says (equations_written M D (c :: cs)) es /\ Forall2 (fun k e => eq_name e = k) ks es /\
        m_eqs (w_mod w') = store_all ks es (m_eqs (w_mod w))).
    { intros E1 ->. exists ks, es. split; [exact (keyed_mono _ _ _ _ I3 _ U1)|]. split; [exact I4|]. split; [exact I5|]. now rewrite I6, E1. }
    destruct c as [a n u ex ty v|a n u v|a n u v|a x u|a|a n q check]; try (apply Oth; [exact W1|reflexivity]). clear Oth.
    destruct W1 as (e & W1 & Ne & Se & Un).
    replace (equations_written M D (CEq a n q check :: cs)) with (read_eq D n q :: rest) by reflexivity.
    assert (St : stored_name w n = full_name (if String.eqb n "" then str_nat (Datatypes.S (w_uids w main_thread)) else n) M)
      by (unfold stored_name; now rewrite Nm).
    exists (stored_name w n :: ks), (e :: es). split; [|split; [constructor; assumption|split; [constructor; assumption|]]].
    + rewrite St. destruct (String.eqb_spec n "") as [->|Hn].
      * apply (keyed_drawn M _ (Datatypes.S (w_uids w main_thread))); [apply read_eq_name|lia|]. exact (keyed_mono _ _ _ _ I3 _ (Un eq_refl)).
      * rewrite <- (read_eq_name D n q) at 2. apply keyed_named; [now rewrite read_eq_name|]. exact (keyed_mono _ _ _ _ I3 _ U1).
    + cbn [store_all]. now rewrite I6, W1.
Qed.

(** ** Everything a successful script uses was assigned *)
Definition full (w : mworld) (D : dict thing) : Prop := forall a l, attr_qty (w_mod w) a = Ok l -> in_dict D a = true.

Lemma resolve_known m D : (forall a l, attr_qty m a = Ok l -> in_dict D a = true) ->
  (forall e e', resolve (attr_qty m) e = Ok e' -> uses_known D e = true) /\
  (forall r r', resolve_args (attr_qty m) r = Ok r' -> uses_known_args D r = true).
Proof.
  intros F. apply uexpr_uargs_ind.
  - intros a e' H. cbn in H. binv. exact (F _ _ Hb).
  - intros o x IHx y IHy e' H. cbn in H. binv. cbn. now rewrite (IHx _ Hb), (IHy _ Hb0).
  - intros o x IHx k e' H. cbn in H. binv. exact (IHx _ Hb).
  - intros o k x IHx e' H. cbn in H. binv. exact (IHx _ Hb).
  - intros g x IHx e' H. cbn in H. binv. exact (IHx _ Hb).
  - reflexivity.
  - intros a [b|] e' H; cbn in H; binv; cbn.
    + now rewrite (F _ _ Hb), (F _ _ Hb0).
    + exact (F _ _ Hb).
  - intros mx r IH e' H. cbn in H. binv. exact (IH _ Hb).
  - reflexivity.
  - intros e IHe r IHr r' H. cbn in H. binv. cbn. now rewrite (IHe _ Hb), (IHr _ Hb0).
  - intros k r IH r' H. cbn in H. binv. exact (IH _ Hb).
Qed.
Lemma resolve_eq_known m D q q' : (forall a l, attr_qty m a = Ok l -> in_dict D a = true) -> resolve_eq (attr_qty m) q = Ok q' -> eq_known D q = true.
Proof.
  intros F H. destruct (resolve_known m D F) as [R _]. destruct q as [x|l r|l k]; cbn [resolve_eq] in H; binv; cbn.
  - exact (R _ _ Hb).
  - now rewrite (R _ _ Hb), (R _ _ Hb0).
  - exact (R _ _ Hb).
Qed.

Lemma in_dict_dset D a t b : in_dict (dset a t D) b = String.eqb b a || in_dict D b.
Proof. unfold in_dict. rewrite dget_dset. destruct (String.eqb b a); reflexivity. Qed.
Lemma in_dict_forget D a b : in_dict (forget a D) b = negb (String.eqb a b) && in_dict D b.
Proof. unfold in_dict. rewrite dget_forget. destruct (String.eqb a b); reflexivity. Qed.

Lemma step_success D w c w' : run_cmd w c = (w', Ok tt) -> full w D -> step_assigned D c = true.
Proof.
  intros H F. destruct c as [a n u ex ty v|a n u v|a n u v|a x u|a|a n q check]; cbn [run_cmd step_assigned] in *; try reflexivity.
  - destruct (attr_qty (w_mod w) a) as [l|] eqn:Ea; [|discriminate]. assert (Fa := F _ _ Ea). destruct x as [k|b]; [exact Fa|].
    destruct (attr_qty (w_mod w) b) as [i|] eqn:Eb; [|discriminate]. now rewrite Fa, (F _ _ Eb).
  - destruct (attr_qty (w_mod w) a) as [l|] eqn:Ea; [|discriminate]. exact (F _ _ Ea).
  - destruct (resolve_eq (attr_qty (w_mod w)) q) as [q'|] eqn:Eq; [|discriminate]. exact (resolve_eq_known _ _ _ _ F Eq).
Qed.

Lemma full_step D w c w' : run_cmd w c = (w', Ok tt) -> full w D -> full w' (note (m_name (w_mod w)) D c).
Proof.
  intros H F. assert (K := step_success _ _ _ _ H F).
  assert (New : forall m a l t h u, m_attrs m = m_attrs (w_mod w) -> full (mkW h u (set_attr m a (AQty l))) (dset a t D)).
  { intros m a l t h u Em b i. cbn [w_mod]. rewrite attr_set, in_dict_dset, String.eqb_sym. destruct (String.eqb b a); [reflexivity|].
    intros A. cbn [orb]. apply (F b i). unfold attr_qty in *. now rewrite <- Em. }
  destruct c as [a n u ex ty v|a n u v|a n u v|a x u|a|a n q check]; cbn [run_cmd note step_assigned] in *.
  - unfold assign_qty, create_variable in H.
    destruct ex; [destruct (String.eqb ty "input"); [|destruct (String.eqb ty "output")]|]; try discriminate H; injection H as <-; apply New; reflexivity.
  - unfold assign_qty, create_parameter in H. injection H as <-. apply New; reflexivity.
  - unfold assign_qty, create_constant in H. injection H as <-. apply New; reflexivity.
  - destruct (attr_qty (w_mod w) a) as [l|] eqn:Ea; [|discriminate].
    destruct (match x with SANum n => _ | SAAttr b => _ end) as [sv|] eqn:Ev; [|discriminate].
    destruct (heap_set_value _ _ _ _) as [h' r]. injection H as <- _.
    assert (Ka : in_dict D a = true) by (destruct x; [exact K|apply andb_prop in K; tauto]).
    assert (Hh : exists k, handed D x = Some k).
    { destruct x as [k|b]; [eexists; reflexivity|]. apply andb_prop in K. destruct K as [_ K]. apply in_dict_some in K. destruct K as [t Et].
      cbn. rewrite Et. eexists; reflexivity. }
    destruct Hh as [k ->]. apply in_dict_some in Ka. destruct Ka as [t Et]. rewrite Et.
    intros b i A. cbn [w_mod] in A. rewrite in_dict_dset. rewrite (F _ _ A). apply Bool.orb_true_r.
  - destruct (attr_qty (w_mod w) a); [|discriminate]. destruct (hget _ _); [|discriminate].
    destruct (qkind_eqb _ _); [|discriminate]. injection H as <-. exact F.
  - destruct (rbind (resolve_eq (attr_qty (w_mod w)) q) (fun q' => build_eq (w_heap w) q')) as [arg|] eqn:Eb; [|discriminate].
    destruct (create_outcome w n arg check) as [u' E]. rewrite E in H. clear E.
    destruct (set_residual _ arg) as [e0 [[]|]] eqn:Er; [|discriminate].
    destruct (eq_expr e0) as [nn|] eqn:En; [|discriminate]. cbv zeta in H.
    destruct check; [destruct (forallb _ _); [|discriminate]|]; injection H as <-;
      intros b i; cbn [w_mod]; rewrite attr_set, in_dict_forget; destruct (String.eqb a b); try discriminate; exact (F b i).
Qed.

Lemma cmds_success cs : forall D w w', run_cmds w cs = (w', Ok tt) -> full w D -> 
  assigned_before (m_name (w_mod w)) D cs = true /\ full w' (read_all (m_name (w_mod w)) D cs).
Proof.
  induction cs as [|c cs IH]; intros D w w' H F.
  - cbn [run_cmds] in H. injection H as <-. split; [reflexivity|exact F].
  - cbn [run_cmds] in H. destruct (run_cmd w c) as [w1 [[]|]] eqn:E; [|discriminate].
    assert (Nm := run_cmd_name _ _ _ _ E).
    destruct (IH _ _ _ H (full_step _ _ _ _ E F)) as [A B]. rewrite Nm in A, B.
    split; [|exact B]. assert (K := step_success _ _ _ _ E F).
    change (step_assigned D c && assigned_before (m_name (w_mod w)) (note (m_name (w_mod w)) D c) cs = true). now rewrite K, A.
Qed.

(** ** Pictures *)
Lemma pictures_stands D w : pictures D w -> stands w D /\ full w D.
Proof.
  intros [P1 P2 P3]. split.
  - constructor.
    + intros a t Ha. apply P1 in Ha. destruct Ha as (l & q & A & E & ->). exists l, q. auto.
    + intros a b l _ _. apply P3.
  - intros a l A. destruct (P2 a l A) as [q E]. assert (X : dget a D = Some (mkThing (q_name q) (q_value q) (q_spec q))) by (apply P1; exists l, q; auto).
    unfold in_dict. now rewrite X.
Qed.
Lemma stands_pictures D w : stands w D -> full w D -> pictures D w.
Proof.
  intros [S1 S2] F. 
  assert (T : forall a l, attr_qty (w_mod w) a = Ok l -> exists t q, dget a D = Some t /\ hget (w_heap w) l = Some q /\ t = mkThing (q_name q) (q_value q) (q_spec q)).
  { intros a l A. destruct (in_dict_some _ _ (F a l A)) as [t Et]. destruct (S1 a t Et) as (l' & q & A' & E & N & V & S).
    assert (l' = l) by congruence. subst l'. exists t, q. split; [exact Et|]. split; [exact E|]. destruct t. cbn in *. now subst. }
  constructor.
  - intros a t. split.
    + intros Ha. destruct (S1 a t Ha) as (l & q & A & E & N & V & S). exists l, q. split; [exact A|]. split; [exact E|]. destruct t. cbn in *. now subst.
    + intros (l & q & A & E & ->). destruct (T a l A) as (t & q' & Et & E' & ->). congruence.
  - intros a l A. destruct (T a l A) as (t & q & _ & E & _). eauto.
  - intros a b l A B. apply (S2 a b l); try assumption.
    + destruct (T a l A) as (t & q & Et & _). congruence.
    + destruct (T b l B) as (t & q & Et & _). congruence.
Qed.

Lemma pictures_new h u M : pictures [] (mkW h u (new_model M)).
Proof. constructor; cbn; [|discriminate|discriminate]. intros a t. split; [discriminate|]. intros (l & q & A & _). discriminate. Qed.

Lemma call_stored d D w w' : model_call d w = (w', Ok tt) -> pictures D w ->
  pictures (read_all (m_name (w_mod w)) D (script d)) w' /\
  exists ks es, keyed (m_name (w_mod w)) (w_uids w main_thread) (equations_written (m_name (w_mod w)) D (script d)) ks /\
    Forall2 says (equations_written (m_name (w_mod w)) D (script d)) es /\ Forall2 (fun k e => eq_name e = k) ks es /\
    m_eqs (w_mod w') = store_all ks es (m_eqs (w_mod w)).
Proof.
  intros H P. destruct (pictures_stands _ _ P) as [S F]. change (run_cmds w (script d) = (w', Ok tt)) in H.
  destruct (cmds_success _ _ _ _ H F) as [K F']. destruct (cmds_stored _ _ _ _ H S K) as (_ & S' & R).
  split; [now apply stands_pictures|exact R].
Qed.

Lemma call_assigned d D w w' : model_call d w = (w', Ok tt) -> pictures D w -> assigned_before (m_name (w_mod w)) D (script d) = true.
Proof. intros H P. destruct (pictures_stands _ _ P) as [S F]. exact (proj1 (cmds_success _ _ _ _ H F)). Qed.

(** ** Equations nothing replaces *)
Lemma dget_store_other k : forall ks es d, ~ In k ks -> dget k (store_all ks es d) = dget k d.
Proof.
  induction ks as [|k0 ks IH]; intros [|e es] d N; cbn [store_all]; try reflexivity. rewrite IH by (intros X; apply N; now right).
  rewrite dget_dset. destruct (String.eqb_spec k k0) as [->|]; [exfalso; apply N; now left|reflexivity].
Qed.

Lemma keyed_keys M u xs ks : keyed M u xs ks -> forall k, In k ks ->
  exists x, In x xs /\ (wr_name x <> "" /\ k = full_name (wr_name x) M \/ wr_name x = "" /\ exists n, (u < n)%nat /\ k = full_name (str_nat n) M).
Proof.
  induction 1 as [u|u x xs ks N K IH|u n x xs ks N L K IH]; intros k Hk; [destruct Hk| |]; destruct Hk as [<-|Hk].
  - exists x. split; [now left|]. now left.
  - destruct (IH k Hk) as (y & Hy & R). exists y. split; [now right|exact R].
  - exists x. split; [now left|]. right. split; [exact N|]. exists n. split; [exact L|reflexivity].
  - destruct (IH k Hk) as (y & Hy & R). exists y. split; [now right|]. destruct R as [R|(R1 & m & R2 & R3)]; [now left|].
    right. split; [exact R1|]. exists m. split; [lia|exact R3].
Qed.

Lemma lasting_stored M x post : lasting x post -> forall pre u ks es d,
  keyed M u (pre ++ x :: post) ks -> Forall2 says (pre ++ x :: post) es -> Forall2 (fun k e => eq_name e = k) ks es ->
  exists k e, dget k (store_all ks es d) = Some e /\ eq_name e = k /\ says x e /\ (wr_name x <> "" -> k = full_name (wr_name x) M).
Proof.
  intros (L1 & L2 & L3). induction pre as [|y pre IH]; intros u ks es d K S E.
  - cbn [app] in *. inversion S as [|x0 e xs0 es' Se Ses]; subst.
    assert (F : exists v k ks', ks = k :: ks' /\ keyed M v post ks' /\
      (wr_name x <> "" /\ k = full_name (wr_name x) M \/ wr_name x = "" /\ k = full_name (str_nat v) M)).
    { inversion K as [|u0 x0 xs0 ks' N K'|u0 n x0 xs0 ks' N L K']; subst.
      - exists u, (full_name (wr_name x) M), ks'. split; [reflexivity|]. split; [exact K'|]. now left.
      - exists n, (full_name (str_nat n) M), ks'. split; [reflexivity|]. split; [exact K'|]. now right. }
    destruct F as (v & k & ks' & -> & K' & C). inversion E as [|k0 e0 ks0 es0 Ek Es]; subst.
    exists (eq_name e), e. split; [|split; [reflexivity|split; [exact Se|]]].
    + cbn [store_all]. rewrite dget_store_other; [rewrite dget_dset, String.eqb_refl; reflexivity|].
      intros Hk. destruct (keyed_keys _ _ _ _ K' _ Hk) as (y & Hy & [[Ny Ey]|(Ny & n & Ln & Ey)]).
      * destruct C as [[Nx Ex]|[Nx Ex]]; rewrite Ex in Ey; apply full_name_cancel in Ey.
        -- exact (L1 Nx y Hy (eq_sym Ey)).
        -- exact (L3 Nx y v Hy (eq_sym Ey)).
      * destruct C as [[Nx Ex]|[Nx Ex]]; rewrite Ex in Ey; apply full_name_cancel in Ey.
        -- exact (L2 n Ey y Hy Ny).
        -- apply str_nat_inj in Ey. lia.
    + intros Nx. destruct C as [[_ Ex]|[Nx' _]]; [exact Ex|contradiction].
  - cbn [app] in *. inversion S as [|x0 e xs0 es' Se Ses]; subst.
    assert (F : exists v k ks', ks = k :: ks' /\ keyed M v (pre ++ x :: post) ks').
    { inversion K; subst; eexists _, _, _; split; try reflexivity; eassumption. }
    destruct F as (v & k & ks' & -> & K'). inversion E as [|k0 e0 ks0 es0 Ek Es]; subst. cbn [store_all]. exact (IH v ks' es' _ K' Ses Es).
Qed.

Lemma block_stored acts s b i M d pre x post : resolved acts s b -> distinct_models acts -> nth_error (created acts) i = Some (M, d) ->
  In i (added acts) -> assigned_before M [] (script d) = true -> written_by M d = pre ++ x :: post -> lasting x post ->
  exists e, In e (b_eqs b) /\ says x e /\ (wr_name x <> "" -> eq_name e = full_name (wr_name x) M).
Proof.
  intros R D Ci Hi L W Hx. assert (Hi' := member_added _ _ _ _ R D Hi).
  destruct (resolved_reload _ _ _ R) as [Rl ND]. destruct (reload_calls _ _ _ Rl ND) as [_ B].
  destruct (B i Hi') as (m0 & d0 & h & u & w1 & G0 & F & G1).
  destruct (created_model _ _ _ _ Ci) as (m & Gm & N). assert (E : Some (m, d) = Some (m0, d0)) by congruence. injection E as <- <-.
  assert (L' : assigned_before (m_name (w_mod (mkW h u m))) [] (script d) = true) by (cbn [w_mod]; now rewrite N).
  destruct (cmds_stored (script d) [] (mkW h u m) w1 F (stands_nil _) L') as (N1 & _ & ks & es & K1 & K2 & K3 & K4).
  cbn [w_mod w_uids] in *. rewrite N in *. unfold written_by in W. rewrite W in *.
  destruct (lasting_stored M x post Hx pre _ ks es (m_eqs m) K1 K2 K3) as (k & e & Ee & Ne & Se & Nk).
  exists e. split; [|split; [exact Se|intros Nx; rewrite Ne; now apply Nk]].
  rewrite <- K4 in Ee. exact (member_equations _ _ _ _ _ _ R Hi' G1 _ _ Ee).
Qed.

Lemma call_lasting d D w w' pre x post : model_call d w = (w', Ok tt) -> pictures D w ->
  equations_written (m_name (w_mod w)) D (script d) = pre ++ x :: post -> lasting x post ->
  exists k e, dget k (m_eqs (w_mod w')) = Some e /\ eq_name e = k /\ says x e /\ (wr_name x <> "" -> k = full_name (wr_name x) (m_name (w_mod w))).
Proof.
  intros H P W L. destruct (call_stored _ _ _ _ H P) as (_ & ks & es & K1 & K2 & K3 & K4). rewrite W in *. rewrite K4.
  exact (lasting_stored _ _ _ L _ _ _ _ _ K1 K2 K3).
Qed.
