(** Evaluations do not depend on earlier ones (C73). *)
From Verif Require Import Base BaseFacts Num NumFacts UnitModel UnitFacts Sympy Node Build EquationModel ModelModel ProblemModel
  SpecUnits SpecExpr SpecModel SpecInc SpecCall SpecProblem SpecWritten SpecRepeat QtyFacts ModelFacts IncFacts CallFacts ProblemFacts SessionFacts
  WrittenFacts RepeatFacts SpecEval.
Notation num := Verif.Num.num.

Lemma dict_ext {V} (d d' : dict V) : NoDup (dkeys d) -> dkeys d' = dkeys d -> (forall k, dget k d' = dget k d) -> d' = d.
Proof.
  revert d'. induction d as [|[k v] d IH]; intros [|[k' v'] d'] ND K G; try discriminate; [reflexivity|].
  cbn [dkeys map fst] in *. injection K as E0 K. subst k'. apply NoDup_cons_iff in ND. destruct ND as [N ND].
  pose proof (G k) as E. cbn [dget] in E. rewrite String.eqb_refl in E. injection E as ->. f_equal.
  apply IH; [exact ND|exact K|]. intros y. specialize (G y). cbn [dget] in G. destruct (String.eqb_spec y k) as [Ey|Ny]; [|exact G].
  rewrite Ey, (proj2 (dget_none_iff k d')), (proj2 (dget_none_iff k d)); [reflexivity|exact N|]. unfold dkeys. now rewrite K.
Qed.

(** ** Scripts that write equations *)
Definition is_eq (c : cmd) : bool := match c with CEq _ n _ _ => negb (String.eqb n "") | _ => false end.
Definition eq_attrs (cs : list cmd) : list string := flat_map (fun c => match c with CEq a _ _ _ => [a] | _ => [] end) cs.
Definition put (m : mstate) (a k : string) (e : eqn) : mstate := set_attr (with_eqs m (dset k e (m_eqs m))) a (AEqn e).

(** Models that may differ in the equations of [K] and the attributes [A], which
    hold equations. *)
Record rm (K A : list string) (m m' : mstate) : Prop := mkRM {
  rm_name : m_name m' = m_name m; rm_vars : m_vars m' = m_vars m; rm_pars : m_pars m' = m_pars m; rm_cons : m_cons m' = m_cons m;
  rm_in : m_in m' = m_in m; rm_out : m_out m' = m_out m;
  rm_keys : dkeys (m_eqs m') = dkeys (m_eqs m); rm_nodup : NoDup (dkeys (m_eqs m));
  rm_eqs : forall k, ~ In k K -> dget k (m_eqs m') = dget k (m_eqs m);
  rm_attrs : forall a, ~ In a A -> dget a (m_attrs m') = dget a (m_attrs m);
  rm_held : forall a, In a A -> (exists e, dget a (m_attrs m) = Some (AEqn e)) /\ exists e, dget a (m_attrs m') = Some (AEqn e) }.

Lemma rm_attr K A m m' a : rm K A m m' -> attr_qty m' a = attr_qty m a.
Proof.
  intros R. unfold attr_qty. destruct (in_dec string_dec a A) as [H|H].
  - destruct (rm_held _ _ _ _ R a H) as [[e ->] [e' ->]]. reflexivity.
  - now rewrite (rm_attrs _ _ _ _ R a H).
Qed.

Lemma resolve_ext {X B} (f g : X -> res B) (E : forall a, f a = g a) : forall q : ueq X, resolve_eq f q = resolve_eq g q.
Proof.
  assert (Y : (forall e, resolve f e = resolve g e) /\ (forall r, resolve_args f r = resolve_args g r)).
  { apply uexpr_uargs_ind.
    - intros a. cbn [resolve]. now rewrite E.
    - intros o x Hx y Hy. cbn [resolve]. now rewrite Hx, Hy.
    - intros o x Hx k. cbn [resolve]. now rewrite Hx.
    - intros o k x Hx. cbn [resolve]. now rewrite Hx.
    - intros h x Hx. cbn [resolve]. now rewrite Hx.
    - reflexivity.
    - intros a [t|]; cbn [resolve]; now rewrite ?E.
    - intros mx l Hl. change (resolve f (UMinMax mx l)) with (rbind (resolve_args f l) (fun l' => Ok (UMinMax mx l'))).
      now rewrite Hl.
    - reflexivity.
    - intros x Hx l Hl. cbn [resolve_args].
      change (rbind (resolve f x) (fun x' => rbind (resolve_args f l) (fun l' => Ok (AExpr x' l'))) =
              rbind (resolve g x) (fun x' => rbind (resolve_args g l) (fun l' => Ok (AExpr x' l')))).
      now rewrite Hx, Hl.
    - intros k l Hl. change (resolve_args f (ANum k l)) with (rbind (resolve_args f l) (fun l' => Ok (ANum k l'))). now rewrite Hl. }
  destruct Y as [Y _]. intros []; cbn [resolve_eq]; rewrite ?Y; reflexivity.
Qed.

Lemma eq_shape w a n q chk w' r : n <> "" -> run_cmd w (CEq a n q chk) = (w', r) ->
  w_heap w' = w_heap w /\
  ((r = Ok tt /\ exists e, w_mod w' = put (w_mod w) a (full_name n (m_name (w_mod w))) e) \/
   ((exists x, r = Raise x) /\ w_mod w' = w_mod w)).
Proof.
  intros Nn H. destruct w as [h u m]. cbn [run_cmd w_heap w_mod w_uids] in *.
  destruct (rbind (resolve_eq (attr_qty m) q) _) as [arg|x]; [|injection H as <- <-; split; [reflexivity|right; split; [eexists; reflexivity|reflexivity]]].
  destruct (create_outcome (mkW h u m) n arg chk) as [u' E]. rewrite E in H.
  assert (F : forall x w1, (mkW h u' m, Raise x) = (w1, r) -> w_heap w1 = h /\
     ((r = Ok tt /\ exists e, w_mod w1 = put m a (full_name n (m_name m)) e) \/ ((exists x, r = Raise x) /\ w_mod w1 = m))).
  { intros x w1 X. injection X as <- <-. split; [reflexivity|right; split; [eexists; reflexivity|reflexivity]]. }
  destruct (set_residual _ arg) as [e [[]|]]; [|exact (F _ _ H)]. destruct (eq_expr e) as [nn|]; [|exact (F _ _ H)]. cbv zeta in H.
  rewrite (stored_named (mkW h u m) n Nn) in H. cbn [w_mod w_heap] in H.
  destruct chk; [destruct (forallb _ _); [|exact (F _ _ H)]|]; injection H as <- <-; (split; [reflexivity|left; split; [reflexivity|eexists; reflexivity]]).
Qed.

Lemma eq_pair K A h u u' m m' a n q chk w1 r : rm K A m m' -> n <> "" ->
  run_cmd (mkW h u m) (CEq a n q chk) = (w1, r) ->
  exists w1', run_cmd (mkW h u' m') (CEq a n q chk) = (w1', r) /\ w_heap w1 = h /\ w_heap w1' = h /\
   (r = Ok tt -> exists e, w_mod w1 = put m a (full_name n (m_name m)) e /\ w_mod w1' = put m' a (full_name n (m_name m)) e).
Proof.
  intros R Nn H. cbn [run_cmd w_heap w_mod w_uids] in *.
  rewrite (resolve_ext (attr_qty m') (attr_qty m)) by (intros x; exact (rm_attr _ _ _ _ x R)).
  destruct (rbind (resolve_eq (attr_qty m) q) _) as [arg|x].
  2: { injection H as <- <-. eexists; split; [reflexivity|]. repeat split; discriminate. }
  destruct (create_outcome (mkW h u m) n arg chk) as [v E]. rewrite E in H. clear E.
  destruct (create_outcome (mkW h u' m') n arg chk) as [v' E']. rewrite E'. clear E'.
  rewrite (stored_named (mkW h u m) n Nn) in H. rewrite (stored_named (mkW h u' m') n Nn). cbn [w_mod w_heap w_uids] in *.
  destruct (String.eqb_spec n "") as [X|_]; [contradiction|]. rewrite (rm_name _ _ _ _ R).
  destruct (set_residual _ arg) as [e [[]|]].
  2: { injection H as <- <-. eexists; split; [reflexivity|]. repeat split; discriminate. }
  destruct (eq_expr e) as [nn|].
  2: { injection H as <- <-. eexists; split; [reflexivity|]. repeat split; discriminate. }
  cbv zeta in *. unfold declared in *. rewrite (rm_vars _ _ _ _ R), (rm_pars _ _ _ _ R), (rm_cons _ _ _ _ R).
  destruct chk; [destruct (forallb _ _)|].
  2: { injection H as <- <-. eexists; split; [reflexivity|]. repeat split; discriminate. }
  all: injection H as <- <-; eexists; split; [reflexivity|]; cbn [w_heap w_mod]; repeat split; intros _; eexists; split; reflexivity.
Qed.

Lemma put_single K A m0 m a k e : rm K A m0 m -> In k K -> In k (dkeys (m_eqs m0)) -> In a A -> rm K A m0 (put m a k e).
Proof.
  intros [N V P C I O Ky ND Q At H] Hk Hd Ha. unfold put, set_attr, with_attrs, with_eqs. constructor; cbn [m_name m_vars m_pars m_cons m_eqs m_in m_out m_attrs]; auto.
  - rewrite dkeys_dset_in; [exact Ky|]. now rewrite Ky.
  - intros x Hx. rewrite dget_dset_neq by (intros ->; contradiction). now apply Q.
  - intros x Hx. rewrite dget_dset_neq by (intros ->; contradiction). now apply At.
  - intros x Hx. destruct (H x Hx) as [H1 H2]. split; [exact H1|]. rewrite dget_dset. destruct (String.eqb x a); [eexists; reflexivity|exact H2].
Qed.

Lemma put_pair K A m m' a k e : rm (k :: K) (a :: A) m m' -> In k (dkeys (m_eqs m)) -> rm K A (put m a k e) (put m' a k e).
Proof.
  intros [N V P C I O Ky ND Q At H] Hd. unfold put, set_attr, with_attrs, with_eqs. constructor; cbn [m_name m_vars m_pars m_cons m_eqs m_in m_out m_attrs]; auto.
  - rewrite !dkeys_dset_in; [exact Ky|exact Hd|]. now rewrite Ky.
  - now rewrite dkeys_dset_in.
  - intros x Hx. rewrite !dget_dset. destruct (String.eqb_spec x k) as [E|E]; [reflexivity|]. apply Q. intros [X|X]; congruence.
  - intros x Hx. rewrite !dget_dset. destruct (String.eqb_spec x a) as [E|E]; [reflexivity|]. apply At. intros [X|X]; congruence.
  - intros x Hx. rewrite !dget_dset. destruct (String.eqb x a); [split; eexists; reflexivity|]. apply H. now right.
Qed.

Lemma put_name m a k e : m_name (put m a k e) = m_name m.
Proof. reflexivity. Qed.

(** ** Calls *)
Lemma call_single cs : forall K A m0 w w' r, forallb is_eq cs = true -> rm K A m0 (w_mod w) ->
  incl (eq_keys (m_name m0) cs) K -> incl (eq_attrs cs) A -> incl K (dkeys (m_eqs m0)) -> run_cmds w cs = (w', r) ->
  w_heap w' = w_heap w /\ rm K A m0 (w_mod w').
Proof.
  induction cs as [|c cs IH]; intros K A m0 w w' r He R Ik Ia Id H; cbn [run_cmds forallb] in *.
  - injection H as <- <-. auto.
  - apply andb_prop in He. destruct He as [Hc He]. destruct c as [| | | | |a n q chk]; try discriminate Hc. cbn [is_eq] in Hc.
    assert (Nn : n <> "") by (intros ->; discriminate Hc).
    change (eq_keys (m_name m0) (CEq a n q chk :: cs)) with (full_name n (m_name m0) :: eq_keys (m_name m0) cs) in Ik.
    change (eq_attrs (CEq a n q chk :: cs)) with (a :: eq_attrs cs) in Ia.
    destruct (run_cmd w (CEq a n q chk)) as [w1 r1] eqn:E. destruct (eq_shape _ _ _ _ _ _ _ Nn E) as [Hh [[-> [e Em]]|[[x ->] Em]]].
    + rewrite <- Hh. apply IH with (K := K) (A := A) (r := r); auto.
      * rewrite Em, (rm_name _ _ _ _ R). assert (Hk : In (full_name n (m_name m0)) K) by (apply Ik; now left).
        apply put_single; auto. apply Ia. now left.
      * intros y Hy. apply Ik. now right.
      * intros y Hy. apply Ia. now right.
    + injection H as <- <-. rewrite Em. auto.
Qed.

Lemma call_pair cs : forall K A h u u' m m' w1 r, forallb is_eq cs = true ->
  rm (eq_keys (m_name m) cs ++ K) (eq_attrs cs ++ A) m m' -> incl (eq_keys (m_name m) cs) (dkeys (m_eqs m)) ->
  run_cmds (mkW h u m) cs = (w1, r) ->
  exists w1', run_cmds (mkW h u' m') cs = (w1', r) /\ w_heap w1 = h /\ w_heap w1' = h /\ (r = Ok tt -> rm K A (w_mod w1) (w_mod w1')).
Proof.
  induction cs as [|c cs IH]; intros K A h u u' m m' w1 r He R Id H; cbn [run_cmds forallb] in *.
  - injection H as <- <-. exists (mkW h u' m'). auto.
  - apply andb_prop in He. destruct He as [Hc He]. destruct c as [| | | | |a n q chk]; try discriminate Hc. cbn [is_eq] in Hc.
    assert (Nn : n <> "") by (intros ->; discriminate Hc).
    change (eq_keys (m_name m) (CEq a n q chk :: cs)) with (full_name n (m_name m) :: eq_keys (m_name m) cs) in *.
    change (eq_attrs (CEq a n q chk :: cs)) with (a :: eq_attrs cs) in *. cbn [app] in R.
    destruct (run_cmd (mkW h u m) (CEq a n q chk)) as [w2 r2] eqn:E.
    destruct (eq_pair _ _ _ _ u' _ _ _ _ _ _ _ _ R Nn E) as (w2' & E' & Hh & Hh' & Ok2). rewrite E'.
    destruct r2 as [[]|x].
    + destruct (Ok2 eq_refl) as (e & Em & Em'). destruct w2 as [h2 u2 m2], w2' as [h2' u2' m2']. cbn [w_heap w_mod] in *. subst h2 h2' m2 m2'.
      refine (IH K A h u2 u2' (put m a (full_name n (m_name m)) e) _ _ _ He _ _ H).
      * rewrite put_name. apply put_pair; [exact R|]. apply Id. now left.
      * rewrite put_name. unfold put, set_attr, with_attrs, with_eqs. cbn [m_eqs]. rewrite dkeys_dset_in by (apply Id; now left).
        intros y Hy. apply Id. now right.
    + injection H as <- <-. exists w2'. split; [reflexivity|]. split; [exact Hh|]. split; [exact Hh'|]. discriminate.
Qed.

(** A call that returned left all its equations and attributes. *)
Lemma call_left cs : forall w w', forallb is_eq cs = true -> run_cmds w cs = (w', Ok tt) ->
  incl (eq_keys (m_name (w_mod w)) cs) (dkeys (m_eqs (w_mod w'))) /\ incl (dkeys (m_eqs (w_mod w))) (dkeys (m_eqs (w_mod w'))) /\
  m_name (w_mod w') = m_name (w_mod w) /\
  (forall a, In a (eq_attrs cs) \/ (exists e, dget a (m_attrs (w_mod w)) = Some (AEqn e)) -> exists e, dget a (m_attrs (w_mod w')) = Some (AEqn e)).
Proof.
  induction cs as [|c cs IH]; intros w w' He H; cbn [run_cmds forallb] in *.
  - injection H as <-. split; [intros x []|]. split; [apply incl_refl|]. split; [reflexivity|]. intros a [[]|Ha]. exact Ha.
  - apply andb_prop in He. destruct He as [Hc He]. destruct c as [| | | | |a n q chk]; try discriminate Hc. cbn [is_eq] in Hc.
    assert (Nn : n <> "") by (intros ->; discriminate Hc).
    change (eq_keys (m_name (w_mod w)) (CEq a n q chk :: cs)) with (full_name n (m_name (w_mod w)) :: eq_keys (m_name (w_mod w)) cs).
    change (eq_attrs (CEq a n q chk :: cs)) with (a :: eq_attrs cs).
    destruct (run_cmd w (CEq a n q chk)) as [w1 r1] eqn:E. destruct (eq_shape _ _ _ _ _ _ _ Nn E) as [Hh [[-> [e Em]]|[[x ->] Em]]]; [|discriminate].
    destruct (IH _ _ He H) as (B1 & B2 & B3 & B4). rewrite Em in *. rewrite put_name in *.
    unfold put, set_attr, with_attrs, with_eqs in B2, B4. cbn [m_eqs m_attrs] in B2, B4. repeat split.
    + intros y [<-|Hy]; [|exact (B1 y Hy)]. apply B2. apply in_dkeys_dset. now left.
    + intros y Hy. apply B2. apply in_dkeys_dset. now right.
    + exact B3.
    + intros y Hy. apply B4. destruct Hy as [[Hy|Hy]|[f Hy]]; [subst y|now left|].
      * right. exists e. apply dget_dset_eq.
      * right. rewrite dget_dset. destruct (String.eqb y a); eexists; [reflexivity|exact Hy].
Qed.

(** ** Worlds *)
Definition hr (T : list loc) (h h' : heap) : Prop :=
  List.length h' = List.length h /\
  forall l, option_map (fun q => set_qvalue q (PInt 0)) (hget h' l) = option_map (fun q => set_qvalue q (PInt 0)) (hget h l) /\
            (~ In l T -> hget h' l = hget h l).
Definition differs := nat -> list string * list string.
Definition mr (D : differs) (w w' : pworld) : Prop :=
  forall i, match get_model w i, get_model w' i with
            | Some (m, d), Some (m', d') => d' = d /\ rm (fst (D i)) (snd (D i)) m m' /\ incl (fst (D i)) (dkeys (m_eqs m))
            | None, None => True
            | _, _ => False
            end.

Lemma mr_get D w w' i m d : mr D w w' -> get_model w i = Some (m, d) ->
  exists m', get_model w' i = Some (m', d) /\ rm (fst (D i)) (snd (D i)) m m' /\ incl (fst (D i)) (dkeys (m_eqs m)).
Proof.
  intros M G. specialize (M i). rewrite G in M. destruct (get_model w' i) as [[m' d']|]; [|contradiction].
  destruct M as (-> & R & I). exists m'. auto.
Qed.

Lemma mr_get' D w w' i m' d : mr D w w' -> get_model w' i = Some (m', d) ->
  exists m, get_model w i = Some (m, d) /\ rm (fst (D i)) (snd (D i)) m m' /\ incl (fst (D i)) (dkeys (m_eqs m)).
Proof.
  intros M G. specialize (M i). rewrite G in M. destruct (get_model w i) as [[m d']|]; [|contradiction].
  destruct M as (-> & R & I). exists m. auto.
Qed.

Lemma mr_none D w w' i : mr D w w' -> get_model w i = None -> get_model w' i = None.
Proof. intros M G. specialize (M i). rewrite G in M. destruct (get_model w' i) as [[m' d']|]; [contradiction|reflexivity]. Qed.

(** The models called write what the relation leaves open. *)
Definition covers (D : differs) (is : list nat) (w : pworld) : Prop :=
  forall i m d, In i is -> get_model w i = Some (m, d) -> forallb is_eq (script d) = true /\
    D i = (eq_keys (m_name m) (script d), eq_attrs (script d)).

Lemma reload_single is : forall D w0 w w' r, mr D w0 w -> covers D is w0 -> reload w is = (w', r) ->
  pw_heap w' = pw_heap w /\ mr D w0 w'.
Proof.
  induction is as [|i is IH]; intros D w0 w w' r M C H; cbn [reload] in H.
  - injection H as <- <-. auto.
  - destruct (on_model w i model_call) as [w1 r1] eqn:E.
    assert (X : pw_heap w1 = pw_heap w /\ mr D w0 w1).
    { apply on_model_spec in E. destruct E as [(_ & -> & _)|(m & d & w2 & G & F & Hh & G2 & Go & _)]; [auto|].
      destruct (mr_get' _ _ _ _ _ _ M G) as (m0 & G0 & R & I). destruct (C i m0 d (or_introl eq_refl) G0) as [Ie Ed]. rewrite Ed in R, I. cbn [fst snd] in R, I.
      destruct (call_single (script d) _ _ _ (mkW (pw_heap w) (pw_uids w) m) _ _ Ie R (incl_refl _) (incl_refl _) I F) as [Hh2 R2]. split; [now rewrite Hh, Hh2|].
      intros j. destruct (Nat.eq_dec j i) as [->|Nj].
      - rewrite G0, G2, Ed. split; [reflexivity|]. split; [exact R2|exact I].
      - rewrite (Go j Nj). exact (M j). }
    destruct X as [Xh Xm]. destruct r1 as [[]|x].
    + rewrite <- Xh. apply (IH D w0 w1 w' r Xm); [|exact H]. intros j m d Hj. apply C. now right.
    + injection H as <- <-. auto.
Qed.

Definition undo (D : differs) (is : list nat) : differs := fun j => if in_dec Nat.eq_dec j is then ([], []) else D j.

Lemma reload_pair is : forall D w w' w1 r, NoDup is -> mr D w w' -> pw_heap w' = pw_heap w -> covers D is w -> reload w is = (w1, r) ->
  exists w1', reload w' is = (w1', r) /\ (r = Ok tt -> pw_heap w1' = pw_heap w1 /\ mr (undo D is) w1 w1').
Proof.
  induction is as [|i is IH]; intros D w w' w1 r ND M Hw C H; cbn [reload] in *.
  - injection H as <- <-. exists w'. split; [reflexivity|]. auto.
  - apply NoDup_cons_iff in ND. destruct ND as [Ni ND].
    destruct (on_model w i model_call) as [w2 r2] eqn:E. destruct (on_model w' i model_call) as [w2' r2'] eqn:E'.
    apply on_model_spec in E. destruct E as [(G & -> & ->)|(m & d & v & G & F & Hh & G2 & Go & _)].
    { apply on_model_spec in E'. rewrite (mr_none _ _ _ _ M G) in E'. destruct E' as [(_ & -> & ->)|(m & d & v & G' & _)]; [|discriminate].
      injection H as <- <-. exists w'. split; [reflexivity|discriminate]. }
    destruct (mr_get _ _ _ _ _ _ M G) as (m' & G' & R & I). destruct (C i m d (or_introl eq_refl) G) as [Ie Ed].
    pose proof R as R0. rewrite Ed in R, I. cbn [fst snd] in R, I.
    assert (R' : rm (eq_keys (m_name m) (script d) ++ []) (eq_attrs (script d) ++ []) m m') by (rewrite !app_nil_r; exact R).
    destruct (call_pair (script d) [] [] _ _ (pw_uids w') _ _ _ _ Ie R' I F) as (v' & F' & Hv & Hv' & Ov).
    apply on_model_spec in E'. destruct E' as [(G'' & _ & _)|(m'' & d'' & v'' & G'' & F'' & Hh' & G2' & Go' & _)]; [congruence|].
    rewrite G' in G''. injection G'' as <- <-. rewrite Hw in F''. unfold model_call in F''.
    assert (Ev : (v', r2) = (v'', r2')) by (rewrite <- F', <- F''; reflexivity). injection Ev as <- <-.
    destruct r2 as [[]|x]; [|injection H as <- <-; exists w2'; split; [reflexivity|discriminate]].
    specialize (Ov eq_refl).
    assert (M2 : mr (undo D [i]) w2 w2').
    { intros j. unfold undo. destruct (in_dec Nat.eq_dec j [i]) as [[<-|[]]|Nj].
      - rewrite G2, G2'. split; [reflexivity|]. split; [exact Ov|intros x []].
      - assert (j <> i) by (intros ->; apply Nj; now left). rewrite (Go j), (Go' j) by assumption. exact (M j). }
    assert (Hw2 : pw_heap w2' = pw_heap w2) by congruence.
    assert (C2 : covers (undo D [i]) is w2).
    { intros j mj dj Hj Gj. assert (j <> i) by (intros ->; contradiction). rewrite (Go j) in Gj by assumption.
      unfold undo. destruct (in_dec Nat.eq_dec j [i]) as [[X|[]]|_]; [congruence|]. apply C; [now right|exact Gj]. }
    destruct (IH _ _ _ _ _ ND M2 Hw2 C2 H) as (w1' & Rl & Q). exists w1'. split; [exact Rl|]. intros Er. destruct (Q Er) as [Q1 Q2].
    split; [exact Q1|]. intros j. specialize (Q2 j). unfold undo in *. cbn [In] in *.
    destruct (get_model w1 j) as [[a b]|], (get_model w1' j) as [[a' b']|]; try exact Q2.
    destruct (in_dec Nat.eq_dec j is) as [Hj|Hj]; destruct (in_dec Nat.eq_dec j (i :: is)) as [Hj2|Hj2]; try exact Q2.
    + exfalso. apply Hj2. now right.
    + destruct (in_dec Nat.eq_dec j [i]) as [_|X]; [exact Q2|]. exfalso. destruct Hj2 as [->|Hj2]; [apply X; now left|contradiction].
    + destruct (in_dec Nat.eq_dec j [i]) as [[->|[]]|_]; [|exact Q2]. exfalso. apply Hj2. now left.
Qed.

Lemma all_equations_same w w' : (forall i, option_map (fun md => m_eqs (fst md)) (get_model w' i) = option_map (fun md => m_eqs (fst md)) (get_model w i)) ->
  forall is, all_equations w' is = all_equations w is.
Proof.
  intros E is. induction is as [|i is IH]; [reflexivity|]. cbn [all_equations]. rewrite IH. specialize (E i).
  destruct (get_model w i) as [[m d]|], (get_model w' i) as [[m' d']|]; try discriminate E; [|reflexivity].
  cbn [option_map fst] in E. injection E as ->. reflexivity.
Qed.

Definition unblocked (p : problem) : problem := mkP (pr_models p) (pr_conns p) (pr_vars p) (pr_pars p) None (pr_time p) (pr_init p).
Lemma unblocked_with p b : unblocked (with_block p b) = unblocked p.
Proof. reflexivity. Qed.
Lemma unblocked_models p p' : unblocked p' = unblocked p -> pr_models p' = pr_models p.
Proof. intros E. exact (f_equal pr_models E). Qed.

Lemma build_same w w' p p' : pw_heap w' = pw_heap w ->
  (forall i, option_map (fun md => m_eqs (fst md)) (get_model w' i) = option_map (fun md => m_eqs (fst md)) (get_model w i)) ->
  unblocked p' = unblocked p -> build_block w' p' = build_block w p.
Proof.
  intros Hh E U. unfold build_block. rewrite (unblocked_models _ _ U), (all_equations_same _ _ E), Hh.
  assert (Vs : pr_vars p' = pr_vars p) by exact (f_equal pr_vars U). assert (Ps : pr_pars p' = pr_pars p) by exact (f_equal pr_pars U).
  now rewrite Vs, Ps.
Qed.

Lemma with_block_same p p' b : unblocked p' = unblocked p -> with_block p' b = with_block p b.
Proof. intros U. exact (f_equal (fun q => with_block q b) U). Qed.

Lemma rm_equal m m' : rm [] [] m m' -> same_model m m'.
Proof.
  intros R. repeat split; try apply R.
  - apply dict_ext; [exact (rm_nodup _ _ _ _ R)|exact (rm_keys _ _ _ _ R)|]. intros k. exact (rm_eqs _ _ _ _ R k (fun X => X)).
  - intros a. exact (rm_attrs _ _ _ _ R a (fun X => X)).
Qed.

(** ** Setting values *)
Definition set_loc (h : heap) (o : option loc) (k : num) : heap :=
  match o with
  | Some l => match hget h l with Some q => hset h l (set_qvalue q k) | None => h end
  | None => h
  end.
Definition target (w : pworld) (t : nat * string) : option loc :=
  match get_model w (fst t) with
  | Some (m, _) => match attr_qty m (snd t) with Ok l => Some l | Raise _ => None end
  | None => None
  end.
Definition locs (w : pworld) (ts : list (nat * string)) : list loc :=
  flat_map (fun t => match target w t with Some l => [l] | None => [] end) ts.
Definition set_out (w : pworld) (t : nat * string) : res Datatypes.unit :=
  match get_model w (fst t) with
  | None => Raise EName
  | Some (m, _) => match attr_qty m (snd t) with
                   | Raise x => Raise x
                   | Ok l => match hget (pw_heap w) l with None => Raise EName | Some _ => Ok tt end
                   end
  end.

Lemma set_step w t k : exists w', on_model w (fst t) (fun _ mw => run_cmd mw (CSet (snd t) (SANum k) None)) = (w', set_out w t) /\
  (forall j, get_model w' j = get_model w j) /\ pw_heap w' = set_loc (pw_heap w) (target w t) k.
Proof.
  destruct (on_model w (fst t) (fun _ mw => run_cmd mw (CSet (snd t) (SANum k) None))) as [w' r] eqn:E.
  pose proof E as E0. apply on_model_spec in E. unfold target, set_out. destruct E as [(G & -> & ->)|(m & d & v & G & F & Hh & G2 & Go & _)].
  - rewrite G. exists w. auto.
  - rewrite G. cbn [run_cmd w_heap w_mod w_uids] in F.
    destruct (attr_qty m (snd t)) as [l|x].
    2: { injection F as <- <-. exists w'. split; [reflexivity|]. cbn [w_heap w_mod] in *. split; [|exact Hh].
         intros j. destruct (Nat.eq_dec j (fst t)) as [->|Nj]; [congruence|exact (Go j Nj)]. }
    unfold heap_set_value in F. destruct (hget (pw_heap w) l) as [q|] eqn:Hq.
    + assert (Sv : set_value q (SVNum k) None = Ok (set_qvalue q k)) by (destruct k; reflexivity). rewrite Sv in F. injection F as <- <-.
      exists w'. split; [reflexivity|]. cbn [w_heap w_mod] in *. split.
      * intros j. destruct (Nat.eq_dec j (fst t)) as [->|Nj]; [congruence|exact (Go j Nj)].
      * rewrite Hh. unfold set_loc. now rewrite Hq.
    + injection F as <- <-. exists w'. split; [reflexivity|]. cbn [w_heap w_mod] in *. split.
      * intros j. destruct (Nat.eq_dec j (fst t)) as [->|Nj]; [congruence|exact (Go j Nj)].
      * rewrite Hh. unfold set_loc. now rewrite Hq.
Qed.

Lemma hr_single T h0 h l k : hr T h0 h -> In l T -> hr T h0 (set_loc h (Some l) k).
Proof.
  intros [L E] Hl. unfold set_loc. destruct (hget h l) as [q|] eqn:Hq; [|now split]. split; [now rewrite length_hset|].
  intros x. destruct (Nat.eq_dec x l) as [->|Nx].
  - destruct (E l) as [E1 _]. rewrite hget_hset_eq by exact (hget_lt _ _ _ Hq). split; [|contradiction].
    rewrite <- E1, Hq. reflexivity.
  - rewrite hget_hset_neq by congruence. exact (E x).
Qed.

Lemma hr_pair T h h' l k : hr (l :: T) h h' -> hr T (set_loc h (Some l) k) (set_loc h' (Some l) k).
Proof.
  intros [L E]. unfold set_loc. destruct (E l) as [El _].
  destruct (hget h l) as [q|] eqn:Hq; destruct (hget h' l) as [q'|] eqn:Hq'; try discriminate El.
  - cbn [option_map] in El. injection El as El. split; [now rewrite !length_hset|]. intros x. destruct (Nat.eq_dec x l) as [->|Nx].
    + rewrite (hget_hset_eq h), (hget_hset_eq h') by (eapply hget_lt; eassumption). unfold set_qvalue in *.
      split; [congruence|]. intros _. congruence.
    + rewrite !hget_hset_neq by congruence. destruct (E x) as [E1 E2]. split; [exact E1|]. intros Hx. apply E2. intros [X|X]; congruence.
  - split; [exact L|]. intros x. destruct (E x) as [E1 E2]. split; [exact E1|]. intros Hx. destruct (Nat.eq_dec x l) as [->|Nx]; [congruence|].
    apply E2. intros [X|X]; congruence.
Qed.

Lemma hr_nil h h' : hr [] h h' -> h' = h.
Proof.
  intros [L E]. revert h' L E. induction h as [|q h IH]; intros [|q' h'] L E; try discriminate; [reflexivity|].
  pose proof (proj2 (E 0%nat) (fun X => X)) as E0. cbn in E0. injection E0 as ->. f_equal. apply IH; [now injection L|].
  intros l. exact (E (S l)).
Qed.
Lemma hr_refl T h : hr T h h.
Proof. split; [reflexivity|]. intros l. auto. Qed.

Lemma mr_target D w w' t : mr D w w' -> target w' t = target w t.
Proof.
  intros M. unfold target. destruct (get_model w (fst t)) as [[m d]|] eqn:G.
  - destruct (mr_get _ _ _ _ _ _ M G) as (m' & -> & R & _). now rewrite (rm_attr _ _ _ _ _ R).
  - now rewrite (mr_none _ _ _ _ M G).
Qed.
Lemma mr_locs D w w' ts : mr D w w' -> locs w' ts = locs w ts.
Proof. intros M. induction ts as [|t ts IH]; [reflexivity|]. cbn [locs flat_map]. unfold locs in IH. now rewrite IH, (mr_target _ _ _ _ M). Qed.
Lemma mr_set_out D T w w' t : mr D w w' -> hr T (pw_heap w) (pw_heap w') -> set_out w' t = set_out w t.
Proof.
  intros M [_ E]. unfold set_out. destruct (get_model w (fst t)) as [[m d]|] eqn:G.
  - destruct (mr_get _ _ _ _ _ _ M G) as (m' & -> & R & _). rewrite (rm_attr _ _ _ _ _ R). destruct (attr_qty m (snd t)) as [l|]; [|reflexivity].
    destruct (E l) as [E1 _]. destruct (hget (pw_heap w) l), (hget (pw_heap w') l); try discriminate E1; reflexivity.
  - now rewrite (mr_none _ _ _ _ M G).
Qed.
Lemma mr_models D w0 w w1 : mr D w0 w -> (forall j, get_model w1 j = get_model w j) -> mr D w0 w1.
Proof. intros M E i. rewrite E. exact (M i). Qed.
Lemma mr_models2 D w w' w1 w1' : mr D w w' -> (forall j, get_model w1 j = get_model w j) -> (forall j, get_model w1' j = get_model w' j) -> mr D w1 w1'.
Proof. intros M E E' i. rewrite E, E'. exact (M i). Qed.

(** States that an evaluation may leave, related to the one before. *)
Record sr (T : list loc) (D : differs) (s s' : session) : Prop := mkSR {
  sr_heap : hr T (pw_heap (fst s)) (pw_heap (fst s')); sr_models : mr D (fst s) (fst s'); sr_problem : unblocked (snd s') = unblocked (snd s) }.

Lemma set_act s t k : do_act s (AStmt (fst t) (CSet (snd t) (SANum k) None)) =
  let '(w', r) := on_model (fst s) (fst t) (fun _ mw => run_cmd mw (CSet (snd t) (SANum k) None)) in ((w', snd s), r).
Proof. destruct s. reflexivity. Qed.

Lemma set_single T D s0 s t k : sr T D s0 s -> incl (locs (fst s0) [t]) T -> sr T D s0 (fst (do_act s (AStmt (fst t) (CSet (snd t) (SANum k) None)))).
Proof.
  intros [H M P] I. rewrite set_act. destruct (set_step (fst s) t k) as (w' & -> & G & Hh). cbn [fst snd]. constructor; cbn [fst snd]; auto.
  - rewrite Hh, (mr_target _ _ _ _ M). unfold locs in I. cbn [flat_map] in I. destruct (target (fst s0) t) as [l|]; [|exact H].
    apply hr_single; [exact H|]. apply I. now left.
  - exact (mr_models _ _ _ _ M G).
Qed.

Lemma sets_single T D s0 ts : forall s x, sr T D s0 s -> incl (locs (fst s0) ts) T -> sr T D s0 (run_acts s (sets ts x)).
Proof.
  induction ts as [|t ts IH]; intros s [|k x] S I; try exact S. unfold sets. cbn [List.combine map run_acts fst snd].
  apply IH.
  - apply set_single; [exact S|]. intros l Hl. apply I. unfold locs in *. cbn [flat_map] in *. apply in_or_app. left. now rewrite app_nil_r in Hl.
  - intros l Hl. apply I. unfold locs in *. cbn [flat_map]. apply in_or_app. now right.
Qed.

Lemma sets_pair D ts : forall T s s' x, sr (locs (fst s) ts ++ T) D s s' -> List.length x = List.length ts ->
  sr T D (run_acts s (sets ts x)) (run_acts s' (sets ts x)).
Proof.
  induction ts as [|t ts IH]; intros T s s' [|k x] S L; try discriminate; [exact S|]. injection L as L.
  unfold sets. cbn [List.combine map run_acts fst snd]. fold (sets ts x). rewrite !set_act.
  destruct S as [H M P].
  destruct (set_step (fst s) t k) as (w1 & E1 & G1 & H1). destruct (set_step (fst s') t k) as (w1' & E1' & G1' & H1').
  rewrite E1, E1'. cbn [fst snd]. apply IH; [|exact L]. constructor; cbn [fst snd]; auto.
  - rewrite H1, H1', (mr_target _ _ _ _ M).
    assert (Lw : locs w1 ts = locs (fst s) ts).
    { unfold locs. clear - G1. induction ts as [|t' ts IHt]; [reflexivity|]. cbn [flat_map]. rewrite IHt. unfold target. now rewrite G1. }
    rewrite Lw. unfold locs in H at 1. cbn [flat_map] in H. fold (locs (fst s) ts) in H.
    destruct (target (fst s) t) as [l|]; [|exact H]. apply hr_pair. exact H.
  - exact (mr_models2 _ _ _ _ _ M G1 G1').
Qed.

(** ** Resolving *)
Lemma resolve_single T D s0 s : sr T D s0 s -> covers D (dvals (pr_models (snd s0))) (fst s0) -> sr T D s0 (fst (do_act s AResolve)).
Proof.
  intros [H M P] C. destruct s as [w p]. cbn [fst snd] in *. unfold do_act, presolve. rewrite (unblocked_models _ _ P).
  destruct (reload w (dvals (pr_models (snd s0)))) as [w1 r] eqn:E. destruct (reload_single _ _ _ _ _ _ M C E) as [Hh M1].
  assert (X : sr T D s0 (w1, p)) by (constructor; cbn [fst snd]; [now rewrite Hh|exact M1|exact P]).
  destruct r as [[]|x]; [|exact X]. destruct (build_block w1 p) as [b|x]; [|exact X].
  destruct (block_call b) as [b' r]. cbn [fst]. destruct X as [X1 X2 X3]. constructor; auto.
Qed.


Lemma resolve_pair D s s' : sr [] D s s' -> NoDup (dvals (pr_models (snd s))) -> covers D (dvals (pr_models (snd s))) (fst s) ->
  (forall i, ~ In i (dvals (pr_models (snd s))) -> D i = ([], [])) ->
  snd (do_act s' AResolve) = snd (do_act s AResolve) /\
  (snd (do_act s AResolve) = Ok tt -> same_session (fst (do_act s AResolve)) (fst (do_act s' AResolve))).
Proof.
  intros [H M P] ND C Z. destruct s as [w p], s' as [w' p']. cbn [fst snd] in *. unfold do_act, presolve. rewrite (unblocked_models _ _ P).
  set (is := dvals (pr_models p)) in *. destruct (reload w is) as [w1 r] eqn:E.
  destruct (reload_pair _ _ _ _ _ _ ND M (hr_nil _ _ H) C E) as (w1' & -> & Q).
  destruct r as [[]|x]; [|split; [reflexivity|discriminate]]. destruct (Q eq_refl) as [Hh M1].
  assert (S : same_models w1 w1').
  { intros i. specialize (M1 i). assert (U : undo D is i = ([], [])) by (unfold undo; destruct (in_dec Nat.eq_dec i is); [reflexivity|now apply Z]).
    rewrite U in M1. cbn [fst snd] in M1. destruct (get_model w1 i) as [[m d]|], (get_model w1' i) as [[m' d']|]; try exact M1.
    destruct M1 as (-> & R & _). split; [reflexivity|exact (rm_equal _ _ R)]. }
  rewrite (build_same w1 w1' p p' Hh); [|intros i; specialize (S i)|exact P].
  2: { destruct (get_model w1 i) as [[m d]|], (get_model w1' i) as [[m' d']|]; try contradiction; [|reflexivity].
       destruct S as (_ & _ & _ & _ & _ & Se & _). cbn [option_map fst]. now rewrite Se. }
  destruct (build_block w1 p) as [b|x]; [|split; [reflexivity|discriminate]].
  destruct (block_call b) as [b' r]. cbn [fst snd]. split; [reflexivity|]. intros _. split; [exact Hh|]. split; [exact (with_block_same _ _ _ P)|exact S].
Qed.

(** ** From a resolved session *)
Definition open_in (s : session) : differs := fun i =>
  if in_dec Nat.eq_dec i (dvals (pr_models (snd s))) then
    match get_model (fst s) i with Some (m, d) => (eq_keys (m_name m) (script d), eq_attrs (script d)) | None => ([], []) end
  else ([], []).

Lemma open_closed s i : ~ In i (dvals (pr_models (snd s))) -> open_in s i = ([], []).
Proof. intros H. unfold open_in. destruct (in_dec _ _ _); [contradiction|reflexivity]. Qed.

Lemma resolved_open acts s b : resolved acts s b -> constructed acts ->
  sr [] (open_in s) s s /\ covers (open_in s) (dvals (pr_models (snd s))) (fst s) /\ NoDup (dvals (pr_models (snd s))).
Proof.
  intros R Co. destruct (resolved_reload _ _ _ R) as [Rl ND]. destruct (resolved_block _ _ _ R) as (Gs & _).
  destruct (reload_calls _ _ _ Rl ND) as [Kp Cl]. set (is := dvals (pr_models (snd s))) in *.
  assert (Eq : forall i m d, In i is -> get_model (fst s) i = Some (m, d) -> forallb is_eq (script d) = true /\
     incl (eq_keys (m_name m) (script d)) (dkeys (m_eqs m)) /\ forall a, In a (eq_attrs (script d)) -> exists e, dget a (m_attrs m) = Some (AEqn e)).
  { intros i m d Hi G. destruct (Cl i Hi) as (m0 & d0 & h & u & w1 & G0 & F & G1). rewrite G in G1. injection G1 as -> ->.
    assert (Ie : forallb is_eq (script d0) = true) by exact (Co _ _ (get_created _ _ _ _ G0)). split; [exact Ie|].
    destruct (call_left _ _ _ Ie F) as (B1 & _ & B3 & B4). rewrite B3. split; [exact B1|]. intros a Ha. apply B4. now left. }
  split; [|split; [|exact ND]].
  - constructor; [apply hr_refl| |reflexivity]. intros i. destruct (get_model (fst s) i) as [[m d]|] eqn:G; [|trivial]. split; [reflexivity|].
    assert (Nd : NoDup (dkeys (m_eqs m))) by apply (proj1 (g_ok _ Gs) i m d G).
    assert (Z : rm [] [] m m) by (constructor; auto; intros a []).
    unfold open_in. destruct (in_dec Nat.eq_dec i (dvals (pr_models (snd s)))) as [Hi|Hi]; [|cbn [fst snd]; split; [exact Z|intros x []]].
    rewrite G. cbn [fst snd]. destruct (Eq i m d Hi G) as (_ & I & At). split; [|exact I].
    destruct Z. constructor; auto.
  - intros i m d Hi G. split; [exact (proj1 (Eq i m d Hi G))|]. unfold open_in. destruct (in_dec Nat.eq_dec i _) as [_|X]; [|contradiction].
    now rewrite G.
Qed.

Lemma sr_more T T' D s s' : sr T D s s' -> incl T T' -> sr T' D s s'.
Proof.
  intros [[L E] M P] I. constructor; auto. split; [exact L|]. intros l. destruct (E l) as [E1 E2]. split; [exact E1|]. intros Hl. apply E2. intros X. apply Hl, I, X.
Qed.

Lemma evaluations_single D ts xs : forall s0 s, sr (locs (fst s0) ts) D s0 s -> covers D (dvals (pr_models (snd s0))) (fst s0) ->
  sr (locs (fst s0) ts) D s0 (run_acts s (flat_map (evaluation ts) xs)).
Proof.
  induction xs as [|x xs IH]; intros s0 s S C; [exact S|]. cbn [flat_map]. rewrite run_acts_app. apply IH; [|exact C].
  unfold evaluation. rewrite run_acts_app. cbn [run_acts]. apply resolve_single; [|exact C]. apply sets_single; [exact S|apply incl_refl].
Qed.

Lemma run_set_models ts : forall s x, (forall j, get_model (fst (run_acts s (sets ts x))) j = get_model (fst s) j) /\ snd (run_acts s (sets ts x)) = snd s.
Proof.
  induction ts as [|t ts IH]; intros s [|k x]; try (split; reflexivity). unfold sets. cbn [List.combine map run_acts fst snd]. fold (sets ts x).
  rewrite set_act. destruct (set_step (fst s) t k) as (w1 & -> & G1 & _). cbn [fst snd]. destruct (IH (w1, snd s) x) as [A B]. cbn [fst snd] in A, B.
  split; [|exact B]. intros j. rewrite A. exact (G1 j).
Qed.

Lemma history_free acts s b ts xs x : resolved acts s b -> constructed acts -> List.length x = List.length ts ->
  let fresh := run_acts s (sets ts x) in
  let later := run_acts s (flat_map (evaluation ts) xs ++ sets ts x) in
  snd (do_act later AResolve) = snd (do_act fresh AResolve) /\
  (snd (do_act fresh AResolve) = Ok tt -> same_session (fst (do_act fresh AResolve)) (fst (do_act later AResolve))).
Proof.
  intros R Co L fresh later. destruct (resolved_open _ _ _ R Co) as (S0 & C & ND).
  assert (S1 := evaluations_single (open_in s) ts xs s s (sr_more _ (locs (fst s) ts) _ _ _ S0 (fun x H => match H with end)) C).
  assert (S2 : sr [] (open_in s) fresh later).
  { unfold fresh, later. rewrite run_acts_app. apply sets_pair; [|exact L]. rewrite app_nil_r. exact S1. }
  destruct (run_set_models ts s x) as [G P]. fold fresh in G, P.
  apply (resolve_pair (open_in s)); [exact S2|now rewrite P| |].
  - rewrite P. intros i m d Hi Gi. apply C; [exact Hi|]. now rewrite <- G.
  - rewrite P. exact (open_closed s).
Qed.
