(** Proofs about the values of equations (C85). *)
From Verif Require Import Base BaseFacts Num UnitModel Sympy Node Build EquationModel EqValueModel SpecExpr SpecEqValue BuildFacts ClassFacts EquationFacts.
From Coq Require Import Reals Lra.
Notation num := Verif.Num.num.

Lemma no_syms s : is_empty (fsyms s) = true -> fsyms s = [].
Proof. now destruct (fsyms s). Qed.

Definition filled (m : dict mval) (en : env) : env :=
  mkEnv (fun y => match dget y m with Some (MNum k) => match num_value k with Some z => z | None => 0%R end | _ => e_sym en y end) (e_der en).

Lemma subs_num_den m en s : (forall y k, In y (fsyms s) -> dget y m = Some (MNum k) -> num_value k <> None) -> den (subs_num m s) en = den s (filled m en).
Proof.
  induction s; intros H; cbn; try reflexivity;
    try (rewrite IHs1, IHs2 by (intros; eapply H; eauto; apply in_or_app; auto); reflexivity).
  - destruct (dget x m) as [[k|]|] eqn:E; try reflexivity. cbn. assert (Q := H x k (or_introl eq_refl) E). now destruct (num_value k).
  - rewrite IHs by exact H. reflexivity.
Qed.

Lemma subs_num_syms m s y : has_der s = false -> (In y (fsyms (subs_num m s)) <-> In y (fsyms s) /\ (forall k, dget y m <> Some (MNum k))).
Proof.
  induction s; cbn; intros D; try (apply Bool.orb_false_iff in D; destruct D as [D1 D2]; rewrite !in_app_iff, IHs1, IHs2 by assumption; tauto).
  - tauto.
  - destruct (dget x m) as [[k|l]|] eqn:E; cbn.
    + split; [tauto|]. intros [[<-|[]] Q]. now apply (Q k).
    + split; [|tauto]. intros [<-|[]]. split; [auto|]. intros k. congruence.
    + split; [|tauto]. intros [<-|[]]. split; [auto|]. intros k. congruence.
  - now apply IHs.
  - discriminate.
Qed.

(** Expressions mean the same where the quantities written in them do. *)
Lemma meaning_of_occurring h v v' :
  (forall e, has_derivative h e = false -> (forall l q, occurs l e -> hget h l = Some q -> q_spec q = false -> v_q v l = v_q v' l) -> meaning h v e = meaning h v' e) /\
  (forall r, has_derivative_args h r = false -> (forall l q, occurs_args l r -> hget h l = Some q -> q_spec q = false -> v_q v l = v_q v' l) -> meanings h v r = meanings h v' r).
Proof.
  apply uexpr_uargs_ind; cbn; intros.
  - unfold qty_meaning. destruct (hget h a) as [q|] eqn:E; [|reflexivity]. destruct (q_spec q) eqn:S; [reflexivity|]. f_equal. now apply (H0 a q).
  - apply Bool.orb_false_iff in H1. destruct H1. rewrite H, H0; auto; intros; eapply H2; eauto.
  - rewrite H; auto.
  - rewrite H; auto.
  - rewrite H; auto.
  - reflexivity.
  - unfold der_meaning. destruct (hget h a) as [q|] eqn:E; [|reflexivity]. destruct (q_spec q); [reflexivity|]. try discriminate H.
  - rewrite H; auto.
  - reflexivity.
  - apply Bool.orb_false_iff in H1. destruct H1. rewrite H, H0; auto; intros; eapply H2; eauto.
  - rewrite H; auto.
Qed.

(** ** Derivatives *)
Lemma minmax_der mx l : has_der (sx_minmax mx l) = existsb has_der l.
Proof.
  induction l as [|a r IH]; [reflexivity|]. destruct r as [|b r]; [cbn; now rewrite Bool.orb_false_r|].
  change (sx_minmax mx (a :: b :: r)) with (if mx then SMax a (sx_minmax mx (b :: r)) else SMin a (sx_minmax mx (b :: r))).
  destruct mx; cbn [has_der]; rewrite IH; reflexivity.
Qed.
Lemma build_no_der_mut h :
  (forall e n, build h e = Ok n -> has_derivative h e = false -> has_der (nd_sym n) = false) /\
  (forall l os, build_args h l = Ok os -> has_derivative_args h l = false -> existsb has_der (map opd_sym os) = false).
Proof.
  apply uexpr_uargs_ind; simpl.
  - intros l n H _. apply build_qty_shape in H. destruct H as [q [E ->]]. unfold qty_call. now destruct (q_spec q).
  - intros o e1 IH1 e2 IH2 n H D. apply Bool.orb_false_iff in D. destruct D as [D1 D2]. binv. assert (A := IH1 _ Hb D1). assert (B := IH2 _ Hb0 D2).
    destruct o; simpl in H; unfold node_add, node_sub, node_mul, node_div, node_pow in H;
      try (destruct (is_dimensionless (nd_unit x0)); [|discriminate H]); binv; simpl; now rewrite A, B.
  - intros o e IH k n H D. binv. assert (A := IH _ Hb D).
    destruct o; simpl in H; unfold node_add, node_sub, node_mul, node_div, node_pow in H; binv; simpl; now rewrite A.
  - intros o k e IH n H D. binv. assert (A := IH _ Hb D).
    destruct o; simpl in H; unfold node_rsub, node_rdiv, node_rpow in H; simpl in H; binv; simpl; now rewrite A.
  - intros f e IH n H D. binv. apply node_fun_shape in H. subst n. exact (IH _ Hb D).
  - discriminate.
  - intros l t n H D. apply build_diff_shape in H. destruct H as [q [E [_ [_ [p [Ep [Hp [-> _]]]]]]]]. rewrite E in D.
    destruct (q_spec q); [reflexivity|discriminate D].
  - intros mx l IH n H D. binv. apply node_minmax_shape in H. destruct H as [-> _]. rewrite minmax_der. now apply IH.
  - intros os H _. binv. reflexivity.
  - intros e IHe r IHr os H D. apply Bool.orb_false_iff in D. destruct D as [D1 D2]. binv. simpl. now rewrite (IHe _ Hb D1), (IHr _ Hb0 D2).
  - intros k r IHr os H D. binv. simpl. now apply IHr.
Qed.

(** ** What eval evaluates *)
Definition all_of (h : heap) (ps : list (uexpr loc)) : Prop := forall x, In x ps -> exists n, build h x = Ok n.

Lemma open_syms h x n y : build h x = Ok n -> (In y (fsyms (nd_sym n)) <-> exists l p, open_in h [x] l p /\ q_name p = y).
Proof.
  intros B. destruct (build_maps h x n B) as (_ & (M1 & M2 & M3) & F). rewrite F. split.
  - intros K. destruct (in_keys_dget _ _ K) as (l & E). destruct (M2 _ _ E) as ((O & (q & Q & S)) & (q' & Q' & <-)).
    exists l, q. assert (q' = q) by congruence. subst. split; [|reflexivity]. split; [exists x; split; [now left|exact O]|auto].
  - intros (l & p & ((x' & [<-|[]] & O) & H & S) & <-). destruct (M3 l) as (q & Q & D). { split; [exact O|]. exists p. auto. }
    assert (q = p) by congruence. subst. destruct (dget (q_name p) (nd_vmap n)) eqn:E; [|contradiction]. eapply dget_in_keys, E.
Qed.
Lemma open_cons h x ps l p : open_in h (x :: ps) l p <-> open_in h [x] l p \/ open_in h ps l p.
Proof.
  split.
  - intros ((z & [->|Z] & O) & H). { left. split; [exists z; split; [now left|exact O]|exact H]. } right. split; [now exists z|exact H].
  - intros [((z & [->|[]] & O) & H)|((z & Z & O) & H)]; (split; [exists z; split; [first [now left|now right]|exact O]|exact H]).
Qed.
Lemma open_nil h l p : ~ open_in h [] l p.
Proof. intros ((z & [] & _) & _). Qed.

(** The node behind a call of eval. *)
Definition stands_for (h : heap) (q : ueq loc) (s : option eside) (ps : list (uexpr loc)) (n : node) : Prop :=
  (forall v en, env_for h v en -> den (nd_sym n) en = amount h v q s) /\
  (forall y, In y (fsyms (nd_sym n)) <-> exists l p, open_in h ps l p /\ q_name p = y) /\
  ((forall x, In x ps -> has_derivative h x = false) -> has_der (nd_sym n) = false) /\
  (forall y, In y (fsyms (nd_sym n)) -> In y (dkeys (nd_smap n))).

Lemma node_sub_parts a b d : node_sub a (ONode b) = Ok d -> nd_sym d = SSub (nd_sym a) (nd_sym b) /\ nd_smap d = dupdate (nd_smap a) (nd_smap b).
Proof. unfold node_sub. intros H. binv. now split. Qed.

Lemma smap_syms h x n y : build h x = Ok n -> In y (fsyms (nd_sym n)) -> In y (dkeys (nd_smap n)).
Proof.
  intros B K. destruct (proj1 (open_syms _ _ _ y B) K) as (l & p & ((x' & [<-|[]] & O) & H & S) & <-).
  destruct (build_maps h x n B) as ((M1 & M2 & M3) & _). destruct (M3 l O) as (q & Q & D). assert (q = p) by congruence. subst.
  destruct (dget (q_name p) (nd_smap n)) eqn:E; [|contradiction]. eapply dget_in_keys, E.
Qed.
Lemma one_stands h x n q s : build h x = Ok n -> (forall v, amount h v q s = meaning h v x) -> stands_for h q s [x] n.
Proof.
  intros B A. split; [|split; [|split]].
  - intros v en En. rewrite A. now apply build_meaning.
  - intros y. now apply open_syms.
  - intros D. apply (proj1 (build_no_der_mut h) x n B). apply D. now left.
  - intros y. now apply (smap_syms h x).
Qed.

Lemma targets h q nm arg e : build_eq h q = Ok arg -> set_residual (blank_eqn nm) arg = (e, Ok tt) ->
  forall s, match parts q s with
            | Some ps => exists n, eval_target e s = Ok (Some n) /\ stands_for h q s ps n
            | None => eval_target e s = Raise EAbsentRequired
            end.
Proof.
  destruct q as [x|l r|l k]; cbn [build_eq]; intros B R.
  - destruct (build h x) as [n|] eqn:E; [|discriminate]. injection B as <-. cbn in R. injection R as <-.
    intros [[|]|]; try reflexivity. exists n. split; [reflexivity|]. now apply one_stands.
  - destruct (build h l) as [a|] eqn:Ea; [|discriminate]. destruct (build h r) as [b|] eqn:Eb; [|discriminate]. injection B as <-.
    cbn [set_residual] in R. destruct (node_sub a (ONode b)) as [d|] eqn:Ed; [|discriminate]. injection R as <-. destruct (node_sub_parts _ _ _ Ed) as [S1 S2].
    intros [[|]|]; [exists a; split; [reflexivity|now apply one_stands]|exists b; split; [reflexivity|now apply one_stands]|].
    exists d. split; [reflexivity|]. split; [|split; [|split]].
    + intros v en En. rewrite S1, den_sub, (build_meaning h v en l a En Ea), (build_meaning h v en r b En Eb). reflexivity.
    + intros y. rewrite S1. cbn [fsyms]. rewrite in_app_iff, (open_syms h l a y Ea), (open_syms h r b y Eb). split.
      * intros [(i & p & O & N)|(i & p & O & N)]; exists i, p; (split; [apply open_cons; auto|exact N]).
      * intros (i & p & O & N). apply open_cons in O. destruct O as [O|O]; [left|right]; now exists i, p.
    + intros D. rewrite S1. cbn [has_der]. apply Bool.orb_false_iff. split.
      * apply (proj1 (build_no_der_mut h) l a Ea), D. now left.
      * apply (proj1 (build_no_der_mut h) r b Eb), D. right. now left.
    + intros y. rewrite S1, S2. cbn [fsyms]. rewrite in_app_iff, in_dkeys_dupdate. intros [K|K]; [left|right]; eapply smap_syms; eauto.
  - destruct (build h l) as [a|] eqn:Ea; [|discriminate]. injection B as <-.
    cbn [set_residual] in R. destruct (node_sub a (ONode (number_node k (nd_unit a)))) as [d|] eqn:Ed; [|discriminate]. injection R as <-.
    destruct (node_sub_parts _ _ _ Ed) as [S1 S2].
    intros [[|]|]; [exists a; split; [reflexivity|now apply one_stands]| |].
    { exists (number_node k (nd_unit a)). split; [reflexivity|]. split; [reflexivity|]. split; [|split; [reflexivity|intros y []]].
      intros y. split; [intros []|]. intros (i & p & O & _). destruct (open_nil _ _ _ O). }
    exists d. split; [reflexivity|]. split; [|split; [|split]].
    + intros v en En. rewrite S1, den_sub, (build_meaning h v en l a En Ea). reflexivity.
    + intros y. rewrite S1. cbn [fsyms number_node nd_sym]. rewrite app_nil_r. now apply open_syms.
    + intros D. rewrite S1. cbn [has_der number_node nd_sym]. rewrite Bool.orb_false_r. apply (proj1 (build_no_der_mut h) l a Ea), D. now left.
    + intros y. rewrite S1, S2. cbn [fsyms number_node nd_sym]. rewrite app_nil_r, in_dkeys_dupdate. intros K. left. eapply smap_syms; eauto.
Qed.

Lemma amount_of_open h v v' q s ps : parts q s = Some ps -> (forall x, In x ps -> has_derivative h x = false) ->
  (forall l p, open_in h ps l p -> v_q v l = v_q v' l) -> amount h v q s = amount h v' q s.
Proof.
  intros P D A. assert (M : forall x, In x ps -> meaning h v x = meaning h v' x).
  { intros x X. apply (proj1 (meaning_of_occurring h v v')); [now apply D|]. intros l p O H S. apply (A l p). split; [now exists x|auto]. }
  destruct q as [x|l r|l k], s as [[|]|]; cbn in P |- *; try discriminate P; injection P as <-; rewrite ?(M _ (or_introl eq_refl)), ?(M _ (or_intror (or_introl eq_refl))); reflexivity.
Qed.

(** The valuation an environment makes. *)
Definition seen (h : heap) (en : env) : valuation :=
  mkVal (fun l => match hget h l with Some q => e_sym en (q_name q) | None => 0%R end)
        (fun l i => match hget h l, hget h i with Some q, Some p => e_der en (q_name q) (q_name p) | _, _ => 0%R end).
Lemma seen_env h en : env_for h (seen h en) en.
Proof. split; cbn; intros; now rewrite ?H, ?H1. Qed.

Lemma numbers_get m x a : of_numbers m -> dget x m = Some a -> exists k, a = MNum k /\ num_value k <> None.
Proof. intros N E. apply (N x). now apply dget_some_in. Qed.
Lemma no_objects m : of_numbers m -> existsb (fun p => is_object (snd p)) m = false.
Proof.
  intros N. induction m as [|[x a] m IH]; [reflexivity|]. cbn. destruct (N x a (or_introl eq_refl)) as (k & -> & _). cbn.
  apply IH. intros y b Y. apply (N y). now right.
Qed.

Lemma stands_value h q s ps n m v en : parts q s = Some ps -> (forall x, In x ps -> has_derivative h x = false) -> stands_for h q s ps n -> of_numbers m ->
  valued h ps m en v -> den (subs_num m (nd_sym n)) en = amount h v q s.
Proof.
  intros P D (S1 & _ & _ & _) N V. rewrite subs_num_den.
  - rewrite (S1 (seen h (filled m en)) _ (seen_env _ _)). apply (amount_of_open h _ v q s ps P D).
    intros l p O. assert (W := V l p O). destruct O as (_ & H & _). cbn. rewrite H.
    destruct (dget (q_name p) m) as [[k|i]|]; [|now symmetry|now symmetry]. now rewrite W.
  - intros y k _ E. destruct (numbers_get _ _ _ N E) as (k' & K & F). injection K as <-. exact F.
Qed.

Lemma subs_none m s : fsyms s = [] -> subs_num m s = s.
Proof.
  induction s; cbn; intros F; try reflexivity; try discriminate;
    try (apply app_eq_nil in F; destruct F; rewrite IHs1, IHs2; auto). now rewrite IHs.
Qed.

Theorem evaluated h q nm arg e s ps m : build_eq h q = Ok arg -> set_residual (blank_eqn nm) arg = (e, Ok tt) -> parts q s = Some ps ->
  (forall x, In x ps -> has_derivative h x = false) -> of_numbers m ->
  exists r, equation_eval e (Some m) s = Ok r /\ (forall en v, valued h ps m en v -> worth r en = amount h v q s) /\
    (is_value r <-> forall l p, open_in h ps l p -> dget (q_name p) m <> None) /\
    (forall s', r = EPart s' -> forall y, In y (fsyms s') <-> exists l p, open_in h ps l p /\ q_name p = y /\ dget y m = None).
Proof.
  intros B R P D N. assert (T := targets h q nm arg e B R s). rewrite P in T. destruct T as (n & T & St).
  assert (V := fun en v => stands_value h q s ps n m v en P D St N). destruct St as (_ & S2 & S3 & _). specialize (S3 D).
  assert (Nm : forall y, (forall k, dget y m <> Some (MNum k)) <-> dget y m = None).
  { intros y. split; [|congruence]. intros K. destruct (dget y m) as [a|] eqn:E; [|reflexivity]. destruct (numbers_get _ _ _ N E) as (k & -> & _). now destruct (K k). }
  unfold equation_eval. rewrite T. cbn [rbind].
  assert (F : (if is_raw (nd_sym n) then Ok (EVal (den (nd_sym n) no_env)) else evalf m (nd_sym n)) = Ok (number_or_expr (subs_num m (nd_sym n)))).
  { unfold evalf, number_or_expr. rewrite (no_objects m N). destruct (is_empty (fsyms (nd_sym n))) eqn:E.
    - rewrite (subs_none m _ (no_syms _ E)), E. now destruct (is_raw (nd_sym n)).
    - destruct (is_raw (nd_sym n)) eqn:Rw; [|reflexivity]. exfalso. revert E. clear - Rw.
      assert (Q : fsyms (nd_sym n) = []).
      { revert Rw. generalize (nd_sym n). induction s; cbn; intros Rw; try discriminate; try reflexivity;
          apply andb_prop in Rw; destruct Rw; rewrite IHs1, IHs2; auto. }
      now rewrite Q. }
  rewrite F. eexists. split; [reflexivity|]. unfold number_or_expr. assert (Sy := fun y => subs_num_syms m (nd_sym n) y S3).
  destruct (is_empty (fsyms (subs_num m (nd_sym n)))) eqn:E.
  - apply no_syms in E. split; [|split].
    + intros en v W. cbn. rewrite <- (V en v W). now apply den_const.
    + cbn. split; [intros _|tauto]. intros l p O C. rewrite E in Sy. cbn in Sy. apply (proj2 (Sy (q_name p))). split; [|now apply Nm].
      apply S2. now exists l, p.
    + discriminate.
  - split; [|split].
    + intros en v W. exact (V en v W).
    + cbn. split; [tauto|]. intros A. destruct (fsyms (subs_num m (nd_sym n))) as [|y r] eqn:Q; [discriminate|].
      destruct (proj1 (Sy y) (or_introl eq_refl)) as [I C]. apply S2 in I. destruct I as (l & p & O & <-). apply (A l p O). now apply Nm.
    + intros s' Q y. injection Q as <-. rewrite Sy, S2, Nm. split.
      * intros ((l & p & O & <-) & C). now exists l, p.
      * intros (l & p & O & <- & C). split; [now exists l, p|exact C].
Qed.

Theorem sides_of_residual h x nm arg e : build_eq h (UResid x) = Ok arg -> set_residual (blank_eqn nm) arg = (e, Ok tt) ->
  forall m s, equation_eval e m (Some s) = Raise EAbsentRequired.
Proof. intros B R m s. assert (T := targets h _ nm arg e B R (Some s)). cbn [parts] in T. unfold equation_eval. now rewrite T. Qed.

(** ** getResidual *)
Theorem residual_known h q nm arg e ps v : build_eq h q = Ok arg -> set_residual (blank_eqn nm) arg = (e, Ok tt) -> parts q None = Some ps ->
  (forall l p, ~ open_in h ps l p) -> (forall x, In x ps -> has_derivative h x = false) -> get_residual e = Ok (EVal (amount h v q None)).
Proof.
  intros B R P O D. assert (T := targets h q nm arg e B R None). rewrite P in T. destruct T as (n & T & (S1 & S2 & _ & _)).
  assert (F : fsyms (nd_sym n) = []).
  { destruct (fsyms (nd_sym n)) as [|y r] eqn:Q; [reflexivity|]. destruct (proj1 (S2 y) (or_introl eq_refl)) as (l & p & A & _). destruct (O l p A). }
  assert (V : den (nd_sym n) no_env = amount h v q None).
  { rewrite (S1 (seen h no_env) _ (seen_env _ _)). apply (amount_of_open h _ v q None ps P D). intros l p A. destruct (O l p A). }
  unfold get_residual, equation_eval. rewrite T. cbn [rbind]. unfold default_map. cbn in T. injection T as ->. cbn [rbind].
  unfold evalf. rewrite F. cbn [is_empty]. rewrite V. now destruct (is_raw (nd_sym n)).
Qed.

Theorem residual_refused h q nm arg e v v' en en' : build_eq h q = Ok arg -> set_residual (blank_eqn nm) arg = (e, Ok tt) ->
  env_for h v en -> env_for h v' en' -> amount h v q None <> amount h v' q None -> get_residual e = Raise EValue.
Proof.
  intros B R E E' A. assert (T := targets h q nm arg e B R None). destruct (parts q None) as [ps|] eqn:P; [|now destruct q].
  destruct T as (n & T & (S1 & _ & _ & S4)). rewrite <- (S1 v en E), <- (S1 v' en' E') in A.
  destruct (fsyms (nd_sym n)) as [|y r] eqn:Q; [destruct A; now apply den_const|].
  assert (K := S4 y (or_introl eq_refl)). unfold get_residual, equation_eval. rewrite T. cbn [rbind]. unfold default_map. cbn in T. injection T as ->. cbn [rbind].
  assert (Rw : is_raw (nd_sym n) = false).
  { destruct (is_raw (nd_sym n)) eqn:Rw; [|reflexivity]. exfalso. revert Q. clear - Rw. revert Rw. generalize (nd_sym n) as z. intros z Rw.
    assert (F : fsyms z = []). { induction z; cbn in Rw |- *; try discriminate; try reflexivity; apply andb_prop in Rw; destruct Rw; rewrite IHz1, IHz2; auto. }
    now rewrite F. }
  rewrite Rw. unfold evalf. rewrite Q. cbn [is_empty]. destruct (nd_smap n) as [|p m]; [destruct K|reflexivity].
Qed.

(** ** The symbolic map *)
Theorem maps_of_sides h q nm arg e s ps : distinct_names h -> build_eq h q = Ok arg -> set_residual (blank_eqn nm) arg = (e, Ok tt) -> parts q s = Some ps ->
  exists m, get_map e (match s with None => Some false | Some _ => Some true end) (match s with Some z => z | None => SRhs end) = Ok m /\
    forall x l, dget x m = Some l <-> (exists z, In z ps /\ occurs l z) /\ exists p, hget h l = Some p /\ q_name p = x.
Proof.
  intros Dn B R P.
  assert (One : forall x n y i, build h x = Ok n -> (dget y (nd_smap n) = Some i <-> (exists z, In z [x] /\ occurs i z) /\ exists p, hget h i = Some p /\ q_name p = y)).
  { intros x n y i E. destruct (build_maps h x n E) as ((M1 & M2 & M3) & _). split.
    - intros G. destruct (M2 _ _ G) as (O & Q). split; [|exact Q]. exists x. split; [now left|exact O].
    - intros ((z & [<-|[]] & O) & p & Hp & <-). apply (maps_lookup h x n Dn E). assumption. assumption. }
  assert (Nil : forall y i, dget y (@nil (string * loc)) = Some i <-> (exists z : uexpr loc, In z [] /\ occurs i z) /\ exists p, hget h i = Some p /\ q_name p = y).
  { intros y i. split; [discriminate|]. intros ((z & [] & _) & _). }
  destruct q as [x|l r|l k]; cbn [build_eq] in B.
  - destruct (build h x) as [n|] eqn:E; [|discriminate]. injection B as <-. cbn in R. injection R as <-.
    destruct s as [[|]|]; try discriminate P. injection P as <-. exists (nd_smap n). split; [reflexivity|]. intros y i. now apply One.
  - destruct (build h l) as [a|] eqn:Ea; [|discriminate]. destruct (build h r) as [b|] eqn:Eb; [|discriminate]. injection B as <-.
    cbn [set_residual] in R. destruct (node_sub a (ONode b)) as [d|] eqn:Ed; [|discriminate]. injection R as <-. destruct (node_sub_parts _ _ _ Ed) as [S1 S2].
    destruct s as [[|]|]; injection P as <-.
    + exists (nd_smap a). split; [reflexivity|]. intros y i. now apply One.
    + exists (nd_smap b). split; [reflexivity|]. intros y i. now apply One.
    + exists (nd_smap d). split; [reflexivity|]. intros y i. rewrite S2, dget_dupdate by apply (proj1 (build_maps h r b Eb)).
      destruct (dget y (nd_smap b)) as [j|] eqn:G.
      * destruct (proj1 (One r b y j Eb) G) as ((z & [<-|[]] & O) & p & Hp & Np). split.
        -- intros Q. injection Q as <-. split; [exists r; split; [right; now left|exact O]|]. now exists p.
        -- intros ((z & Z & O') & p' & Hp' & Np'). f_equal. apply (Dn j i p p' Hp Hp'). congruence.
      * rewrite (One l a y i Ea). split.
        -- intros ((z & [<-|[]] & O) & Q). split; [|exact Q]. exists l. split; [now left|exact O].
        -- intros ((z & [<-|[<-|[]]] & O) & Q); (split; [|exact Q]); [exists l; split; [now left|exact O]|].
           rewrite (proj2 (One r b y i Eb)) in G; [discriminate|]. split; [|exact Q]. exists r. split; [now left|exact O].
  - destruct (build h l) as [a|] eqn:Ea; [|discriminate]. injection B as <-.
    cbn [set_residual] in R. destruct (node_sub a (ONode (number_node k (nd_unit a)))) as [d|] eqn:Ed; [|discriminate]. injection R as <-.
    destruct (node_sub_parts _ _ _ Ed) as [S1 S2].
    destruct s as [[|]|]; injection P as <-.
    + exists (nd_smap a). split; [reflexivity|]. intros y i. now apply One.
    + exists []. split; [reflexivity|]. exact Nil.
    + exists (nd_smap d). split; [reflexivity|]. intros y i. rewrite S2. cbn. now apply One.
Qed.
