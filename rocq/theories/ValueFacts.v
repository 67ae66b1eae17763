(** Facts about values given at creation (C58). *)
From Verif Require Import Base BaseFacts Num NumFacts UnitModel UnitFacts Sympy Node Build EquationModel ModelModel ProblemModel
  SpecUnits UnitThms SpecExpr SpecQty QtyFacts SpecModel BuildFacts EquationFacts ModelFacts SpecInc IncFacts SpecCall CallFacts
  SpecProblem ProblemFacts SpecSymbols.
From Coq Require Import Reals.
Notation num := Verif.Num.num.

Lemma same_call l q q' : same_set q q' -> qty_call l q = qty_call l q'.
Proof.
  intros (K & N & U & S & O & X & T & D & V). unfold qty_call. rewrite <- S, <- N, <- U. destruct (q_spec q); [|reflexivity]. now rewrite V.
Qed.

Lemma same_get h h' l : Forall2 same_set h h' ->
  match hget h l, hget h' l with Some q, Some q' => same_set q q' | None, None => True | _, _ => False end.
Proof.
  unfold hget. intros H. revert l. induction H as [|x y h h' R H IH]; intros [|l]; simpl; auto. apply IH.
Qed.

Lemma same_length h h' : Forall2 same_set h h' -> List.length h = List.length h'.
Proof. induction 1; simpl; congruence. Qed.

Lemma same_build_qty h h' l : Forall2 same_set h h' -> build_qty h l = build_qty h' l.
Proof.
  intros H. assert (G := same_get _ _ l H). unfold build_qty. destruct (hget h l), (hget h' l); try contradiction; [|reflexivity].
  f_equal. now apply same_call.
Qed.

Lemma same_diff l q q' t t' : same_set q q' -> match t, t' with Some a, Some b => same_set a b | None, None => True | _, _ => False end ->
  var_diff l q t = var_diff l q' t'.
Proof.
  intros Q T. unfold var_diff. rewrite (same_call l _ _ Q). destruct Q as (K & N & U & S & O & X & Ty & D & V).
  rewrite <- D, <- S, <- N. destruct t as [a|], t' as [b|]; try contradiction; [|reflexivity].
  destruct T as (K1 & N1 & U1 & S1 & _). now rewrite <- S1, <- N1, <- U1.
Qed.

Lemma same_build_diff h h' l t : Forall2 same_set h h' -> build_diff h l t = build_diff h' l t.
Proof.
  intros H. assert (G := same_get _ _ l H). unfold build_diff. destruct (hget h l) as [q|], (hget h' l) as [q'|]; try contradiction; [|reflexivity].
  assert (K := proj1 G). rewrite <- K. destruct (negb (qkind_eqb (q_kind q) KVariable)); [reflexivity|].
  destruct t as [i|].
  - assert (G2 := same_get _ _ i H). destruct (hget h i) as [p|], (hget h' i) as [p'|]; try contradiction; [|reflexivity].
    now apply same_diff.
  - now apply same_diff.
Qed.

Lemma same_build h h' : Forall2 same_set h h' ->
  (forall e, build h e = build h' e) /\ (forall r, build_args h r = build_args h' r).
Proof.
  intros H. apply uexpr_uargs_ind.
  - intros l. cbn [build]. now apply same_build_qty.
  - intros o a IHa b IHb. cbn [build]. now rewrite IHa, IHb.
  - intros o a IHa k. cbn [build]. now rewrite IHa.
  - intros o k a IHa. cbn [build]. now rewrite IHa.
  - intros f a IHa. cbn [build]. now rewrite IHa.
  - reflexivity.
  - intros l t. cbn [build]. now apply same_build_diff.
  - intros mx r IH. cbn [build]. now rewrite IH.
  - reflexivity.
  - intros e IHe r IHr. cbn [build_args]. now rewrite IHe, IHr.
  - intros k r IHr. cbn [build_args]. now rewrite IHr.
Qed.

Lemma same_build_eq h h' q : Forall2 same_set h h' -> build_eq h q = build_eq h' q.
Proof.
  intros H. destruct (same_build _ _ H) as [B _]. destruct q; cbn [build_eq]; now rewrite ?B.
Qed.

Lemma same_set_at h h' l q q' : Forall2 same_set h h' -> same_set q q' -> Forall2 same_set (hset h l q) (hset h' l q').
Proof. intros H Q. revert l. induction H as [|x y h h' R H IH]; intros [|l]; simpl; constructor; auto. Qed.

Lemma same_set_value q q' n u : same_set q q' ->
  match set_value q (SVNum n) u, set_value q' (SVNum n) u with
  | Ok p, Ok p' => same_set p p'
  | Raise x, Raise y => x = y
  | _, _ => False
  end.
Proof.
  intros (K & N & U & S & O & X & T & D & V). unfold set_value. rewrite <- U.
  assert (Z : forall v, same_set (set_qvalue q v) (set_qvalue q' v)).
  { intros v. unfold same_set, set_qvalue. simpl. auto 10. }
  destruct n as [z|f]; [|apply Z]. destruct u as [v|]; [|apply Z]. destruct (coherent v (q_units q)) as [[]|]; simpl; auto.
Qed.

Definition same_world (w w' : mworld) : Prop := Forall2 same_set (w_heap w) (w_heap w') /\ w_uids w = w_uids w' /\ w_mod w = w_mod w'.

Lemma same_snoc h h' q q' : Forall2 same_set h h' -> same_set q q' -> Forall2 same_set (h ++ [q]) (h' ++ [q']).
Proof. intros H Q. apply Forall2_app; auto. Qed.

Lemma revalued_cmd w w' c c' : same_world w w' -> revalued c c' ->
  same_world (fst (run_cmd w c)) (fst (run_cmd w' c')) /\ snd (run_cmd w c) = snd (run_cmd w' c').
Proof.
  destruct w as [h u m], w' as [h' u' m']. intros (H & U & M) R. cbn [w_heap w_uids w_mod] in *. subst u' m'.
  assert (L := same_length _ _ H).
  destruct c as [a n un ex ty v|a n un v|a n un v|a v un|a|a n q check]; cbn [revalued] in R.
  - destruct R as (v' & ->). cbn [run_cmd w_heap w_uids w_mod]. unfold assign_qty, create_variable. rewrite <- L.
    assert (S : forall b, Forall2 same_set (h ++ [mkQty KVariable (full_name n (m_name m)) un v false (m_name m) b ty false])
                             (h' ++ [mkQty KVariable (full_name n (m_name m)) un v' false (m_name m) b ty false])).
    { intros b. apply same_snoc; [exact H|]. unfold same_set. simpl. repeat (split; [reflexivity|]). discriminate. }
    destruct ex; [destruct (String.eqb ty "input"); [|destruct (String.eqb ty "output")]|]; cbn [fst snd];
      (split; [split; [apply S|split; reflexivity]|reflexivity]).
  - destruct R as (v' & ->). cbn [run_cmd w_heap w_uids w_mod]. unfold assign_qty, create_parameter. rewrite <- L. cbn [fst snd].
    split; [|reflexivity]. split; [|split; reflexivity]. apply same_snoc; [exact H|].
    unfold same_set. simpl. repeat (split; [reflexivity|]). discriminate.
  - destruct R as (v' & ->). cbn [run_cmd w_heap w_uids w_mod]. unfold assign_qty, create_constant. rewrite <- L. cbn [fst snd].
    split; [|reflexivity]. split; [|split; reflexivity]. apply same_snoc; [exact H|].
    unfold same_set. simpl. repeat (split; [reflexivity|]). discriminate.
  - destruct v as [k|]; [|contradiction]. subst c'. cbn [run_cmd w_heap w_uids w_mod].
    destruct (attr_qty m a) as [l|x]; [|repeat (split; auto)]. unfold heap_set_value. assert (G := same_get _ _ l H).
    destruct (hget h l) as [q|], (hget h' l) as [q'|]; try contradiction; [|repeat (split; auto)].
    assert (Sv := same_set_value q q' k un G). destruct (set_value q (SVNum k) un) as [p|x], (set_value q' (SVNum k) un) as [p'|x']; try contradiction.
    + cbn [fst snd]. split; [|reflexivity]. split; [now apply same_set_at|split; reflexivity].
    + cbn [fst snd]. subst x'. split; [|reflexivity]. split; [exact H|split; reflexivity].
  - subst c'. cbn [run_cmd w_heap w_uids w_mod]. destruct (attr_qty m a) as [l|x]; [|repeat (split; auto)]. assert (G := same_get _ _ l H).
    destruct (hget h l) as [q|], (hget h' l) as [q'|]; try contradiction; [|repeat (split; auto)].
    assert (K := proj1 G). rewrite <- K. destruct (qkind_eqb (q_kind q) KVariable); [|repeat (split; auto)].
    cbn [fst snd]. split; [|reflexivity]. split; [|split; reflexivity]. apply same_set_at; [exact H|].
    destruct G as (K1 & N & Un & S & O & X & T & D & V). unfold same_set, set_domain. simpl. auto 10.
  - subst c'. cbn [run_cmd w_heap w_uids w_mod].
    assert (E : rbind (resolve_eq (attr_qty m) q) (fun q' => build_eq h q') = rbind (resolve_eq (attr_qty m) q) (fun q' => build_eq h' q')).
    { destruct (resolve_eq (attr_qty m) q); [|reflexivity]. cbn [rbind]. now apply same_build_eq. }
    rewrite <- E. destruct (rbind (resolve_eq (attr_qty m) q) (fun q' => build_eq h q')) as [arg|x]; [|repeat (split; auto)].
    unfold create_equation. cbn [w_heap w_uids w_mod].
    destruct (equation_init u main_thread n (Some arg) (m_name m)) as [u2 [e0|x]]; [|cbn [fst snd]; repeat (split; auto)].
    cbv zeta.
    destruct (sweep_objects (with_ename e0 (full_name (eq_name e0) (m_name m)))) as [e2 [[]|x]]; [|cbn [fst snd]; repeat (split; auto)].
    destruct check; [destruct (check_equation m e2)|]; cbn [fst snd w_heap w_uids w_mod]; (split; [split; [exact H|split; reflexivity]|reflexivity]).
Qed.

Lemma revalued_cmds cs cs' : Forall2 revalued cs cs' -> forall w w', same_world w w' ->
  same_world (fst (run_cmds w cs)) (fst (run_cmds w' cs')) /\ snd (run_cmds w cs) = snd (run_cmds w' cs').
Proof.
  induction 1 as [|c c' cs cs' R H IH]; intros w w' W; cbn [run_cmds]; [auto|].
  destruct (revalued_cmd w w' c c' W R) as [W1 E1].
  destruct (run_cmd w c) as [w1 r1], (run_cmd w' c') as [w1' r1']. cbn [fst snd] in *. subst r1'.
  destruct r1 as [[]|x]; [apply IH; exact W1|auto].
Qed.

Lemma same_set_refl q : same_set q q.
Proof. unfold same_set. auto 10. Qed.

Lemma values_ignored w cs cs' w1 r1 w2 r2 : Forall2 revalued cs cs' -> run_cmds w cs = (w1, r1) -> run_cmds w cs' = (w2, r2) ->
  r2 = r1 /\ w_mod w2 = w_mod w1 /\ w_uids w2 = w_uids w1 /\ Forall2 same_set (w_heap w1) (w_heap w2).
Proof.
  intros H E1 E2. destruct (revalued_cmds cs cs' H w w) as [(A & B & C) D].
  - split; [|auto]. induction (w_heap w); constructor; auto using same_set_refl.
  - rewrite E1, E2 in *. cbn [fst snd] in *. auto.
Qed.

Lemma set_stands w c a k w1 w2 : declares c a ->
  run_cmd w c = (w1, Ok tt) -> run_cmd w1 (CSet a (SANum k) None) = (w2, Ok tt) ->
  exists l, attr_qty (w_mod w2) a = Ok l /\ (forall v, qty_meaning (w_heap w2) v l = num_value k) /\
    exists n, build (w_heap w2) (UQty l) = Ok n /\ nd_sym n = SNum k.
Proof.
  intros D H1 H2.
  assert (X : exists l q, attr_qty (w_mod w1) a = Ok l /\ hget (w_heap w1) l = Some q).
  { destruct D as [(n & u & v & ->)|(n & u & v & ->)]; cbn [run_cmd] in H1; injection H1 as <-; do 2 eexists; cbn [w_mod w_heap];
      (split; [unfold attr_qty, set_attr, with_attrs; cbn [m_attrs]; now rewrite dget_dset_eq|apply hget_last]). }
  destruct X as (l & q & A & G). cbn [run_cmd] in H2. rewrite A in H2. unfold heap_set_value in H2. rewrite G in H2.
  destruct (set_value q (SVNum k) None) as [q'|x] eqn:Es; [|discriminate]. injection H2 as <-. cbn [w_mod w_heap].
  assert (Hq : hget (hset (w_heap w1) l q') l = Some q') by (apply hget_hset_eq; now apply hget_lt in G).
  assert (Q : q_spec q' = true /\ q_value q' = k).
  { unfold set_value in Es. destruct k; injection Es as <-; split; reflexivity. }
  destruct Q as [S V]. exists l. split; [exact A|]. split.
  - intros v. unfold qty_meaning. rewrite Hq, S. now rewrite V.
  - exists (qty_call l q'). cbn [build]. unfold build_qty. rewrite Hq. split; [reflexivity|]. unfold qty_call. rewrite S. simpl. now rewrite V.
Qed.
