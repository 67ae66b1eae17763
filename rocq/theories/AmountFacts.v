(** Proofs about what expressions come to. *)
From Verif Require Import Base BaseFacts Num UnitModel Sympy Node Build EquationModel ModelModel ProblemModel SpecExpr SpecModel SpecProblem SolverModel SpecSolver SpecWritten WrittenFacts SpecAmounts BuildFacts.
From Coq Require Import Reals Lra Lia ZArith SpecFloat.
From Flocq Require Import Core BinarySingleNaN.
Notation num := Verif.Num.num.
Open Scope R_scope.

Lemma bpow_two e : bpow radix2 e = powerRZ 2 e.
Proof. rewrite bpow_powerRZ. reflexivity. Qed.
Lemma number_value n r : num_value n = Some r <-> number_is n r.
Proof.
  destruct n as [z|[s|s| |s m e]]; cbn.
  - split; [intros [= <-]; reflexivity|intros ->; reflexivity].
  - split; [intros [= <-]; reflexivity|intros ->; reflexivity].
  - split; [discriminate|tauto].
  - split; [discriminate|tauto].
  - unfold F2R. cbn [Fnum Fexp]. rewrite bpow_two.
    assert (E : IZR (cond_Zopp s (Zpos m)) = (if s then -1 else 1) * IZR (Zpos m)).
    { destruct s; cbn [cond_Zopp]; [rewrite opp_IZR; ring|ring]. }
    rewrite E. split; [intros [= <-]; reflexivity|intros ->; reflexivity].
Qed.

Lemma ln_ten : 0 < ln 10.
Proof. rewrite <- ln_1. apply ln_increasing; lra. Qed.
Lemma fn_value_graph f x y : fn_value f x = Some y <-> fn_graph f x y.
Proof.
  destruct f; cbn [fn_value fn_graph].
  - destruct (Rlt_dec 0 x) as [H|H].
    + split; [intros [= <-]; now apply exp_ln|intros <-; now rewrite ln_exp].
    + split; [discriminate|]. intros <-. destruct H. apply exp_pos.
  - assert (T := ln_ten). destruct (Rlt_dec 0 x) as [H|H].
    + split; [intros [= <-]|intros <-].
      * unfold Rpower. replace (ln x / ln 10 * ln 10) with (ln x) by (field; lra). now apply exp_ln.
      * unfold Rpower. rewrite ln_exp. f_equal. field. lra.
    + split; [discriminate|]. intros <-. destruct H. apply exp_pos.
  - destruct (Rle_dec 0 x) as [H|H].
    + split; [intros [= <-]; split; [apply sqrt_pos|now apply sqrt_sqrt]|intros [P <-]; f_equal; now apply sqrt_square].
    + split; [discriminate|]. intros [P <-]. destruct H. now apply Rmult_le_pos.
  - split; [intros [= <-]|intros [P [-> | ->]]; f_equal].
    + split; [apply Rabs_pos|]. unfold Rabs. destruct (Rcase_abs x); tauto.
    + apply Rabs_right. lra.
    + rewrite Rabs_left1; lra.
  - split; [intros [= <-]; reflexivity|intros ->; reflexivity].
  - split; [intros [= <-]; reflexivity|intros ->; reflexivity].
  - split; [intros [= <-]; reflexivity|intros ->; reflexivity].
  - destruct (Req_EM_T (cos x) 0) as [H|H].
    + split; [discriminate|tauto].
    + split; [intros [= <-]|intros [_ E]].
      * split; [exact H|]. unfold tan. field. exact H.
      * f_equal. unfold tan. rewrite <- E. field. exact H.
Qed.

Lemma int_part_whole z : Int_part (IZR z) = z.
Proof.
  destruct (base_Int_part (IZR z)) as [A B]. apply le_IZR in A. assert (C : (z - Int_part (IZR z) < 1)%Z) by (apply lt_IZR; rewrite minus_IZR; lra). lia.
Qed.
Lemma whole_part y : y = IZR (Int_part y) \/ forall z, y <> IZR z.
Proof. destruct (Req_EM_T y (IZR (Int_part y))) as [E|N]; [now left|right]. intros z ->. apply N. now rewrite int_part_whole. Qed.
Lemma rpow_power x y z : rpow x y = Some z <-> power_is x y z.
Proof.
  unfold rpow, power_is. destruct (Rlt_dec 0 x) as [P|NP].
  - split.
    + intros [= <-]. right; right; left. split; [exact P|]. exists (ln x). split; [now apply exp_ln|reflexivity].
    + intros [(n & -> & ->)|[(n & -> & N & E)|[(_ & l & <- & ->)|(E & _)]]].
      * now rewrite Rpower_pow.
      * f_equal. rewrite Rpower_Ropp, Rpower_pow by exact P. assert (x ^ n <> 0) by (apply pow_nonzero; exact N).
        apply (Rmult_eq_reg_r (x ^ n)); [|assumption]. rewrite E. field. assumption.
      * unfold Rpower. rewrite ln_exp. reflexivity.
      * lra.
  - assert (W : forall k : Z, y = IZR k -> (exists n : nat, k = Z.of_nat n /\ y = INR n) \/ (exists n : nat, k = (- Z.of_nat (S n))%Z /\ y = - INR (S n))).
    { intros k ->. destruct (Z_le_gt_dec 0 k) as [L|G].
      - left. exists (Z.to_nat k). split; [lia|]. rewrite INR_IZR_INZ. f_equal. lia.
      - right. exists (Z.to_nat (- k) - 1)%nat. split; [lia|]. rewrite INR_IZR_INZ, <- opp_IZR. f_equal. lia. }
    assert (PZ : forall n, powerRZ x (Z.of_nat n) = x ^ n) by (intros n; symmetry; apply pow_powerRZ).
    assert (PN : forall n, x <> 0 -> powerRZ x (- Z.of_nat n) * x ^ n = 1).
    { intros n N. rewrite <- PZ, <- powerRZ_add by exact N. replace (- Z.of_nat n + Z.of_nat n)%Z with 0%Z by lia. reflexivity. }
    destruct (Req_EM_T y (IZR (Int_part y))) as [E|NI].
    + destruct (W _ E) as [(n & K & Y)|(n & K & Y)]; rewrite K.
      * assert (Q : (if Req_EM_T x 0 then if Z_lt_dec (Z.of_nat n) 0 then None else Some (powerRZ x (Z.of_nat n)) else Some (powerRZ x (Z.of_nat n))) = Some (x ^ n)).
        { rewrite PZ. destruct (Req_EM_T x 0); [|reflexivity]. destruct (Z_lt_dec (Z.of_nat n) 0); [lia|reflexivity]. }
        rewrite Q. split; [intros [= <-]; left; exists n; now split|].
        intros [(m & Ym & ->)|[(m & Ym & N & Z)|[(P & _)|(-> & L & ->)]]].
        -- rewrite Y in Ym. apply INR_eq in Ym. now subst.
        -- rewrite Y in Ym. assert (A := pos_INR n). assert (B := pos_INR m). assert (INR n = 0) by lra. assert (INR m = 0) by lra.
           assert (n = 0%nat) by (apply INR_eq; exact H). assert (m = 0%nat) by (apply INR_eq; exact H0). subst. cbn in Z |- *. f_equal. lra.
        -- lra.
        -- rewrite pow_ne_zero; [reflexivity|]. intros ->. cbn in Y. lra.
      * destruct (Req_EM_T x 0) as [X|X].
        -- destruct (Z_lt_dec (- Z.of_nat (S n)) 0) as [_|G]; [|lia]. split; [discriminate|].
           assert (L : INR (S n) > 0) by (apply lt_0_INR; lia).
           intros [(m & Ym & _)|[(m & _ & N & _)|[(P & _)|(_ & L' & _)]]]; [|contradiction|lra|lra]. assert (B := pos_INR m). lra.
        -- assert (PNn := PN (S n) X). set (p := powerRZ x (- Z.of_nat (S n))) in *. clearbody p. split.
           ++ intros [= <-]. right; left. exists (S n). split; [exact Y|]. split; [exact X|]. exact PNn.
           ++ intros H. f_equal. assert (R : x ^ S n <> 0) by (now apply pow_nonzero). apply (Rmult_eq_reg_r (x ^ S n)); [|exact R]. rewrite PNn.
              assert (L : INR (S n) > 0) by (apply lt_0_INR; lia).
              destruct H as [(m & Ym & _)|[(m & Ym & N & Z)|[(P & _)|(Z & _)]]]; [|replace (S n) with m; [now symmetry|apply INR_eq; lra]|lra|contradiction].
              assert (B := pos_INR m). lra.
    + assert (NW : forall k, y <> IZR k) by (destruct (whole_part y) as [K|K]; [contradiction|exact K]).
      assert (N1 : forall n, y <> INR n) by (intros n; rewrite INR_IZR_INZ; apply NW).
      assert (N2 : forall n, y <> - INR n) by (intros n; rewrite INR_IZR_INZ, <- opp_IZR; apply NW).
      destruct (Req_EM_T x 0) as [X|X].
      * destruct (Rlt_dec 0 y) as [L|L].
        -- split; [intros [= <-]; right; right; right; auto|]. intros [(n & H & _)|[(n & H & _)|[(P & _)|(_ & _ & ->)]]]; [now destruct (N1 n)|now destruct (N2 n)|lra|reflexivity].
        -- split; [discriminate|]. intros [(n & H & _)|[(n & H & _)|[(P & _)|(_ & L' & _)]]]; [now destruct (N1 n)|now destruct (N2 n)|lra|contradiction].
      * split; [discriminate|]. intros [(n & H & _)|[(n & H & _)|[(P & _)|(Z & _)]]]; [now destruct (N1 n)|now destruct (N2 n)|lra|contradiction].
Qed.

Lemma arith_op o x y z : arith o (Some x) (Some y) = Some z <-> op_is o x y z.
Proof.
  destruct o; cbn [arith op_is].
  - split; [intros [= <-]; reflexivity|intros ->; reflexivity].
  - split; [intros [= <-]; ring|intros <-; f_equal; ring].
  - split; [intros [= <-]; reflexivity|intros ->; reflexivity].
  - destruct (Req_EM_T y 0) as [H|H]; [split; [discriminate|tauto]|].
    split; [intros [= <-]; split; [exact H|field; exact H]|intros [_ <-]; f_equal; field; exact H].
  - apply rpow_power.
Qed.
Lemma arith_some o a b z : arith o a b = Some z <-> exists x y, a = Some x /\ b = Some y /\ op_is o x y z.
Proof.
  split.
  - destruct a as [x|], b as [y|]; try discriminate. intros H. exists x, y. split; [reflexivity|]. split; [reflexivity|]. now apply arith_op.
  - intros (x & y & -> & -> & H). now apply arith_op.
Qed.

Lemma extremum_best mx : forall ys y, ys <> [] -> (extremum mx (map Some ys) = Some y <-> extreme mx ys y).
Proof.
  assert (U : forall ys y z, extreme mx ys y -> extreme mx ys z -> y = z).
  { intros ys y z [I1 A1] [I2 A2]. specialize (A1 _ I2). specialize (A2 _ I1). destruct mx; lra. }
  assert (E : forall ys, ys <> [] -> exists y, extremum mx (map Some ys) = Some y /\ extreme mx ys y).
  { induction ys as [|a [|b r] IH]; intros N; [contradiction| |].
    - exists a. split; [reflexivity|]. split; [now left|]. intros x [<-|[]]. destruct mx; lra.
    - destruct IH as (y & E & I & A); [discriminate|].
      change (extremum mx (map Some (a :: b :: r))) with (match extremum mx (map Some (b :: r)) with Some y => Some (pick mx a y) | None => None end).
      rewrite E. exists (pick mx a y). split; [reflexivity|]. unfold pick. destruct mx.
      + split.
        * unfold Rmax. destruct (Rle_dec a y); [right; exact I|now left].
        * intros x [<-|H]; [apply Rmax_l|]. eapply Rle_trans; [apply (A _ H)|apply Rmax_r].
      + split.
        * unfold Rmin. destruct (Rle_dec a y); [now left|right; exact I].
        * intros x [<-|H]; [apply Rmin_l|]. eapply Rle_trans; [apply Rmin_r|apply (A _ H)]. }
  intros ys y N. destruct (E ys N) as (z & Ez & Bz). split.
  - rewrite Ez. intros [= <-]. exact Bz.
  - intros B. rewrite Ez. f_equal. exact (U _ _ _ Bz B).
Qed.
Lemma extremum_all mx : forall l y, extremum mx l = Some y -> exists ys, l = map Some ys.
Proof.
  induction l as [|a r IH]; intros y H; [discriminate H|]. destruct r as [|b r].
  - cbn in H. subst a. exists [y]. reflexivity.
  - change (match a, extremum mx (b :: r) with Some x, Some z => Some (pick mx x z) | _, _ => None end = Some y) in H.
    destruct a as [x|]; [|discriminate H]. destruct (extremum mx (b :: r)) as [z|] eqn:E; [|discriminate H].
    destruct (IH _ eq_refl) as (ys & ->). exists (x :: ys). reflexivity.
Qed.

(** Any evaluation that goes case by case gives what the expression comes to. *)
Section Evaluation.
  Context {A : Type} (is : A -> R -> Prop) (rate : A -> A -> R -> Prop) (qv : A -> option R) (rv : A -> option A -> option R).
  Variables (ev : uexpr A -> option R) (evs : uargs A -> list (option R)).
  Hypothesis qv_is : forall a y, qv a = Some y <-> is a y.
  Hypothesis rv_rate : forall a t y, rv a t = Some y <-> rate a (match t with Some b => b | None => a end) y.
  Hypothesis ev_qty : forall a, ev (UQty a) = qv a.
  Hypothesis ev_bin : forall o a b, ev (UBin o a b) = arith o (ev a) (ev b).
  Hypothesis ev_right : forall o a k, ev (UNumR o a k) = arith o (ev a) (num_value k).
  Hypothesis ev_left : forall o k a, ev (UNumL o k a) = arith o (num_value k) (ev a).
  Hypothesis ev_fun : forall f a, ev (UFun f a) = match ev a with Some x => fn_value f x | None => None end.
  Hypothesis ev_funn : forall f k, ev (UFunN f k) = match num_value k with Some x => fn_value f x | None => None end.
  Hypothesis ev_rate : forall a t, ev (UDiff a t) = rv a t.
  Hypothesis ev_best : forall mx l, ev (UMinMax mx l) = extremum mx (evs l).
  Hypothesis evs_nil : evs ANil = [].
  Hypothesis evs_expr : forall e r, evs (AExpr e r) = ev e :: evs r.
  Hypothesis evs_num : forall k r, evs (ANum k r) = num_value k :: evs r.

  Lemma evaluation_comes : (forall e y, ev e = Some y <-> comes_to is rate e y) /\ (forall l ys, evs l = map Some ys <-> come_to is rate l ys).
  Proof.
    apply uexpr_uargs_ind.
    - intros a y. rewrite ev_qty, qv_is. split; [now constructor|intros H; now inversion H].
    - intros o a IHa b IHb z. rewrite ev_bin, arith_some. split.
      + intros (x & y & Ha & Hb & O). apply IHa in Ha. apply IHb in Hb. eapply ct_bin; eauto.
      + intros H. inversion H; subst. exists x, y. split; [now apply IHa|]. split; [now apply IHb|assumption].
    - intros o a IHa k z. rewrite ev_right, arith_some. split.
      + intros (x & y & Ha & Hb & O). apply IHa in Ha. apply number_value in Hb. eapply ct_right; eauto.
      + intros H. inversion H; subst. exists x, y. split; [now apply IHa|]. split; [now apply number_value|assumption].
    - intros o k a IHa z. rewrite ev_left, arith_some. split.
      + intros (x & y & Ha & Hb & O). apply IHa in Hb. apply number_value in Ha. eapply ct_left; eauto.
      + intros H. inversion H; subst. exists x, y. split; [now apply number_value|]. split; [now apply IHa|assumption].
    - intros f a IHa y. rewrite ev_fun. split.
      + destruct (ev a) as [x|] eqn:E; [|discriminate]. intros H. apply fn_value_graph in H. eapply ct_fun; [apply IHa; reflexivity|exact H].
      + intros H. inversion H; subst. match goal with C : comes_to _ _ a _ |- _ => apply IHa in C; rewrite C end. now apply fn_value_graph.
    - intros f k y. rewrite ev_funn. split.
      + destruct (num_value k) as [x|] eqn:E; [|discriminate]. intros H. apply fn_value_graph in H. apply number_value in E. eapply ct_fun_number; eauto.
      + intros H. inversion H; subst. match goal with C : number_is k _ |- _ => apply number_value in C; rewrite C end. now apply fn_value_graph.
    - intros a [t|] y; rewrite ev_rate, rv_rate; (split; [now constructor|intros H; now inversion H]).
    - intros mx l IH y. rewrite ev_best. split.
      + intros H. destruct (extremum_all _ _ _ H) as (ys & E). assert (N : ys <> []) by (intros ->; cbn in E; rewrite E in H; discriminate H).
        rewrite E in H. apply extremum_best in H; [|exact N]. apply IH in E. eapply ct_best; eauto.
      + intros H. inversion H; subst. match goal with C : come_to _ _ l _ |- _ => apply IH in C; rewrite C end. apply extremum_best; [|assumption].
        intros ->. match goal with B : extreme _ [] _ |- _ => destruct B as [[] _] end.
    - intros ys. rewrite evs_nil. split.
      + destruct ys; [constructor|discriminate].
      + intros H. inversion H. reflexivity.
    - intros e IHe r IHr ys. rewrite evs_expr. split.
      + destruct ys as [|y ys]; [discriminate|]. cbn [map]. intros H. injection H as H1 H2. constructor; [now apply IHe|now apply IHr].
      + intros H. inversion H; subst. cbn [map]. f_equal; [now apply IHe|now apply IHr].
    - intros k r IHr ys. rewrite evs_num. split.
      + destruct ys as [|y ys]; [discriminate|]. cbn [map]. intros H. injection H as H1 H2. constructor; [now apply number_value|now apply IHr].
      + intros H. inversion H; subst. cbn [map]. f_equal; [now apply number_value|now apply IHr].
  Qed.
End Evaluation.

Lemma some_is {T} (x y : T) : Some x = Some y <-> y = x.
Proof. split; [intros [= ->]; reflexivity|intros ->; reflexivity]. Qed.
Lemma meaning_amounts h v e y : meaning h v e = Some y <-> amounts_to h v e y.
Proof.
  refine (proj1 (evaluation_comes (qty_is h v) (qty_rate h v) (qty_meaning h v) (der_meaning h v) (meaning h v) (meanings h v) _ _ _ _ _ _ _ _ _ _ _ _ _) e y);
    try reflexivity.
  - intros l z. unfold qty_meaning, qty_is. destruct (hget h l) as [q|]; [|split; [discriminate|intros (q & [=] & _)]].
    destruct (q_spec q) eqn:S.
    + rewrite number_value. split; [intros H; exists q; rewrite S; auto|intros (p & [= <-] & H); now rewrite S in H].
    + rewrite some_is. split; [intros H; exists q; rewrite S; auto|intros (p & [= <-] & H); now rewrite S in H].
  - intros l t z. unfold der_meaning, qty_rate. destruct (hget h l) as [q|]; [|split; [discriminate|intros (q & [=] & _)]].
    destruct (q_spec q) eqn:S; rewrite some_is; (split; [intros H; exists q; rewrite S; auto|intros (p & [= <-] & H); now rewrite S in H]).
Qed.
Lemma built_amount h v en e n y : env_for h v en -> build h e = Ok n -> (den (nd_sym n) en = Some y <-> amounts_to h v e y).
Proof. intros E B. rewrite (build_meaning h v en e n E B). apply meaning_amounts. Qed.
Lemma one_amount h v e y z : amounts_to h v e y -> amounts_to h v e z -> y = z.
Proof. intros A B. apply meaning_amounts in A. apply meaning_amounts in B. congruence. Qed.

Lemma value_reads D en e y : expr_value D en e = Some y <-> reads_as D en e y.
Proof.
  refine (proj1 (evaluation_comes (thing_is D en) (thing_rates D en) (fun a => match dget a D with Some t => thing_value en t | None => None end)
    (fun a b => expr_value D en (UDiff a b)) (expr_value D en) (args_values D en) _ _ _ _ _ _ _ _ _ _ _ _ _) e y); try reflexivity.
  - intros a z. unfold thing_is, thing_value. destruct (dget a D) as [t|]; [|split; [discriminate|intros (q & [=] & _)]].
    destruct (th_set t) eqn:S.
    + rewrite number_value. split; [intros H; exists t; rewrite S; auto|intros (p & [= <-] & H); now rewrite S in H].
    + rewrite some_is. split; [intros H; exists t; rewrite S; auto|intros (p & [= <-] & H); now rewrite S in H].
  - intros a b z. unfold thing_rates. destruct b as [b|]; cbn [expr_value]; unfold thing_rate.
    + destruct (dget a D) as [t|]; [|split; [discriminate|intros (q & s & [=] & _)]].
      destruct (dget b D) as [s|]; [|split; [discriminate|intros (q & s & _ & [=] & _)]].
      destruct (th_set t) eqn:S; rewrite some_is; (split; [intros H; exists t, s; rewrite S; auto|intros (p & p' & [= <-] & [= <-] & H); now rewrite S in H]).
    + destruct (dget a D) as [t|]; [|split; [discriminate|intros (q & s & [=] & _)]].
      destruct (th_set t) eqn:S; rewrite some_is; (split; [intros H; exists t, t; rewrite S; auto|intros (p & p' & [= <-] & [= <-] & H); now rewrite S in H]).
Qed.
Lemma reading_leaves D en n q y : wr_value (read_eq D n q) en = Some y <-> leaves D en q y.
Proof.
  destruct q as [e|l r|l k]; cbn [read_eq wr_value leaves].
  - apply value_reads.
  - rewrite arith_some. split; intros (a & b & H1 & H2 & H3); exists a, b; (split; [now apply value_reads|]; split; [now apply value_reads|exact H3]).
  - rewrite arith_some. split; intros (a & b & H1 & H2 & H3); exists a, b; (split; [now apply value_reads|]; split; [now apply number_value|exact H3]).
Qed.
Lemma reading_sides D en n q f g : wr_sides (read_eq D n q) = Some (f, g) -> forall y,
  (f en = Some y <-> match q with UElem l _ | UElemN l _ => reads_as D en l y | UResid _ => False end) /\
  (g en = Some y <-> match q with UElem _ r => reads_as D en r y | UElemN _ k => number_is k y | UResid _ => False end).
Proof.
  destruct q as [e|l r|l k]; cbn [read_eq wr_sides]; [discriminate| |]; intros H y; injection H as <- <-; (split; [apply value_reads|]); [apply value_reads|apply number_value].
Qed.

Lemma said_leaves D n q e : says (read_eq D n q) e -> exists nd, eq_expr e = Some nd /\ forall en y, den (nd_sym nd) en = Some y <-> leaves D en q y.
Proof. intros [(nd & E & H) _]. exists nd. split; [exact E|]. intros en y. rewrite H. apply reading_leaves. Qed.
Lemma said_sides D n l r e : says (read_eq D n (UElem l r)) e -> exists a b, eq_elem e = Some (a, b) /\
  forall en y, (den (nd_sym a) en = Some y <-> reads_as D en l y) /\ (den (nd_sym b) en = Some y <-> reads_as D en r y).
Proof.
  intros [_ [_ (a & b & E & Ha & Hb)]]. exists a, b. split; [exact E|]. intros en y. rewrite Ha, Hb. split; apply value_reads.
Qed.
Lemma solution_amount acts s b eng out i M d D n q : resolved acts s b -> distinct_models acts -> honest eng -> answer eng b out ->
  nth_error (created acts) i = Some (M, d) -> In i (added acts) -> legible M d -> In (read_eq D n (UResid q)) (written_by M d) ->
  reads_as D (bind_env out) q 0.
Proof. intros R N H A C I L W. apply value_reads. exact (solution_residual _ _ _ _ _ _ _ _ _ R N H A C I L W eq_refl). Qed.
