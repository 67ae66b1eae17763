(** Proofs about numbers with units (C54) and units of different size (C55). *)
From Verif Require Import Base BaseFacts Num NumFacts UnitModel UnitFacts Sympy Node Build QtyFacts SpecUnits UnitThms SpecExpr SpecQty
  SpecUnitOps StreamFacts SpecLookup.
From Coq Require Import Reals Lra.
From Flocq Require Import Core BinarySingleNaN.
Notation num := Verif.Num.num.

Lemma literal_product u n : a_unit u ->
  exists r, unit_mul_op u (UANum n) = Ok (URQuantity r n) /\ same_exponents r u.
Proof.
  intros Hu. eexists. split; [reflexivity|]. intros k. apply unit_copy_get. now apply a_unit_wf.
Qed.

Lemma ordinary_nonzero n x : ordinary n x -> neqb n (PInt 0) = false.
Proof.
  intros O. destruct (neqb n (PInt 0)) eqn:E; [exfalso|reflexivity].
  assert (V : nvalue n x).
  { destruct O as (V & W & _). destruct n as [z|f]; simpl in *; [congruence|].
    exists (SF2B f W). rewrite B2SF_SF2B. split; [reflexivity|].
    destruct f; simpl in V; try discriminate V; injection V as <-; split; reflexivity. }
  apply (neqb_value n (PInt 0) x 0%R V eq_refl) in E. subst x.
  destruct O as (_ & _ & L & _). rewrite Rabs_R0 in L. assert (P : (0 < 2 ^ 300)%R) by (apply pow_lt; lra).
  apply Rinv_0_lt_compat in P. lra.
Qed.

Lemma literal_quotient u n x : a_unit u -> ordinary n x ->
  exists r i t, unit_div_op u (UANum n) = Ok (URQuantity r i) /\ same_exponents r u /\
    num_value i = Some (/ x * t)%R /\ (Rabs (t - 1) <= / 2 ^ 49)%R.
Proof.
  intros Hu O. cbn [unit_div_op]. unfold ninv. rewrite (ordinary_nonzero n x O). cbn [rbind].
  assert (C := ordinary_close n x O). assert (M := ordinary_mid n x O).
  assert (X0 : x <> 0%R).
  { intros ->. destruct O as (_ & _ & L & _). rewrite Rabs_R0 in L. assert (P : (0 < 2 ^ 300)%R) by (apply pow_lt; lra).
    apply Rinv_0_lt_compat in P. lra. }
  assert (C1 : close (float_of_Z 1) 1 ulp1).
  { assert (O1 : ordinary (PInt 1) 1).
    { split; [reflexivity|]. split; [exact I|]. rewrite Rabs_R1. assert (P : (1 <= 2 ^ 300)%R) by (apply pow_R1_Rle; lra).
      split; [|exact P]. rewrite <- Rinv_1. apply Rinv_le_contravar; lra. }
    exact (ordinary_close _ _ O1). }
  assert (U : (0 <= ulp1 <= / 1000)%R) by (unfold ulp1; lra).
  assert (D := close_div (float_of_Z 1) (to_float n) 1 x ulp1 ulp1 300 ltac:(lia) ltac:(lra) ltac:(lra) ltac:(lra) X0).
  assert (Md : mid 300 (1 / x)).
  { destruct M as [L H]. unfold mid, Rdiv. rewrite Rmult_1_l, Rabs_inv. rewrite bpow_opp in *.
    assert (P := bpow_gt_0 radix2 300). assert (A : (0 < Rabs x)%R) by now apply Rabs_pos_lt. split.
    - now apply Rinv_le_contravar.
    - rewrite <- (Rinv_inv (bpow radix2 300)). apply Rinv_le_contravar; [now apply Rinv_0_lt_compat|exact L]. }
  destruct (close_value _ _ _ (D Md C1 C)) as [t [V T]]. do 2 eexists. exists t. split; [reflexivity|].
  split; [intros k; apply unit_copy_get; now apply a_unit_wf|]. split.
  - rewrite V. f_equal. unfold Rdiv. ring.
  - eapply Rle_trans; [exact T|]. unfold ulp1. lra.
Qed.

Lemma literal_zero u n : nvalue n 0%R -> unit_div_op u (UANum n) = Raise EZeroDivision.
Proof.
  intros V. cbn [unit_div_op]. unfold ninv.
  assert (E : neqb n (PInt 0) = true) by (apply (neqb_value n (PInt 0) 0%R 0%R V eq_refl); reflexivity).
  now rewrite E.
Qed.

Lemma literal_assign q u n : q_kind q = KQuantity -> comparable u (q_units q) ->
  (same_dimension u (q_units q) -> exists q', set_value q (SVQty (literal u n)) None = Ok q' /\ q_value q' = n /\ q_units q' = q_units q) /\
  (~ same_dimension u (q_units q) -> set_value q (SVQty (literal u n)) None = Raise EDimCoherence).
Proof.
  intros K (Hu & Hv & Hn & Fu & Fv). destruct (coherent_decides u (q_units q) Hu Hv Hn Fu Fv) as (b & Hb & Hs).
  unfold set_value, isinstance_of. rewrite K. cbn [literal q_units q_value]. rewrite Hb. cbn [rbind]. destruct b; split; intros H.
  - eexists. split; [reflexivity|]. split; reflexivity.
  - destruct H. now apply Hs.
  - apply Hs in H. discriminate.
  - reflexivity.
Qed.

Lemma literal_never q u n x : q_kind q <> KQuantity -> set_value q (SVQty (literal u n)) x = Raise EUnexpectedValue.
Proof.
  intros K. unfold set_value, isinstance_of. cbn [literal q_kind]. destruct (q_kind q); try reflexivity. congruence.
Qed.

Lemma sizes_unseen q a u v : comparable u (q_units q) -> comparable v (q_units q) -> same_dimension u v ->
  set_value q a (Some u) = set_value q a (Some v).
Proof.
  intros (Hu & Hq & Hn & Fu & Fq) (Hv & _ & Hm & Fv & _) S.
  destruct (coherent_decides u _ Hu Hq Hn Fu Fq) as (b & Hb & Bs).
  destruct (coherent_decides v _ Hv Hq Hm Fv Fq) as (c & Hc & Cs).
  assert (E : b = c).
  { apply Bool.eq_iff_eq_true. rewrite Bs, Cs. split; intros H k x y r s Ex Ey Rx Ry.
    - destruct (exponent u k) as [z|] eqn:Eu.
      + destruct (Fu k z Eu) as [t Rz]. rewrite <- (S k z x t r Eu Ex Rz Rx). now apply (H k z y t s).
      + apply Hn in Eu. congruence.
    - destruct (exponent v k) as [z|] eqn:Ev.
      + destruct (Fv k z Ev) as [t Rz]. rewrite (S k x z r t Ex Ev Rx Rz). now apply (H k z y t s).
      + apply Hm in Ev. congruence. }
  unfold set_value. rewrite Hb, Hc, E. reflexivity.
Qed.
