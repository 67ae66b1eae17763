(** Double arithmetic is exact on whole numbers of magnitude up to 2^53. *)
From Verif Require Import Base Num.
From Coq Require Import Reals Lra.
From Flocq Require Import Core BinarySingleNaN.
Open Scope Z_scope.
Notation num := Verif.Num.num.

Global Instance prec64_gt0 : Prec_gt_0 53 := eq_refl _.
Global Instance prec64_lt : Prec_lt_emax 53 1024 := eq_refl _.

Notation b64 := (binary_float 53 1024).
Notation fexp64 := (SpecFloat.fexp 53 1024).

(** ** Equivalence of the [SpecFloat] operations with Flocq's (for binary64) *)
Lemma round_ne_equiv s m l : round_nearest_even m l = choice_mode mode_NE s m l.
Proof.
  case l; [reflexivity|intro c]. case c; [ | reflexivity..].
  now simpl; unfold Round.cond_incr; case Z.even.
Qed.

Lemma round_aux_equiv sx mx ex lx :
  SpecFloat.binary_round_aux 53 1024 sx mx ex lx
  = binary_round_aux 53 1024 mode_NE sx mx ex lx.
Proof.
  unfold SpecFloat.binary_round_aux, binary_round_aux.
  set (mrse' := shr_fexp _ _ _ _ _).
  case mrse'; intros mrs' e'; simpl.
  now rewrite (round_ne_equiv sx).
Qed.

Lemma round_equiv s m e :
  SpecFloat.binary_round 53 1024 s m e = binary_round 53 1024 mode_NE s m e.
Proof.
  unfold SpecFloat.binary_round, binary_round, shl_align_fexp.
  set (mez := shl_align _ _ _); case mez as [mz ez].
  apply round_aux_equiv.
Qed.

Lemma normalize_equiv m e szero :
  SpecFloat.binary_normalize 53 1024 m e szero
  = B2SF (binary_normalize 53 1024 _ _ mode_NE m e szero).
Proof.
  case m as [ | p | p].
  - now simpl.
  - simpl; rewrite B2SF_SF2B; apply round_equiv.
  - simpl; rewrite B2SF_SF2B; apply round_equiv.
Qed.

Lemma SFmul_equiv (x y : b64) : SFmul 53 1024 (B2SF x) (B2SF y) = B2SF (Bmult mode_NE x y).
Proof.
  case x as [sx|sx| |sx mx ex Bx]; case y as [sy|sy| |sy my ey By]; [now trivial.. | ].
  simpl. rewrite B2SF_SF2B. apply round_aux_equiv.
Qed.

Lemma SFadd_equiv (x y : b64) : SFadd 53 1024 (B2SF x) (B2SF y) = B2SF (Bplus mode_NE x y).
Proof.
  case x as [sx|sx| |sx mx ex Bx]; case y as [sy|sy| |sy my ey By];
    [now (trivial || simpl; case Bool.eqb).. | ].
  apply normalize_equiv.
Qed.

Lemma SFsub_equiv (x y : b64) : SFsub 53 1024 (B2SF x) (B2SF y) = B2SF (Bminus mode_NE x y).
Proof.
  case x as [sx|sx| |sx mx ex Bx]; case y as [sy|sy| |sy my ey By];
    [now (trivial || simpl; case Bool.eqb).. | ].
  simpl. unfold Zminus. rewrite <- cond_Zopp_negb. apply normalize_equiv.
Qed.

(** ** Whole numbers *)
Definition small (z : Z) : Prop := Z.abs z <= 2 ^ 53.

Lemma generic_small z : small z -> generic_format radix2 fexp64 (IZR z).
Proof.
  intros Hz.
  destruct (Z.eq_dec (Z.abs z) (2 ^ 53)) as [E|NE].
  - assert (Hb : IZR z = bpow radix2 53 \/ IZR z = (- bpow radix2 53)%R).
    { assert (Hz' : z = 2 ^ 53 \/ z = - 2 ^ 53) by lia.
      destruct Hz' as [->| ->]; [left|right]; simpl; lra. }
    destruct Hb as [->| ->]; [|apply generic_format_opp];
      apply generic_format_bpow; unfold SpecFloat.fexp, SpecFloat.emin; lia.
  - replace (IZR z) with (F2R (Float radix2 z 0)) by (unfold F2R; simpl; ring).
    apply generic_format_F2R. intros Hnz.
    unfold cexp.
    assert (Hm : (mag radix2 (F2R (Float radix2 z 0)) <= 53)%Z).
    { apply mag_le_bpow.
      - unfold F2R; simpl. rewrite Rmult_1_r. now apply IZR_neq.
      - unfold F2R; simpl. rewrite Rmult_1_r, <- abs_IZR.
        change (IZR (Z.pow_pos 2 53)) with (IZR (2 ^ 53)).
        apply IZR_lt. unfold small in Hz. lia. }
    unfold SpecFloat.fexp, SpecFloat.emin. lia.
Qed.

Lemma small_lt_emax z : small z -> (Rabs (IZR z) < bpow radix2 1024)%R.
Proof.
  intros Hz. rewrite <- abs_IZR.
  apply Rle_lt_trans with (bpow radix2 53).
  - change (bpow radix2 53) with (IZR (2 ^ 53)). now apply IZR_le.
  - apply bpow_lt. lia.
Qed.

Lemma round_small z : small z -> round radix2 fexp64 (round_mode mode_NE) (IZR z) = IZR z.
Proof.
  intros Hz. apply round_generic; [apply valid_rnd_round_mode|now apply generic_small].
Qed.

Definition frep (f : spec_float) (z : Z) : Prop :=
  exists b : b64, B2SF b = f /\ is_finite b = true /\ B2R b = IZR z.

Lemma float_of_Z_rep z : small z -> frep (float_of_Z z) z.
Proof.
  intros Hz. unfold float_of_Z. rewrite normalize_equiv.
  eexists; split; [reflexivity|].
  generalize (binary_normalize_correct 53 1024 _ _ mode_NE z 0 false). simpl.
  replace (F2R (Float radix2 z 0)) with (IZR z) by (unfold F2R; simpl; ring).
  rewrite round_small by exact Hz.
  rewrite Rlt_bool_true by now apply small_lt_emax.
  intros (H1 & H2 & _). now split.
Qed.

Lemma SFadd_rep f g a b :
  frep f a -> frep g b -> small (a + b) -> frep (SFadd 53 1024 f g) (a + b).
Proof.
  intros (x & <- & Fx & Rx) (y & <- & Fy & Ry) Hs. rewrite SFadd_equiv.
  eexists; split; [reflexivity|].
  generalize (Bplus_correct 53 1024 _ _ mode_NE x y Fx Fy).
  rewrite Rx, Ry, <- plus_IZR, round_small by exact Hs.
  rewrite Rlt_bool_true by now apply small_lt_emax.
  intros (H1 & H2 & _). now split.
Qed.

Lemma SFsub_rep f g a b :
  frep f a -> frep g b -> small (a - b) -> frep (SFsub 53 1024 f g) (a - b).
Proof.
  intros (x & <- & Fx & Rx) (y & <- & Fy & Ry) Hs. rewrite SFsub_equiv.
  eexists; split; [reflexivity|].
  generalize (Bminus_correct 53 1024 _ _ mode_NE x y Fx Fy).
  rewrite Rx, Ry, <- minus_IZR, round_small by exact Hs.
  rewrite Rlt_bool_true by now apply small_lt_emax.
  intros (H1 & H2 & _). now split.
Qed.

Lemma SFmul_rep f g a b :
  frep f a -> frep g b -> small (a * b) -> frep (SFmul 53 1024 f g) (a * b).
Proof.
  intros (x & <- & Fx & Rx) (y & <- & Fy & Ry) Hs. rewrite SFmul_equiv.
  eexists; split; [reflexivity|].
  generalize (Bmult_correct 53 1024 _ _ mode_NE x y).
  rewrite Rx, Ry, <- mult_IZR, round_small by exact Hs.
  rewrite Rlt_bool_true by now apply small_lt_emax.
  rewrite Fx, Fy. intros (H1 & H2 & _). now split.
Qed.

Lemma SFopp_rep f a : frep f a -> frep (SFopp f) (- a).
Proof.
  intros (x & <- & Fx & Rx). exists (Bopp x). split; [|split].
  - now destruct x.
  - now rewrite is_finite_Bopp.
  - now rewrite B2R_Bopp, Rx, opp_IZR.
Qed.

Lemma SFeqb_rep f g a b : frep f a -> frep g b -> SFeqb f g = (a =? b).
Proof.
  intros (x & <- & Fx & Rx) (y & <- & Fy & Ry).
  unfold SFeqb. fold (Bcompare x y). rewrite (Bcompare_correct 53 1024 x y Fx Fy), Rx, Ry.
  rewrite Rcompare_IZR. symmetry. apply Z.eqb_compare.
Qed.

Lemma bpow_IZR_pos e : 0 <= e -> bpow radix2 e = IZR (2 ^ e).
Proof. intros He. symmetry. apply (IZR_Zpower radix2 e He). Qed.

Lemma float_eq_Z_rep f a z : frep f a -> float_eq_Z f z = (z =? a).
Proof.
  intros (x & <- & Fx & Rx).
  destruct x as [s|s| |s m e Hb]; simpl in *; try discriminate.
  - apply eq_sym, eq_IZR in Rx. now subst a.
  - set (v := if s then Z.neg m else Z.pos m).
    assert (Hv : cond_Zopp s (Z.pos m) = v) by now destruct s.
    rewrite Hv in Rx. unfold F2R in Rx; simpl in Rx.
    destruct (Z.leb_spec 0 e) as [He|He].
    + rewrite bpow_IZR_pos, <- mult_IZR in Rx by exact He.
      apply eq_IZR in Rx. now rewrite Rx.
    + assert (Hv2 : v = a * 2 ^ (- e)).
      { apply eq_IZR. rewrite mult_IZR, <- bpow_IZR_pos, <- Rx by lia.
        rewrite Rmult_assoc, <- bpow_plus.
        replace (e + - e) with 0 by lia. simpl. ring. }
      rewrite Hv2.
      assert (0 < 2 ^ (- e)) by (apply Z.pow_pos_nonneg; lia).
      destruct (Z.eqb_spec z a) as [->|Hne]; [now apply Z.eqb_refl|].
      apply Z.eqb_neq. intros Heq. apply Hne. nia.
Qed.

(** ** Python numbers that stand for the whole number [z] *)

(** [WInt]: every number is a Python int (no size limit);
    [WSmall]: ints and doubles mixed, magnitudes up to 2^53. *)
Inductive world := WInt | WSmall.

Definition okz (w : world) (z : Z) : Prop :=
  match w with WInt => True | WSmall => small z end.

Definition nrep (w : world) (x : num) (z : Z) : Prop :=
  match w with
  | WInt => x = PInt z
  | WSmall => small z /\ match x with PInt a => a = z | PFloat f => frep f z end
  end.

Lemma nrep_okz w x z : nrep w x z -> okz w z.
Proof. destruct w; simpl; [tauto|now intros [? _]]. Qed.

Lemma to_float_rep x z : nrep WSmall x z -> frep (to_float x) z.
Proof.
  intros [Hs Hx]. destruct x as [a|f]; simpl; [|exact Hx].
  subst a. now apply float_of_Z_rep.
Qed.

Lemma nadd_rep w x y a b :
  nrep w x a -> nrep w y b -> okz w (a + b) -> nrep w (nadd x y) (a + b).
Proof.
  destruct w.
  - simpl. now intros -> ->.
  - intros Hx Hy Hs. split; [exact Hs|].
    assert (Fx := to_float_rep _ _ Hx). assert (Fy := to_float_rep _ _ Hy).
    destruct Hx as [_ Hx], Hy as [_ Hy].
    destruct x as [i|f], y as [j|g]; simpl in *; try (now apply SFadd_rep).
    now subst.
Qed.

Lemma nsub_rep w x y a b :
  nrep w x a -> nrep w y b -> okz w (a - b) -> nrep w (nsub x y) (a - b).
Proof.
  destruct w.
  - simpl. now intros -> ->.
  - intros Hx Hy Hs. split; [exact Hs|].
    assert (Fx := to_float_rep _ _ Hx). assert (Fy := to_float_rep _ _ Hy).
    destruct Hx as [_ Hx], Hy as [_ Hy].
    destruct x as [i|f], y as [j|g]; simpl in *; try (now apply SFsub_rep).
    now subst.
Qed.

Lemma nmul_rep w x y a b :
  nrep w x a -> nrep w y b -> okz w (a * b) -> nrep w (nmul x y) (a * b).
Proof.
  destruct w.
  - simpl. now intros -> ->.
  - intros Hx Hy Hs. split; [exact Hs|].
    assert (Fx := to_float_rep _ _ Hx). assert (Fy := to_float_rep _ _ Hy).
    destruct Hx as [_ Hx], Hy as [_ Hy].
    destruct x as [i|f], y as [j|g]; simpl in *; try (now apply SFmul_rep).
    now subst.
Qed.

Lemma nopp_rep w x a : nrep w x a -> nrep w (nopp x) (- a).
Proof.
  destruct w.
  - simpl. now intros ->.
  - intros [Hs Hx]. split; [unfold small in *; lia|].
    destruct x as [i|f]; simpl; [lia|now apply SFopp_rep].
Qed.

Lemma neqb_rep w x y a b : nrep w x a -> nrep w y b -> neqb x y = (a =? b).
Proof.
  destruct w.
  - simpl. now intros -> ->.
  - intros [_ Hx] [_ Hy].
    destruct x as [i|f], y as [j|g]; simpl in *; subst.
    + reflexivity.
    + now apply float_eq_Z_rep.
    + rewrite (float_eq_Z_rep _ _ _ Hx). apply Z.eqb_sym.
    + now apply SFeqb_rep.
Qed.

Lemma nrep_int w z : okz w z -> nrep w (PInt z) z.
Proof. destruct w; simpl; [reflexivity|now split]. Qed.

Lemma nrep_zero_float b : nrep WSmall (PFloat (S754_zero b)) 0.
Proof.
  split; [unfold small; lia|]. exists (B754_zero b). now repeat split.
Qed.

Lemma nrep_unique w x a b : nrep w x a -> nrep w x b -> a = b.
Proof.
  destruct w; simpl.
  - intros ->. now injection 1.
  - intros [_ Ha] [_ Hb]. destruct x as [i|f]; [congruence|].
    destruct Ha as (u & Hu & _ & Ru), Hb as (v & Hv & _ & Rv).
    rewrite <- Hv in Hu. apply B2SF_inj in Hu. subst v.
    apply eq_IZR. congruence.
Qed.
