(** Molar and mass flow of material streams. *)
From Verif Require Import Base BaseFacts Num NumFacts UnitModel Sympy Node Build QtyFacts EquationModel ModelModel PackageModel UnitOpModel
  SpecUnits SpecExpr SpecQty SpecModel SpecUnitOps BuildFacts EquationFacts ModelFacts UnitOpFacts UnitLibFacts.
From Coq Require Import Reals Lra.
From Flocq Require Import Core BinarySingleNaN Relative.
Notation num := Verif.Num.num.
Open Scope R_scope.

Definition ulp1 : R := / 9007199254740992.

Lemma ulp1_bpow : / 2 * bpow radix2 (-53 + 1) = ulp1.
Proof. unfold ulp1. simpl. lra. Qed.

(** Rounding in the middle of the range. *)
Lemma round_near x : bpow radix2 (-1000) <= Rabs x <= bpow radix2 1000 ->
  exists e, Rabs e <= ulp1 /\ round radix2 fexp64 (round_mode mode_NE) x = x * (1 + e) /\
    Rlt_bool (Rabs (round radix2 fexp64 (round_mode mode_NE) x)) (bpow radix2 1024) = true.
Proof.
  intros [L H].
  destruct (relative_error_N_FLT_ex radix2 (-1074) 53 eq_refl (fun x => negb (Z.even x)) x) as [e [He Hr]].
  { apply Rle_trans with (2 := L). apply bpow_le. lia. }
  assert (He1 : Rabs e <= ulp1) by (rewrite <- ulp1_bpow; exact He). clear He. rename He1 into He.
  exists e. split; [exact He|]. split; [exact Hr|].
  change (round radix2 fexp64 (round_mode mode_NE) x) with (round radix2 (FLT_exp (-1074) 53) (Znearest (fun x => negb (Z.even x))) x).
  rewrite Hr. apply Rlt_bool_true. rewrite Rabs_mult.
  apply Rle_lt_trans with (bpow radix2 1000 * 2).
  - apply Rmult_le_compat; try apply Rabs_pos; [exact H|].
    apply Rle_trans with (1 := Rabs_triang _ _). rewrite Rabs_R1. unfold ulp1 in He. lra.
  - change 2 with (bpow radix2 1). rewrite <- bpow_plus. apply bpow_lt. lia.
Qed.

(** A double worth [r] up to the relative error [d]. *)
Definition close (f : spec_float) (r d : R) : Prop :=
  exists (b : b64) t, B2SF b = f /\ is_finite b = true /\ B2R b = r * t /\ Rabs (t - 1) <= d.

Definition mid (k : Z) (r : R) : Prop := bpow radix2 (- k) <= Rabs r <= bpow radix2 k.

Lemma Rabs_le_both x d : Rabs x <= d -> - d <= x <= d.
Proof. intros H. unfold Rabs in H. destruct (Rcase_abs x); lra. Qed.

Lemma near_range k r t : (0 <= k < 999)%Z -> mid k r -> / 2 <= Rabs t <= 2 -> mid 1000 (r * t).
Proof.
  intros Hk [L H] [Lt Ht]. unfold mid. rewrite Rabs_mult. split.
  - apply Rle_trans with (bpow radix2 (- k) * bpow radix2 (-1)).
    + rewrite <- bpow_plus. apply bpow_le. lia.
    + apply Rmult_le_compat; try apply bpow_ge_0; [exact L|simpl; lra].
  - apply Rle_trans with (bpow radix2 k * bpow radix2 1).
    + apply Rmult_le_compat; try apply Rabs_pos; [exact H|simpl; lra].
    + rewrite <- bpow_plus. apply bpow_le. lia.
Qed.

Lemma product_error a b e t1 t2 : 0 <= a -> 0 <= b -> Rabs (t1 - 1) <= a -> Rabs (t2 - 1) <= b -> Rabs e <= ulp1 ->
  Rabs (t1 * t2 * (1 + e) - 1) <= (1 + a) * (1 + b) * (1 + ulp1) - 1.
Proof.
  intros Ha Hb H1 H2 H3. set (x := t1 - 1) in *. set (y := t2 - 1) in *.
  replace (t1 * t2 * (1 + e) - 1) with (x + y + e + x * y + x * e + y * e + x * y * e) by (unfold x, y; ring).
  assert (M : forall p q P Q, Rabs p <= P -> Rabs q <= Q -> Rabs (p * q) <= P * Q).
  { intros. rewrite Rabs_mult. apply Rmult_le_compat; auto using Rabs_pos. }
  assert (Q1 := M _ _ _ _ H1 H2). assert (Q2 := M _ _ _ _ H1 H3). assert (Q3 := M _ _ _ _ H2 H3). assert (Q4 := M _ _ _ _ Q1 H3).
  replace ((1 + a) * (1 + b) * (1 + ulp1) - 1) with (a + b + ulp1 + a * b + a * ulp1 + b * ulp1 + a * b * ulp1) by ring.
  repeat (eapply Rle_trans; [apply Rabs_triang|]; apply Rplus_le_compat; [|assumption]). exact H1.
Qed.

Lemma close_mul f g r s a b k : (0 <= k < 999)%Z -> 0 <= a -> 0 <= b -> (1 + a) * (1 + b) <= 1 + / 2 -> (1 + a) * (1 + b) - 1 <= / 2 ->
  mid k (r * s) -> close f r a -> close g s b ->
  close (SFmul 53 1024 f g) (r * s) ((1 + a) * (1 + b) * (1 + ulp1) - 1).
Proof.
  intros Hk Ha Hb Hab _ Hm (x & t1 & <- & Fx & Rx & T1) (y & t2 & <- & Fy & Ry & T2). rewrite SFmul_equiv.
  assert (P := product_error a b 0 t1 t2 Ha Hb T1 T2). rewrite Rabs_R0 in P.
  assert (U : 0 <= ulp1) by (unfold ulp1; lra). specialize (P U).
  assert (T : / 2 <= Rabs (t1 * t2) <= 2).
  { assert (G : Rabs (t1 * t2 - 1) <= (1 + a) * (1 + b) - 1).
    { set (p := t1 - 1) in *. set (q := t2 - 1) in *. replace (t1 * t2 - 1) with (p + q + p * q) by (unfold p, q; ring).
      replace ((1 + a) * (1 + b) - 1) with (a + b + a * b) by ring.
      eapply Rle_trans; [apply Rabs_triang|]. apply Rplus_le_compat.
      - eapply Rle_trans; [apply Rabs_triang|]. now apply Rplus_le_compat.
      - rewrite Rabs_mult. apply Rmult_le_compat; auto using Rabs_pos. }
    apply Rabs_le_both in G. rewrite Rabs_pos_eq; lra. }
  assert (E : B2R x * B2R y = r * s * (t1 * t2)) by (rewrite Rx, Ry; ring).
  destruct (round_near (B2R x * B2R y)) as [e [He [Hr Hb']]].
  { rewrite E. now apply near_range with k. }
  exists (Bmult mode_NE x y), (t1 * t2 * (1 + e)).
  generalize (Bmult_correct 53 1024 _ _ mode_NE x y). rewrite Hb', Fx, Fy. intros (H1 & H2 & _).
  split; [reflexivity|]. split; [exact H2|]. split.
  - rewrite H1, Hr, E. ring.
  - now apply product_error.
Qed.

Lemma SFdiv_equiv (x y : b64) : SFdiv 53 1024 (B2SF x) (B2SF y) = B2SF (Bdiv mode_NE x y).
Proof.
  case x as [sx|sx| |sx mx ex Bx]; case y as [sy|sy| |sy my ey By]; [now trivial.. | ].
  simpl. rewrite B2SF_SF2B. set (melz := SFdiv_core_binary _ _ _ _ _ _). case melz as [[mz ez] lz]. apply round_aux_equiv.
Qed.

Lemma quotient_error a b e t1 t2 : 0 <= a -> 0 <= b <= / 2 -> Rabs (t1 - 1) <= a -> Rabs (t2 - 1) <= b -> Rabs e <= ulp1 ->
  Rabs (t1 / t2 * (1 + e) - 1) <= (1 + a) * (1 + 2 * b) * (1 + ulp1) - 1.
Proof.
  intros Ha Hb H1 H2 H3. apply product_error; [exact Ha|lra|exact H1| |exact H3].
  apply Rabs_le_both in H2. replace (/ t2 - 1) with ((1 - t2) / t2) by (field; lra).
  unfold Rdiv. rewrite Rabs_mult, Rabs_inv. rewrite (Rabs_pos_eq t2) by lra.
  apply Rmult_le_reg_r with t2; [lra|]. rewrite Rmult_assoc, Rinv_l, Rmult_1_r by lra.
  apply Rle_trans with b; [apply Rabs_le; lra|]. nra.
Qed.

Lemma close_div f g r s a b k : (0 <= k < 999)%Z -> 0 <= a -> 0 <= b <= / 16 -> a <= / 16 ->
  s <> 0 -> mid k (r / s) -> close f r a -> close g s b ->
  close (SFdiv 53 1024 f g) (r / s) ((1 + a) * (1 + 2 * b) * (1 + ulp1) - 1).
Proof.
  intros Hk Ha Hb Hab Hs Hm (x & t1 & <- & Fx & Rx & T1) (y & t2 & <- & Fy & Ry & T2). rewrite SFdiv_equiv.
  pose proof (Rabs_le_both _ _ T1) as B1. pose proof (Rabs_le_both _ _ T2) as B2.
  assert (T2p : 0 < t2) by lra.
  assert (T : / 2 <= Rabs (t1 / t2) <= 2).
  { rewrite Rabs_pos_eq by (apply Rmult_le_pos; [lra|left; now apply Rinv_0_lt_compat]).
    split; apply Rmult_le_reg_r with t2; try exact T2p; unfold Rdiv; rewrite ?Rmult_assoc, ?Rinv_l; lra. }
  assert (E : B2R x / B2R y = r / s * (t1 / t2)) by (rewrite Rx, Ry; field; split; lra).
  assert (Y : B2R y <> 0) by (rewrite Ry; apply Rmult_integral_contrapositive; split; [exact Hs|lra]).
  destruct (round_near (B2R x / B2R y)) as [e [He [Hr Hb']]].
  { rewrite E. now apply near_range with k. }
  exists (Bdiv mode_NE x y), (t1 / t2 * (1 + e)).
  generalize (Bdiv_correct 53 1024 _ _ mode_NE x y Y). rewrite Hb', Fx. intros (H1 & H2 & _).
  split; [reflexivity|]. split; [exact H2|]. split.
  - rewrite H1, Hr, E. ring.
  - apply quotient_error; try assumption. lra.
Qed.

Lemma ordinary_mid x r : ordinary x r -> mid 300 r.
Proof.
  intros (_ & _ & L & H). unfold mid. rewrite bpow_opp.
  assert (E : bpow radix2 300 = 2 ^ 300) by (rewrite (pow_IZR 2 300); reflexivity). rewrite E. now split.
Qed.

Lemma ordinary_close x r : ordinary x r -> close (to_float x) r ulp1.
Proof.
  intros O. assert (M := ordinary_mid x r O). destruct O as (V & W & _). destruct x as [z|f]; simpl in *.
  - injection V as <-. unfold float_of_Z. rewrite normalize_equiv.
    destruct (round_near (IZR z)) as [e [He [Hr Hb]]].
    { destruct M as [L H]. split; [apply Rle_trans with (2 := L)|apply Rle_trans with (1 := H)]; apply bpow_le; lia. }
    eexists _, (1 + e). split; [reflexivity|].
    generalize (binary_normalize_correct 53 1024 _ _ mode_NE z 0 false). cbv zeta.
    replace (F2R (Float radix2 z 0)) with (IZR z) by (unfold F2R; simpl; ring).
    rewrite Hb. intros (H1 & H2 & _). split; [exact H2|]. split; [now rewrite H1|]. now replace (1 + e - 1) with e by ring.
  - exists (SF2B f W), 1. rewrite B2SF_SF2B. split; [reflexivity|].
    assert (G : is_finite (SF2B f W) = true /\ B2R (SF2B f W) = r) by (destruct f; simpl in V; try discriminate V; injection V as <-; split; reflexivity).
    destruct G as [G1 G2]. split; [exact G1|]. split; [rewrite G2; ring|].
    replace (1 - 1) with 0 by ring. rewrite Rabs_R0. unfold ulp1. lra.
Qed.

Lemma milli_close : close (to_float milli) (/ 1000) ulp1.
Proof.
  assert (W : valid_binary 53 1024 (S754_finite false 4611686018427388 (-62)) = true) by reflexivity.
  exists (SF2B _ W), (4611686018427388000 / 4611686018427387904). split; [apply B2SF_SF2B|]. split; [reflexivity|]. split.
  - unfold SF2B, B2R, F2R. simpl. lra.
  - apply Rabs_le. unfold ulp1. lra.
Qed.

Lemma mid_mul j k r s : mid j r -> mid k s -> mid (j + k) (r * s).
Proof.
  intros [L H] [L' H']. unfold mid. rewrite Rabs_mult. replace (- (j + k))%Z with (- j + - k)%Z by lia. rewrite !bpow_plus.
  split; apply Rmult_le_compat; auto using Rabs_pos, bpow_ge_0.
Qed.
Lemma mid_inv k s : mid k s -> mid k (/ s).
Proof.
  intros [L H]. assert (s <> 0).
  { intros ->. rewrite Rabs_R0 in L. apply (Rlt_irrefl 0). apply Rlt_le_trans with (2 := L). apply bpow_gt_0. }
  assert (0 < Rabs s) by now apply Rabs_pos_lt.
  unfold mid. rewrite Rabs_inv. split.
  - rewrite bpow_opp. now apply Rinv_le.
  - replace (bpow radix2 k) with (/ bpow radix2 (- k)) by (rewrite bpow_opp, Rinv_inv; reflexivity).
    apply Rinv_le; [apply bpow_gt_0|exact L].
Qed.
Lemma mid_nonzero k s : mid k s -> s <> 0.
Proof.
  intros [L _] ->. rewrite Rabs_R0 in L. apply (Rlt_irrefl 0). apply Rlt_le_trans with (2 := L). apply bpow_gt_0.
Qed.
Lemma mid_milli : mid 10 (/ 1000).
Proof. unfold mid. rewrite Rabs_pos_eq by lra. simpl. lra. Qed.

Lemma nmul_float x y : (exists f, y = PFloat f) \/ (exists f, x = PFloat f) ->
  nmul x y = PFloat (SFmul 53 1024 (to_float x) (to_float y)).
Proof. intros [[f ->]|[f ->]]; [destruct x|]; reflexivity. Qed.

Lemma close_value f r d : close f r d -> exists t, num_value (PFloat f) = Some (r * t) /\ Rabs (t - 1) <= d.
Proof.
  intros (b & t & <- & F & Rb & T). exists t. split; [|exact T]. rewrite <- Rb. destruct b; try discriminate F; reflexivity.
Qed.

(** The mass flow computed from the molar flow; products of integers are rounded
    when they become doubles. *)
Lemma mass_close n rn w rw : ordinary n rn -> ordinary w rw ->
  exists m, num_value (nmul (nmul n w) milli) = Some m /\ flows_agree m rn rw.
Proof.
  intros On Ow.
  assert (Mn := ordinary_mid _ _ On). assert (Mw := ordinary_mid _ _ Ow).
  assert (M2 := mid_mul _ _ _ _ Mn Mw). assert (M3 := mid_mul _ _ _ _ M2 mid_milli).
  assert (U : 0 <= ulp1 <= / 1000) by (unfold ulp1; lra).
  assert (C : close (to_float (nmul n w)) (rn * rw) ((1 + ulp1) * (1 + ulp1) * (1 + ulp1) - 1)).
  { assert (Dec : (exists a b, n = PInt a /\ w = PInt b) \/ ((exists f, w = PFloat f) \/ (exists f, n = PFloat f)))
      by (destruct n, w; eauto 8).
    destruct Dec as [(a & b & -> & ->)|Hf].
    - destruct On as [[= <-] _], Ow as [[= <-] _]. simpl. rewrite <- mult_IZR in *. unfold float_of_Z. rewrite normalize_equiv.
      destruct (round_near (IZR (a * b))) as [e [He [Hr Hb]]].
      { destruct M2 as [L H]. split; [apply Rle_trans with (2 := L)|apply Rle_trans with (1 := H)]; apply bpow_le; lia. }
      eexists _, (1 + e). split; [reflexivity|].
      generalize (binary_normalize_correct 53 1024 _ _ mode_NE (a * b) 0 false). cbv zeta.
      replace (F2R (Float radix2 (a * b) 0)) with (IZR (a * b)) by (unfold F2R; simpl; ring).
      rewrite Hb. intros (H1 & H2 & _). split; [exact H2|]. split; [now rewrite H1|]. replace (1 + e - 1) with e by ring. nra.
    - rewrite (nmul_float _ _ Hf). cbn [to_float]. apply close_mul with 600%Z; try nra; try lia; [exact M2| |]; now apply ordinary_close. }
  rewrite nmul_float by (left; now eexists).
  set (d := (1 + ulp1) * (1 + ulp1) * (1 + ulp1) - 1) in *.
  assert (D : 0 <= d <= 4 * ulp1) by (unfold d; unfold ulp1; lra).
  assert (C2 := close_mul _ _ _ _ d ulp1 610 ltac:(lia) ltac:(lra) ltac:(lra) ltac:(nra) ltac:(nra) M3 C milli_close).
  destruct (close_value _ _ _ C2) as [t [V T]]. eexists. split; [exact V|]. unfold flows_agree.
  assert (T' : Rabs (t - 1) <= 6 * ulp1) by (eapply Rle_trans; [exact T|]; unfold d, ulp1; lra).
  apply Rabs_le_both in T'.
  replace (rn * rw * / 1000 * t - rn * rw / 1000) with (rn * rw * / 1000 * (t - 1)) by (field).
  set (p := rn * rw * / 1000). rewrite !Rabs_mult. rewrite (Rabs_pos_eq t) by (unfold ulp1 in T'; lra).
  rewrite <- Rmult_assoc, (Rmult_comm (/ 2 ^ 49)), Rmult_assoc. apply Rmult_le_compat_l.
  - apply Rabs_pos.
  - apply Rabs_le. unfold ulp1 in *. lra.
Qed.

(** The molar flow computed from the mass flow. *)
Lemma molar_close m rm w rw : ordinary m rm -> ordinary w rw ->
  exists x n, ndiv m (nmul w milli) = Ok x /\ num_value x = Some n /\ flows_agree rm n rw.
Proof.
  intros Om Ow.
  assert (Mm := ordinary_mid _ _ Om). assert (Mw := ordinary_mid _ _ Ow).
  assert (M2 := mid_mul _ _ _ _ Mw mid_milli). assert (M3 := mid_mul _ _ _ _ Mm (mid_inv _ _ M2)).
  assert (U : 0 <= ulp1 <= / 1000) by (unfold ulp1; lra).
  assert (C := close_mul _ _ _ _ ulp1 ulp1 310 ltac:(lia) ltac:(lra) ltac:(lra) ltac:(nra) ltac:(nra) M2 (ordinary_close _ _ Ow) milli_close).
  set (d := (1 + ulp1) * (1 + ulp1) * (1 + ulp1) - 1) in *.
  assert (D : 0 <= d <= 4 * ulp1) by (unfold d; unfold ulp1; lra).
  assert (Z := mid_nonzero _ _ M2).
  assert (C2 := close_div _ _ _ _ ulp1 d 610 ltac:(lia) ltac:(lra) ltac:(unfold ulp1 in *; lra) ltac:(lra) Z M3 (ordinary_close _ _ Om) C).
  assert (Nz : neqb (nmul w milli) (PInt 0) = false).
  { rewrite nmul_float by (left; now eexists). destruct C as (b & t & <- & F & Rb & T). cbn [neqb].
    destruct b as [sb|sb| |sb mb eb Hb]; try discriminate F.
    - exfalso. simpl in Rb. assert (t <> 0) by (apply Rabs_le_both in T; unfold ulp1 in *; lra).
      symmetry in Rb. apply Rmult_integral in Rb. tauto.
    - cbn [B2SF float_eq_Z]. destruct (0 <=? eb)%Z eqn:He.
      + apply Z.eqb_neq. intros H. symmetry in H. apply Z.eq_mul_0 in H. destruct H as [H|H]; [destruct sb; discriminate|].
        apply Z.leb_le in He. assert (G := Z.pow_pos_nonneg 2 eb ltac:(lia) He). lia.
      + destruct sb; reflexivity. }
  unfold ndiv. rewrite Nz. rewrite (nmul_float w milli) by (left; now eexists). cbn [to_float].
  destruct (close_value _ _ _ C2) as [t [V T]]. do 2 eexists. split; [reflexivity|]. split; [exact V|]. unfold flows_agree.
  assert (T' : Rabs (t - 1) <= 12 * ulp1) by (eapply Rle_trans; [exact T|]; unfold d, ulp1; lra).
  apply Rabs_le_both in T'.
  replace (rm - rm / (rw * / 1000) * t * rw / 1000) with (rm * (1 - t)) by (field; intros ->; apply Z; ring).
  rewrite Rabs_mult, Rmult_comm. apply Rmult_le_compat_r; [apply Rabs_pos|]. apply Rabs_le. unfold ulp1 in *. lra.
Qed.

(** ** The parameters of a stream *)
Definition stream_units (a : string) : option unit :=
  if fraction_name a then Some u_dimless
  else dget a [("mdot", u_mass_flow); ("ndot", u_molar_flow); ("P", u_Pa); ("H", u_molar_energy); ("T", u_K)].
Notation sstate := (UnitOpFacts.state stream_units).

Fixpoint with_phases (ps : list string) (D : list string) : list string :=
  match ps with
  | [] => D
  | p :: r => with_phases r (("w_" ++ p)%string :: ("z_" ++ p)%string :: D)
  end.
Lemma with_phases_incl ps : forall D, incl D (with_phases ps D).
Proof. induction ps as [|p r IH]; intros D; [apply incl_refl|]. intros a H. apply IH. right. now right. Qed.

Definition stream_attrs : list string := ["T"; "H"; "P"; "ndot"; "mdot"].

Lemma phases_declared n ps : forall D, UnitOpFacts.declared_by stream_units n (flat_map phase_pars ps) D (with_phases ps D).
Proof.
  induction ps as [|p r IH]; intros D; [apply declared_nil|].
  change (flat_map phase_pars (p :: r)) with (par ("z_" ++ p)%string u_dimless :: par ("w_" ++ p)%string u_dimless :: flat_map phase_pars r).
  cbn [with_phases]. do 2 (eapply declared_cons' with (u := u_dimless); [cbn; auto|reflexivity|]). apply IH.
Qed.

Lemma stream_declared n ps : UnitOpFacts.declared_by stream_units n (stream_vars ++ flat_map phase_pars ps) [] (with_phases ps stream_attrs).
Proof.
  eapply declared_app; [|apply phases_declared]. unfold stream_vars.
  repeat (eapply declared_cons'; [cbn; repeat split; auto|reflexivity|]). apply declared_nil.
Qed.

Lemma stream_new h u n ps : exists w0, run_cmds (mkW h u (new_model n)) (stream_vars ++ flat_map phase_pars ps) = (w0, Ok tt) /\
  sstate w0 n (with_phases ps stream_attrs).
Proof.
  destruct (stream_declared n ps (mkW h u (new_model n))) as [w0 [R [S _]]]; [split; [reflexivity|intros a []|intros a l H; discriminate]|].
  exists w0. auto.
Qed.

Lemma the_qty_quantity w a q : quantity w a = Some q -> the_qty w a = Ok q.
Proof.
  unfold quantity, the_qty. destruct (attr_qty (w_mod w) a) as [l|]; [|discriminate]. simpl. now intros ->.
Qed.

Lemma declare_world lib s i w : snd (fst (stream_declare lib s (Some i) w)) = fst (stream_flows lib s i w).
Proof.
  unfold stream_declare. destruct (stream_flows lib s i w) as [w' [[]|x]]; [|reflexivity].
  destruct (stream_state s (Some i) w') as [s' r]. reflexivity.
Qed.

Lemma stream_mass lib s i c w n D qn qm rn rw : sstate w n D -> In "ndot" D -> In "mdot" D ->
  get_phase s i "*" = Ok c -> quantity w "ndot" = Some qn -> quantity w "mdot" = Some qm ->
  q_spec qn = true -> q_spec qm = false -> ordinary (q_value qn) rn -> ordinary (l_MW lib (PackageModel.c_name c)) rw ->
  exists qm' rm, quantity (snd (fst (stream_declare lib s (Some i) w))) "ndot" = Some qn /\
    quantity (snd (fst (stream_declare lib s (Some i) w))) "mdot" = Some qm' /\
    q_spec qm' = true /\ num_value (q_value qm') = Some rm /\ flows_agree rm rn rw.
Proof.
  intros S I1 I2 Hc Qn Qm Sn Sm On Ow. rewrite declare_world. unfold stream_flows.
  rewrite (the_qty_quantity _ _ _ Qn), (the_qty_quantity _ _ _ Qm), Sn, Sm, Hc. cbn [andb negb rbind].
  destruct (set_step stream_units "mdot" (nmul (nmul (q_value qn) (l_MW lib (PackageModel.c_name c))) milli) w n D I2 S) as [w' [R [S' [_ [K [q [Q1 [Q2 [Q3 _]]]]]]]]].
  rewrite R. cbn [fst]. destruct (mass_close _ _ _ _ On Ow) as [m [V A]].
  exists q, m. rewrite (K "ndot"); [|discriminate|exact I1]. rewrite Q3. auto.
Qed.

Lemma stream_molar lib s i c w n D qn qm rm rw : sstate w n D -> In "ndot" D -> In "mdot" D ->
  get_phase s i "*" = Ok c -> quantity w "ndot" = Some qn -> quantity w "mdot" = Some qm ->
  q_spec qn = false -> q_spec qm = true -> ordinary (q_value qm) rm -> ordinary (l_MW lib (PackageModel.c_name c)) rw ->
  exists qn' rn, quantity (snd (fst (stream_declare lib s (Some i) w))) "mdot" = Some qm /\
    quantity (snd (fst (stream_declare lib s (Some i) w))) "ndot" = Some qn' /\
    q_spec qn' = true /\ num_value (q_value qn') = Some rn /\ flows_agree rm rn rw.
Proof.
  intros S I1 I2 Hc Qn Qm Sn Sm Om Ow. rewrite declare_world. unfold stream_flows.
  rewrite (the_qty_quantity _ _ _ Qn), (the_qty_quantity _ _ _ Qm), Sn, Sm, Hc. cbn [andb negb rbind].
  destruct (molar_close _ _ _ _ Om Ow) as [x [rn [V [N A]]]]. rewrite V. cbn [rbind].
  destruct (set_step stream_units "ndot" x w n D I1 S) as [w' [R [S' [_ [K [q [Q1 [Q2 [Q3 _]]]]]]]]].
  rewrite R. cbn [fst].
  exists q, rn. rewrite (K "mdot"); [|discriminate|exact I2]. rewrite Q3. auto.
Qed.

Lemma stream_both lib s i w qn qm : quantity w "ndot" = Some qn -> quantity w "mdot" = Some qm -> q_spec qn = q_spec qm ->
  snd (fst (stream_declare lib s (Some i) w)) = w.
Proof.
  intros Qn Qm E. rewrite declare_world. unfold stream_flows. rewrite (the_qty_quantity _ _ _ Qn), (the_qty_quantity _ _ _ Qm), E.
  now destruct (q_spec qm).
Qed.

Lemma stream_nothing lib s w : snd (fst (stream_declare lib s None w)) = w.
Proof. unfold stream_declare. destruct (stream_state s None w). reflexivity. Qed.

(** All streams after any settings. *)
Lemma flows_from_molar lib s i c h u name ps w0 l qn qm rn rw :
  run_cmds (mkW h u (new_model name)) (stream_vars ++ flat_map phase_pars ps) = (w0, Ok tt) -> Forall is_setting l ->
  get_phase s i "*" = Ok c -> quantity (settle w0 l) "ndot" = Some qn -> quantity (settle w0 l) "mdot" = Some qm ->
  q_spec qn = true -> q_spec qm = false -> ordinary (q_value qn) rn -> ordinary (l_MW lib (PackageModel.c_name c)) rw ->
  exists qm' rm, quantity (snd (fst (stream_declare lib s (Some i) (settle w0 l)))) "ndot" = Some qn /\
    quantity (snd (fst (stream_declare lib s (Some i) (settle w0 l)))) "mdot" = Some qm' /\
    q_spec qm' = true /\ num_value (q_value qm') = Some rm /\ flows_agree rm rn rw.
Proof.
  intros R Hl. destruct (stream_new h u name ps) as [w [R' S]]. rewrite R in R'. injection R' as <-.
  destruct (settle_state stream_units l w0 name _ Hl S) as [S2 _]. intros.
  apply (stream_mass lib s i c (settle w0 l) name (with_phases ps stream_attrs) qn qm rn rw); auto;
    apply with_phases_incl; simpl; tauto.
Qed.

Lemma flows_from_mass lib s i c h u name ps w0 l qn qm rm rw :
  run_cmds (mkW h u (new_model name)) (stream_vars ++ flat_map phase_pars ps) = (w0, Ok tt) -> Forall is_setting l ->
  get_phase s i "*" = Ok c -> quantity (settle w0 l) "ndot" = Some qn -> quantity (settle w0 l) "mdot" = Some qm ->
  q_spec qn = false -> q_spec qm = true -> ordinary (q_value qm) rm -> ordinary (l_MW lib (PackageModel.c_name c)) rw ->
  exists qn' rn, quantity (snd (fst (stream_declare lib s (Some i) (settle w0 l)))) "mdot" = Some qm /\
    quantity (snd (fst (stream_declare lib s (Some i) (settle w0 l)))) "ndot" = Some qn' /\
    q_spec qn' = true /\ num_value (q_value qn') = Some rn /\ flows_agree rm rn rw.
Proof.
  intros R Hl. destruct (stream_new h u name ps) as [w [R' S]]. rewrite R in R'. injection R' as <-.
  destruct (settle_state stream_units l w0 name _ Hl S) as [S2 _]. intros.
  apply (stream_molar lib s i c (settle w0 l) name (with_phases ps stream_attrs) qn qm rm rw); auto;
    apply with_phases_incl; simpl; tauto.
Qed.
