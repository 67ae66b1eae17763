(** Proofs of the unit properties C01-C04. *)
From Verif Require Import Base BaseFacts Num NumFacts UnitModel UnitFacts SpecUnits.
From Coq Require Import Reals Lra.
From Flocq Require Import Core BinarySingleNaN.
Notation num := Verif.Num.num.
Open Scope Z_scope.

Lemma a_unit_wf u : a_unit u -> wf_unit u.
Proof.
  destruct 1 as [n d _|u v _ _|u v _ _|u p _|u v r _ _ H]; try apply unit_init_wf.
  unfold unit_pow_unit in H. destruct (is_dimensionless v); [|discriminate].
  injection H as <-. apply unit_init_wf.
Qed.

Lemma mul_exponents u v k :
  a_unit u -> a_unit v ->
  exponent (unit_mul u v) k = combine (fun a b => nadd b a) (exponent u k) (exponent v k).
Proof.
  intros Hu Hv. unfold exponent. rewrite unit_mul_get by now apply a_unit_wf.
  now destruct (dget k (u_dim u)), (dget k (u_dim v)).
Qed.

Lemma pow_exponents u p k :
  a_unit u -> exponent (unit_pow_num u p) k = option_map (fun a => nmul a p) (exponent u k).
Proof. intros Hu. unfold exponent. now rewrite unit_pow_num_get by now apply a_unit_wf. Qed.

Lemma div_exponents_sub u v k :
  a_unit u -> a_unit v -> (exponent v k = None -> exponent u k = None) ->
  exponent (unit_div u v) k = quotient_exponent (exponent u k) (exponent v k).
Proof.
  intros Hu Hv Hs. unfold exponent in *. rewrite unit_div_get by now apply a_unit_wf.
  destruct (dget k (u_dim v)) eqn:Ev.
  - now destruct (dget k (u_dim u)).
  - now rewrite Hs.
Qed.

Lemma div_loses_names u v k :
  a_unit u -> a_unit v -> exponent v k = None -> exponent (unit_div u v) k = None.
Proof.
  intros Hu Hv Hn. unfold exponent in *. rewrite unit_div_get by now apply a_unit_wf.
  now rewrite Hn.
Qed.

(** ** Group laws *)
Section Group.
  Context (w : world) (K : list string) (HK : incl base_keys K).

  Lemma mul_comm_coherent u v a b :
    urep w K u a -> urep w K v b -> (forall k, In k K -> okz w (a k + b k)) ->
    coherent (unit_mul u v) (unit_mul v u) = Ok true.
  Proof.
    intros Hu Hv Hok.
    assert (H1 := urep_mul w K u v a b HK Hu Hv Hok).
    assert (H2 : urep w K (unit_mul v u) (fun k => b k + a k)).
    { apply urep_mul; try assumption. intros k Hk. rewrite Z.add_comm. now apply Hok. }
    apply (urep_coherent_true _ _ _ _ _ _ H1 H2). intros; lia.
  Qed.

  Lemma mul_assoc_coherent u v x a b c :
    urep w K u a -> urep w K v b -> urep w K x c ->
    (forall k, In k K -> okz w (a k + b k)) -> (forall k, In k K -> okz w (b k + c k)) ->
    (forall k, In k K -> okz w (a k + b k + c k)) ->
    coherent (unit_mul (unit_mul u v) x) (unit_mul u (unit_mul v x)) = Ok true.
  Proof.
    intros Hu Hv Hx Hab Hbc Habc.
    assert (H1 : urep w K (unit_mul (unit_mul u v) x) (fun k => a k + b k + c k)).
    { apply (urep_mul w K _ _ (fun k => a k + b k) c HK); try assumption. now apply urep_mul. }
    assert (H2 : urep w K (unit_mul u (unit_mul v x)) (fun k => a k + (b k + c k))).
    { apply (urep_mul w K _ _ a (fun k => b k + c k) HK); try assumption.
      - now apply urep_mul.
      - intros k Hk. rewrite Z.add_assoc. now apply Habc. }
    apply (urep_coherent_true _ _ _ _ _ _ H1 H2). intros; lia.
  Qed.

  Lemma mul_div_coherent u v a b :
    urep w K u a -> urep w K v b -> (forall k, In k K -> okz w (a k + b k)) ->
    coherent (unit_div (unit_mul u v) v) u = Ok true.
  Proof.
    intros Hu Hv Hok.
    assert (H1 : urep w K (unit_div (unit_mul u v) v) (fun k => a k + b k - b k)).
    { apply (urep_div w K _ _ (fun k => a k + b k) b HK); try assumption; [now apply urep_mul|].
      intros k Hk. replace (a k + b k - b k) with (a k) by lia. now apply (urep_okz w K u). }
    apply (urep_coherent_true _ _ _ _ _ _ H1 Hu). intros; lia.
  Qed.

  Lemma div_self_dimensionless u a : urep w K u a -> is_dimensionless (unit_div u u) = true.
  Proof.
    intros Hu.
    assert (H1 : urep w K (unit_div u u) (fun k => a k - a k)).
    { apply urep_div; try assumption. intros k _. rewrite Z.sub_diag. destruct w; simpl; [exact I|unfold small; lia]. }
    apply (urep_dimensionless _ _ _ _ H1). intros; lia.
  Qed.

  Lemma pow_add_coherent u a p q n m :
    urep w K u a -> nrep w p n -> nrep w q m -> okz w (n + m) ->
    (forall k, In k K -> okz w (a k * n)) -> (forall k, In k K -> okz w (a k * m)) ->
    (forall k, In k K -> okz w (a k * (n + m))) ->
    coherent (unit_mul (unit_pow_num u p) (unit_pow_num u q)) (unit_pow_num u (nadd p q)) = Ok true.
  Proof.
    intros Hu Hp Hq Hnm H1 H2 H3.
    assert (G1 : urep w K (unit_mul (unit_pow_num u p) (unit_pow_num u q)) (fun k => a k * n + a k * m)).
    { apply (urep_mul w K _ _ (fun k => a k * n) (fun k => a k * m) HK).
      - now apply urep_pow.
      - now apply urep_pow.
      - intros k Hk. rewrite <- Z.mul_add_distr_l. now apply H3. }
    assert (G2 : urep w K (unit_pow_num u (nadd p q)) (fun k => a k * (n + m))).
    { apply urep_pow; try assumption. now apply nadd_rep. }
    apply (urep_coherent_true _ _ _ _ _ _ G1 G2). intros; lia.
  Qed.

  Lemma pow_mul_coherent u a p q n m :
    urep w K u a -> nrep w p n -> nrep w q m -> okz w (n * m) ->
    (forall k, In k K -> okz w (a k * n)) -> (forall k, In k K -> okz w (a k * n * m)) ->
    coherent (unit_pow_num (unit_pow_num u p) q) (unit_pow_num u (nmul p q)) = Ok true.
  Proof.
    intros Hu Hp Hq Hnm H1 H2.
    assert (G1 : urep w K (unit_pow_num (unit_pow_num u p) q) (fun k => a k * n * m)).
    { apply (urep_pow w K _ (fun k => a k * n)); try assumption. now apply urep_pow. }
    assert (G2 : urep w K (unit_pow_num u (nmul p q)) (fun k => a k * (n * m))).
    { apply urep_pow; try assumption; [now apply nmul_rep|].
      intros k Hk. rewrite Z.mul_assoc. now apply H2. }
    apply (urep_coherent_true _ _ _ _ _ _ G1 G2). intros; lia.
  Qed.
End Group.

(** ** Exact comparison of finite numbers *)
Lemma float_eq_Z_value (b : b64) z :
  is_finite b = true -> float_eq_Z (B2SF b) z = true <-> B2R b = IZR z.
Proof.
  destruct b as [s|s| |s m e Hb]; simpl; intros Hf; try discriminate.
  - rewrite Z.eqb_eq. split; [now intros ->|]. intros H. apply eq_sym in H. now apply eq_IZR in H.
  - set (v := if s then Z.neg m else Z.pos m).
    assert (Hv : cond_Zopp s (Z.pos m) = v) by now destruct s.
    rewrite Hv. unfold F2R; simpl.
    destruct (Z.leb_spec 0 e) as [He|He].
    + rewrite bpow_IZR_pos, <- mult_IZR by exact He. rewrite Z.eqb_eq.
      split; [now intros ->|]. intros H. now apply eq_IZR in H.
    + rewrite Z.eqb_eq.
      assert (Hpos : (0 < bpow radix2 (- e))%R) by apply bpow_gt_0.
      assert (Hinv : (bpow radix2 e * bpow radix2 (- e) = 1)%R).
      { rewrite <- bpow_plus. now replace (e + - e) with 0 by lia. }
      split.
      * intros H. rewrite <- H, mult_IZR, <- bpow_IZR_pos by lia.
        rewrite Rmult_assoc, (Rmult_comm (bpow radix2 (- e))), Hinv. ring.
      * intros H. apply eq_IZR. rewrite mult_IZR, <- bpow_IZR_pos, <- H by lia.
        rewrite Rmult_assoc, Hinv. ring.
Qed.

Lemma neqb_value x y r s : nvalue x r -> nvalue y s -> neqb x y = true <-> r = s.
Proof.
  destruct x as [i|f], y as [j|g]; simpl.
  - intros -> ->. rewrite Z.eqb_eq. split; [now intros ->|apply eq_IZR].
  - intros -> (b & <- & Fb & <-). rewrite float_eq_Z_value by exact Fb. split; congruence.
  - intros (b & <- & Fb & <-) ->. now rewrite float_eq_Z_value by exact Fb.
  - intros (b & <- & Fb & <-) (c & <- & Fc & <-).
    unfold SFeqb. fold (Bcompare b c). rewrite (Bcompare_correct 53 1024 b c Fb Fc).
    destruct (Rcompare_spec (B2R b) (B2R c)) as [H|H|H]; split; intros; try discriminate; try lra; reflexivity.
Qed.

Lemma nvalue_unique x r s : nvalue x r -> nvalue x s -> r = s.
Proof.
  destruct x as [i|f]; simpl; [congruence|].
  intros (b & Hb & _ & <-) (c & Hc & _ & <-).
  rewrite <- Hc in Hb. apply B2SF_inj in Hb. now subst.
Qed.

Lemma coherent_decides u v :
  a_unit u -> a_unit v -> same_names u v -> finite_exponents u -> finite_exponents v ->
  exists b, coherent u v = Ok b /\ (b = true <-> same_dimension u v).
Proof.
  intros Hu Hv Hn Fu Fv. apply a_unit_wf in Hu, Hv.
  destruct (coherent_total u v) as [b Hb].
  { intros k Hk. destruct (in_keys_dget _ _ Hk) as [x Hx].
    destruct (dget k (u_dim v)) as [y|] eqn:E; [now apply dget_in_keys in E|].
    apply Hn in E. unfold exponent in E. congruence. }
  exists b. split; [exact Hb|]. split.
  - intros ->. rewrite coherent_true in Hb by apply Hu.
    intros k x y r s Ex Ey Hr Hs. destruct (Hb k x Ex) as (y' & Ey' & He).
    unfold exponent in Ey. rewrite Ey in Ey'. injection Ey' as <-.
    now apply (neqb_value x y r s Hr Hs).
  - intros H. enough (E : coherent u v = Ok true) by congruence.
    apply coherent_true; [apply Hu|]. intros k x Ex.
    destruct (dget k (u_dim v)) as [y|] eqn:Ey.
    + exists y. split; [reflexivity|].
      destruct (Fu k x Ex) as [r Hr], (Fv k y Ey) as [s Hs].
      apply (neqb_value x y r s Hr Hs). now apply (H k x y r s).
    + apply Hn in Ey. unfold exponent in Ey. congruence.
Qed.

Lemma unit_sum_decided u v :
  a_unit u -> a_unit v -> same_names u v -> finite_exponents u -> finite_exponents v ->
  (same_dimension u v -> unit_add u v = Ok u /\ unit_sub u v = Ok u) /\
  (~ same_dimension u v -> unit_add u v = Raise EDimCoherence /\ unit_sub u v = Raise EDimCoherence).
Proof.
  intros Hu Hv Hn Fu Fv. destruct (coherent_decides u v Hu Hv Hn Fu Fv) as (b & Hb & Hs).
  unfold unit_add, unit_sub. rewrite Hb. simpl. destruct b.
  - split; [now split|]. intros H. exfalso. apply H. now apply Hs.
  - split; [intros H; apply Hs in H; discriminate|now split].
Qed.

Lemma same_names_sym u v : same_names u v -> same_names v u.
Proof. intros H k. specialize (H k). tauto. Qed.

Lemma same_names_trans u v x : same_names u v -> same_names v x -> same_names u x.
Proof. intros H G k. specialize (H k). specialize (G k). tauto. Qed.

Lemma same_dimension_refl u : same_dimension u u.
Proof. intros k x y r s Hx Hy Hr Hs. rewrite Hx in Hy. injection Hy as <-. now apply (nvalue_unique x). Qed.

Lemma coherent_equivalence u v x :
  a_unit u -> a_unit v -> a_unit x -> same_names u v -> same_names v x ->
  finite_exponents u -> finite_exponents v -> finite_exponents x ->
  coherent u u = Ok true /\
  (coherent u v = Ok true -> coherent v u = Ok true) /\
  (coherent u v = Ok true -> coherent v x = Ok true -> coherent u x = Ok true).
Proof.
  intros Hu Hv Hx N1 N2 Fu Fv Fx.
  destruct (coherent_decides u u) as (b0 & E0 & S0); try assumption; [intros k; tauto|].
  destruct (coherent_decides u v) as (b1 & E1 & S1); try assumption.
  destruct (coherent_decides v u) as (b2 & E2 & S2); try assumption; [now apply same_names_sym|].
  destruct (coherent_decides v x) as (b3 & E3 & S3); try assumption.
  destruct (coherent_decides u x) as (b4 & E4 & S4); try assumption; [now apply (same_names_trans u v x)|].
  rewrite E0, E1, E2, E3, E4. repeat split.
  - f_equal. apply S0, same_dimension_refl.
  - intros [= ->]. f_equal. apply S2.
    assert (H : same_dimension u v) by now apply S1.
    intros k a b r s Ha Hb Hr Hs. symmetry. now apply (H k b a s r).
  - intros [= ->] [= ->]. f_equal. apply S4.
    assert (H1 : same_dimension u v) by now apply S1.
    assert (H2 : same_dimension v x) by now apply S3.
    intros k a c r t Ha Hc Hr Ht.
    destruct (exponent v k) as [b|] eqn:Eb.
    + destruct (Fv k b Eb) as [s Hs]. transitivity s.
      * now apply (H1 k a b r s).
      * now apply (H2 k b c s t).
    + apply N1 in Eb. congruence.
Qed.

(** ** Powers *)
Lemma float_zero_int z : neqb (PFloat (float_of_Z z)) (PFloat (S754_zero false)) = true <-> z = 0.
Proof.
  split; [|intros ->; reflexivity].
  intros H. destruct (Z.eq_dec z 0) as [E|N]; [exact E|exfalso].
  revert H. unfold float_of_Z. rewrite normalize_equiv.
  generalize (binary_normalize_correct 53 1024 eq_refl eq_refl mode_NE z 0 false). cbv zeta.
  replace (F2R (Float radix2 z 0)) with (IZR z) by (unfold F2R; simpl; ring).
  set (b := BinarySingleNaN.binary_normalize 53 1024 _ _ mode_NE z 0 false). clearbody b.
  destruct (Rlt_bool _ _).
  - intros (Hr & Hf & _) H.
    assert (B0 : (B2R b = 0)%R).
    { apply (neqb_value (PFloat (B2SF b)) (PFloat (S754_zero false)) (B2R b) 0%R); [now exists b| |exact H].
      now exists (B754_zero false). }
    rewrite B0 in Hr.
    assert (G : (bpow radix2 0 <= Rabs (round radix2 (SpecFloat.fexp 53 1024) (round_mode mode_NE) (IZR z)))%R).
    { apply abs_round_ge_generic; [apply (fexp_correct 53 1024); reflexivity|apply valid_rnd_round_mode| |].
      - apply generic_format_bpow. now vm_compute.
      - simpl. rewrite <- abs_IZR. apply IZR_le. lia. }
    rewrite <- Hr, Rabs_R0 in G. simpl in G. lra.
  - intros Hb H. rewrite Hb in H. now destruct (Rlt_bool (IZR z) 0) in H; simpl in H; destruct z.
Qed.

Lemma dimensionless_pure u : a_unit u -> finite_exponents u -> is_dimensionless u = true <-> pure_number u.
Proof.
  intros Hu Fu. unfold is_dimensionless. rewrite forallb_forall.
  assert (Z0 : forall x r, nvalue x r -> neqb (PFloat (to_float x)) (PFloat (S754_zero false)) = true <-> r = 0%R).
  { intros [z|f] r V; simpl in V.
    - subst r. cbn [to_float]. rewrite float_zero_int. split; [now intros ->|apply eq_IZR].
    - cbn [to_float]. apply neqb_value; [exact V|now exists (B754_zero false)]. }
  split.
  - intros H k x E. destruct (Fu k x E) as [r V]. assert (I := dget_some_in _ _ _ E). apply H in I.
    apply (Z0 x r V) in I. now subst r.
  - intros H [k x] I. assert (E : exponent u k = Some x).
    { apply in_dget_nodup; [apply (proj1 (a_unit_wf u Hu))|exact I]. }
    apply (Z0 x 0%R); [now apply (H k)|reflexivity].
Qed.

Lemma pow_unit_decided u v : a_unit u -> a_unit v -> finite_exponents v ->
  (pure_number v -> exists r, unit_pow_op u (UAUnit v) = Ok r /\ forall k, exponent r k = exponent u k) /\
  (~ pure_number v -> unit_pow_op u (UAUnit v) = Raise EUnexpectedValue).
Proof.
  intros Hu Hv Fv. simpl. unfold unit_pow_unit. rewrite <- (dimensionless_pure v Hv Fv).
  destruct (is_dimensionless v).
  - split; [|congruence]. intros _. eexists. split; [reflexivity|].
    intros k. apply unit_copy_get. now apply a_unit_wf.
  - split; [discriminate|reflexivity].
Qed.
