(** Proofs about dimensions of expressions and change of units. *)
From Verif Require Import Base BaseFacts Num NumFacts UnitModel UnitFacts Sympy Node Build SpecExpr SpecDims BuildFacts.
From Coq Require Import Reals Lra.
From Flocq Require Import Core BinarySingleNaN.
Notation num := Verif.Num.num.
Open Scope Z_scope.

Lemma nrep_zero_to_float x : nrep WSmall x 0 -> exists s, to_float x = S754_zero s.
Proof.
  intros [_ H]. destruct x as [a|f]; simpl.
  - subst a. now exists false.
  - destruct H as [b [<- [Hf Hr]]]. destruct b as [s|s| |s m e Hb]; try discriminate Hf.
    + now exists s.
    + exfalso. simpl in Hr. destruct s.
      * assert (F2R (Float radix2 (Zneg m) e) < 0)%R by now apply F2R_lt_0. simpl in Hr. lra.
      * assert (0 < F2R (Float radix2 (Zpos m) e))%R by now apply F2R_gt_0. simpl in Hr. lra.
Qed.

Lemma nmul_zero x p :
  nrep WSmall x 0 -> is_pint p = false -> (exists r, num_value p = Some r) -> nrep WSmall (nmul x p) 0.
Proof.
  intros Hx Hp [r Hr]. destruct (nrep_zero_to_float x Hx) as [s Hs].
  destruct p as [z|f]; [discriminate|].
  assert (E : nmul x (PFloat f) = PFloat (SFmul 53 1024 (to_float x) f)) by (now destruct x).
  rewrite E, Hs. destruct f as [t|t| |t m e]; simpl in Hr; try discriminate; simpl; apply nrep_zero_float.
Qed.

Section D.
Variable w : world.
Variable K : list string.
Hypothesis HK : incl base_keys K.
Variable qdim : loc -> dim.
Variable whole : num -> Z.
Variable h : heap.
Hypothesis HU : units_are w K qdim h.

Notation dimn := (dimension qdim whole).
Notation hom := (homogeneous qdim K whole false).

Lemma urep_zero_copy u d : urep w K u d -> dimless_dim K d -> urep w K u (fun _ => 0).
Proof. intros H Hd. eapply urep_ext; [exact H|exact Hd]. Qed.

Lemma urep_pow_ok u d p :
  urep w K u d -> power_ok w K whole p d -> in_range w K (fun k => d k * whole p) ->
  urep w K (unit_pow_num u p) (fun k => d k * whole p).
Proof.
  intros Hu [Hp|[Hw [Hp [Hr Hd]]]] Hok.
  - now apply urep_pow.
  - subst w. assert (Wu := urep_wf _ _ _ _ HK Hu).
    eapply urep_ext with (d := fun _ => 0); [|intros k Hk; rewrite Hd by exact Hk; lia].
    apply urep_intro.
    + apply unit_init_wf.
    + intros k Hk. rewrite unit_pow_num_get by exact Wu.
      destruct (urep_get _ _ _ _ _ Hu Hk) as [x [Ex Hx]]. rewrite Ex. simpl.
      eexists; split; [reflexivity|]. rewrite Hd in Hx by exact Hk. now apply nmul_zero.
    + intros k Hk. rewrite unit_pow_num_get by exact Wu.
      now rewrite (urep_get_none _ _ _ _ _ Hu Hk).
Qed.

Definition outcome (e : uexpr loc) : Prop :=
  (exists n, build h e = Ok n /\ hom e /\ urep w K (nd_unit n) (dimn e)) \/
  (~ hom e /\ (build h e = Raise EDimCoherence \/ build h e = Raise EType)).

Lemma plain_outcome e : plain w K qdim whole h e -> outcome e.
Proof.
  induction e as [l|o e1 IH1 e2 IH2|o e IH k|o k e IH|f e IH|f k|l t|mx l]; intros Hp; simpl in Hp.
  - destruct Hp as [_ [q Hq]]. left. simpl. unfold build_qty. rewrite Hq.
    eexists; split; [reflexivity|]. split; [exact I|].
    unfold qty_call. destruct (q_spec q); simpl; now apply HU.
  - assert (Hp12 : plain w K qdim whole h e1 /\ plain w K qdim whole h e2) by (destruct o; tauto).
    destruct Hp12 as [Hp1 Hp2].
    destruct (IH1 Hp1) as [[n1 [E1 [H1 U1]]]|[N1 F1]].
    2:{ right. split; [simpl; intros [HH _]; contradiction|]. simpl. destruct F1 as [F1|F1]; rewrite F1; simpl; auto. }
    destruct (IH2 Hp2) as [[n2 [E2 [H2 U2]]]|[N2 F2]].
    2:{ right. split; [simpl; intros [_ [HH _]]; contradiction|]. simpl. rewrite E1. destruct F2 as [F2|F2]; rewrite F2; simpl; auto. }
    unfold outcome. simpl. rewrite E1, E2. simpl.
    destruct Hp as [Hr Hp].
    destruct o; simpl.
    + unfold unit_add. destruct (urep_coherent _ _ _ _ _ _ U1 U2) as [r [-> Hc]]. destruct r; simpl.
      * left. eexists; split; [reflexivity|]. split; [|exact U1].
        split; [exact H1|split; [exact H2|]]. exact (proj1 Hc eq_refl).
      * right. split; [|auto]. intros [_ [_ Hs]]. pose proof (proj2 Hc Hs); discriminate.
    + unfold unit_sub. destruct (urep_coherent _ _ _ _ _ _ U1 U2) as [r [-> Hc]]. destruct r; simpl.
      * left. eexists; split; [reflexivity|]. split; [|exact U1].
        split; [exact H1|split; [exact H2|]]. exact (proj1 Hc eq_refl).
      * right. split; [|auto]. intros [_ [_ Hs]]. pose proof (proj2 Hc Hs); discriminate.
    + left. eexists; split; [reflexivity|]. split; [exact (conj H1 (conj H2 I))|]. simpl. now apply urep_mul.
    + left. eexists; split; [reflexivity|]. split; [exact (conj H1 (conj H2 I))|]. simpl. now apply urep_div.
    + destruct Hp as [_ [_ Hd]]. unfold unit_pow_unit.
      assert (Hc := urep_dimensionless _ _ _ _ U2).
      destruct (is_dimensionless (nd_unit n2)); simpl.
      * left. eexists; split; [reflexivity|]. split; [repeat split; try assumption; exact (proj1 Hc eq_refl)|].
        simpl. apply urep_copy; [exact HK|]. now apply urep_zero_copy with (d := dimn e1).
      * right. split; [|auto]. intros [_ [_ [_ Hs]]]. pose proof (proj2 Hc Hs); discriminate.
  - destruct Hp as [Hr Hp]. assert (Hpe : plain w K qdim whole h e) by (destruct o; tauto).
    destruct (IH Hpe) as [[n [E [H1 U]]]|[N F]].
    2:{ right. split; [simpl; intros [HH _]; contradiction|]. simpl. destruct F as [F|F]; rewrite F; simpl; auto. }
    left. simpl. rewrite E. simpl.
    destruct o; simpl; eexists; (split; [reflexivity|]); (split; [split; [exact H1|auto; discriminate]|]);
      simpl; try exact U.
    apply urep_pow_ok; tauto.
  - destruct Hp as [Hr Hp]. assert (Hpe : plain w K qdim whole h e) by (destruct o; tauto).
    destruct (IH Hpe) as [[n [E [H1 U]]]|[N F]].
    2:{ right. split; [simpl; intros [HH _]; contradiction|]. simpl. destruct F as [F|F]; rewrite F; simpl; auto. }
    left. simpl. rewrite E. simpl.
    destruct o; simpl; try (eexists; (split; [reflexivity|]); (split; [split; [exact H1|auto; discriminate]|]);
      simpl; try exact U); [|destruct Hp].
    eapply urep_ext with (d := fun k => dimn e k * -1); [|intros k0 _; change (dimn (UNumL BDiv k e) k0) with (- dimn e k0); lia].
    apply urep_pow; [exact HK|exact U| |].
    + apply nrep_int. destruct w; simpl; [exact I|unfold small; lia].
    + intros k0 Hk0. specialize (Hr k0 Hk0). change (dimn (UNumL BDiv k e) k0) with (- dimn e k0) in Hr. replace (dimn e k0 * -1) with (- dimn e k0) by lia. exact Hr.
  - destruct Hp as [Hr Hp]. destruct (IH Hp) as [[n [E [H1 U]]]|[N F]].
    2:{ right. split; [simpl; intros [HH _]; contradiction|]. simpl. destruct F as [F|F]; rewrite F; simpl; auto. }
    unfold outcome. simpl. rewrite E. simpl. assert (Hc := urep_dimensionless _ _ _ _ U).
    destruct (is_dimensionless (nd_unit n)).
    + left. eexists; split; [reflexivity|]. split; [split; [exact H1|exact (proj1 Hc eq_refl)]|].
      simpl. apply urep_zero_copy with (d := dimn e); [exact U|exact (proj1 Hc eq_refl)].
    + right. split; [|auto]. intros [_ Hs]. pose proof (proj2 Hc Hs); discriminate.
  - destruct Hp as [_ []].
  - destruct Hp as [Hr [[q [Hq [Hk Hd]]] [i [p [-> [Hi Hs]]]]]].
    left. simpl. unfold build_diff. rewrite Hq, Hk. simpl. rewrite Hi. unfold var_diff. rewrite Hd, Hs. simpl.
    eexists; split; [reflexivity|]. split; [exact I|]. simpl.
    replace (nd_unit (qty_call l q)) with (q_units q) by (unfold qty_call; now destruct (q_spec q)).
    apply urep_div; auto.
  - destruct Hp as [_ []].
Qed.

Theorem plain_builds_iff e :
  plain w K qdim whole h e -> (hom e <-> exists n, build h e = Ok n).
Proof.
  intros Hp. destruct (plain_outcome e Hp) as [[n [E [H U]]]|[N F]].
  - split; [eauto|auto].
  - split; [contradiction|]. intros [n E]. destruct F; congruence.
Qed.

Theorem plain_dimension e n :
  plain w K qdim whole h e -> build h e = Ok n -> urep w K (nd_unit n) (dimn e).
Proof.
  intros Hp E. destruct (plain_outcome e Hp) as [[n' [E' [H U]]]|[N F]].
  - congruence.
  - destruct F; congruence.
Qed.

Theorem plain_rejected e :
  plain w K qdim whole h e -> ~ hom e ->
  build h e = Raise EDimCoherence \/ build h e = Raise EType.
Proof.
  intros Hp Hn. destruct (plain_outcome e Hp) as [[n' [E' [H U]]]|[N F]]; [contradiction|exact F].
Qed.

(** *** Change of units *)
Variable lam : string -> R.
Hypothesis Hlam : forall k, In k K -> (0 < lam k)%R.

Lemma Rpower_pos x y : (0 < Rpower x y)%R.
Proof. unfold Rpower. apply exp_pos. Qed.

Lemma factor_pos L d : (0 < factor lam L d)%R.
Proof.
  induction L as [|k r IH]; simpl; [lra|]. apply Rmult_lt_0_compat; [apply Rpower_pos|exact IH].
Qed.

Lemma factor_ext L d d' : (forall k, In k L -> d k = d' k) -> factor lam L d = factor lam L d'.
Proof.
  induction L as [|k r IH]; simpl; intros H; [reflexivity|].
  rewrite (H k (or_introl eq_refl)), IH; [reflexivity|]. intros; apply H; now right.
Qed.

Lemma factor_zero L : factor lam L (fun _ => 0) = 1%R.
Proof.
  induction L as [|k r IH]; simpl; [reflexivity|]. rewrite IH.
  unfold Rpower. rewrite Rmult_0_l, exp_0. lra.
Qed.

Lemma factor_plus L d d' :
  factor lam L (fun k => d k + d' k) = (factor lam L d * factor lam L d')%R.
Proof.
  induction L as [|k r IH]; simpl; [lra|].
  rewrite plus_IZR, Rpower_plus, IH. lra.
Qed.

Lemma factor_opp L d : factor lam L (fun k => - d k) = (/ factor lam L d)%R.
Proof.
  induction L as [|k r IH]; simpl; [now rewrite Rinv_1|].
  rewrite opp_IZR, Rpower_Ropp, IH, Rinv_mult; reflexivity.
Qed.

Lemma factor_minus L d d' :
  factor lam L (fun k => d k - d' k) = (factor lam L d / factor lam L d')%R.
Proof.
  rewrite (factor_ext L _ (fun k => d k + - d' k)) by (intros; lia).
  rewrite factor_plus, factor_opp. reflexivity.
Qed.

Lemma factor_times L d z : factor lam L (fun k => d k * z) = Rpower (factor lam L d) (IZR z).
Proof.
  induction L as [|k r IH]; simpl.
  - unfold Rpower. now rewrite ln_1, Rmult_0_r, exp_0.
  - rewrite mult_IZR, IH, <- Rpower_mult, Rpower_mult_distr; [reflexivity|apply Rpower_pos|apply factor_pos].
Qed.

Lemma powerRZ_mult_distr_pos c x z : (0 < c)%R -> powerRZ (c * x) z = (powerRZ c z * powerRZ x z)%R.
Proof.
  intros Hc. destruct z as [|p|p]; simpl.
  - lra.
  - apply Rpow_mult_distr.
  - rewrite Rpow_mult_distr, Rinv_mult; reflexivity.
Qed.

Lemma rpow_scale c x z :
  (0 < c)%R -> rpow (c * x) (IZR z) = option_map (Rmult (Rpower c (IZR z))) (rpow x (IZR z)).
Proof.
  intros Hc. rewrite <- powerRZ_Rpower by exact Hc.
  destruct (Rtotal_order x 0) as [Hx|[Hx|Hx]].
  - assert (c * x < 0)%R by (apply Ropp_lt_cancel; rewrite Ropp_0, Ropp_mult_distr_r; apply Rmult_lt_0_compat; lra).
    rewrite !rpow_whole_neg by assumption. simpl. now rewrite powerRZ_mult_distr_pos.
  - subst x. rewrite Rmult_0_r, rpow_whole_zero. destruct (Z_lt_dec z 0); simpl; [reflexivity|].
    f_equal. destruct z as [|p|p]; simpl; [lra| |lia].
    rewrite pow_i by lia. lra.
  - assert (0 < c * x)%R by (apply Rmult_lt_0_compat; lra).
    rewrite !rpow_whole_pos by assumption. simpl. now rewrite powerRZ_mult_distr_pos.
Qed.

Variables en en' : env.
Hypothesis Hen : rescaled lam K qdim h en en'.

Lemma arith_scale o (c d : R) a b a' b' :
  (0 < c)%R -> (0 < d)%R ->
  a' = option_map (Rmult c) a -> b' = option_map (Rmult d) b ->
  match o with BAdd | BSub => c = d | BMul | BDiv => True | BPow => c = 1%R /\ d = 1%R end ->
  arith o a' b' = option_map (Rmult (match o with BMul => c * d | BDiv => c / d | BPow => 1 | _ => c end)%R)
                             (arith o a b).
Proof.
  intros Hc Hd -> -> Ho. destruct a as [x|], b as [y|]; simpl; try reflexivity.
  destruct o; simpl.
  - subst d. f_equal. lra.
  - subst d. f_equal. lra.
  - f_equal. lra.
  - destruct (Req_EM_T (d * y) 0) as [E|E], (Req_EM_T y 0) as [F|F]; simpl; try reflexivity.
    + exfalso. apply Rmult_integral in E. destruct E; lra.
    + subst y. exfalso. apply E. lra.
    + f_equal. field. split; lra.
  - destruct Ho as [-> ->]. rewrite !Rmult_1_l. destruct (rpow x y); simpl; [|reflexivity]. f_equal. lra.
Qed.

Lemma arith_scale_num o (c : R) a a' k :
  (0 < c)%R -> a' = option_map (Rmult c) a ->
  match o with BAdd | BSub => k = Some 0%R | BPow => False | _ => True end ->
  arith o a' k = option_map (Rmult c) (arith o a k).
Proof.
  intros Hc -> Ho. destruct a as [x|], k as [y|]; simpl; try reflexivity; destruct o; simpl; try reflexivity;
    try discriminate; try (injection Ho as ->); try tauto.
  - f_equal; lra.
  - f_equal; lra.
  - f_equal; lra.
  - destruct (Req_EM_T y 0); simpl; [reflexivity|]. f_equal. unfold Rdiv. lra.
Qed.

Lemma option_map_1 (a : option R) : a = option_map (Rmult 1) a.
Proof. destruct a; simpl; [|reflexivity]. f_equal. lra. Qed.

Lemma dimless_factor d : dimless_dim K d -> factor lam K d = 1%R.
Proof. intros H. rewrite (factor_ext K d (fun _ => 0) H). apply factor_zero. Qed.

Lemma nrep_num_value p z : nrep w p z -> num_value p = Some (IZR z).
Proof.
  intros H. destruct w; simpl in H.
  - subst p. reflexivity.
  - destruct H as [_ H]. destruct p as [a|f]; simpl; [now subst a|].
    destruct H as [b [<- [Hf Hr]]]. rewrite <- Hr. destruct b; simpl in *; try discriminate; reflexivity.
Qed.

Theorem plain_covariant e : forall n,
  plain w K qdim whole h e -> no_added_number e -> build h e = Ok n ->
  den (nd_repr n) en' = option_map (Rmult (factor lam K (dimn e))) (den (nd_repr n) en).
Proof.
  destruct Hen as [HS HD].
  induction e as [l|o e1 IH1 e2 IH2|o e IH k|o k e IH|f e IH|f k|l t|mx l]; intros n Hp Ha H; simpl in Hp.
  - simpl in H. apply build_qty_shape in H. destruct H as [q [E ->]]. simpl.
    assert (R : nd_repr (qty_call l q) = SSym (q_name q)) by (unfold qty_call; now destruct (q_spec q)).
    rewrite R. simpl. f_equal. now apply HS.
  - assert (Hp12 : plain w K qdim whole h e1 /\ plain w K qdim whole h e2) by (destruct o; tauto).
    destruct Hp12 as [Hp1 Hp2]. destruct Ha as [Ha1 Ha2].
    assert (Hh : hom (UBin o e1 e2)) by (apply plain_builds_iff; [exact Hp|eauto]).
    simpl in H. binv.
    specialize (IH1 _ Hp1 Ha1 Hb). specialize (IH2 _ Hp2 Ha2 Hb0).
    apply node_op_ok_shape in H. destruct H as [_ [H _]]. rewrite !H.
    destruct Hh as [_ [_ Hh]].
    assert (P1 := factor_pos K (dimn e1)). assert (P2 := factor_pos K (dimn e2)).
    rewrite (arith_scale o _ _ _ _ _ _ P1 P2 IH1 IH2).
    + destruct o; try reflexivity.
      * change (dimn (UBin BMul e1 e2)) with (fun k => dimn e1 k + dimn e2 k). now rewrite factor_plus.
      * change (dimn (UBin BDiv e1 e2)) with (fun k => dimn e1 k - dimn e2 k). now rewrite factor_minus.
      * change (dimn (UBin BPow e1 e2)) with (fun _ : string => 0). now rewrite factor_zero.
    + destruct o; try exact I.
      * now apply factor_ext.
      * now apply factor_ext.
      * destruct Hh. split; now apply dimless_factor.
  - destruct Hp as [Hr Hp]. destruct Ha as [Ha Hk].
    assert (Hpe : plain w K qdim whole h e) by (destruct o; tauto).
    simpl in H. binv. specialize (IH _ Hpe Ha Hb).
    apply node_op_num_shape in H. destruct H as [_ [H _]]. rewrite !H.
    assert (P := factor_pos K (dimn e)).
    destruct o; try (now rewrite (arith_scale_num _ _ _ _ _ P IH)).
    change (dimn (UNumR BPow e k)) with (fun i => dimn e i * whole k).
    destruct Hp as [_ [Hw|[_ [_ [_ Hd]]]]].
    + rewrite IH, (nrep_num_value _ _ Hw), factor_times.
      destruct (den (nd_repr x) en) as [y|]; simpl; [|reflexivity]. now apply rpow_scale.
    + rewrite (factor_ext K _ (fun _ => 0)) by (intros i Hi; rewrite Hd by exact Hi; lia).
      rewrite factor_zero, <- option_map_1. rewrite dimless_factor in IH by exact Hd.
      rewrite <- option_map_1 in IH. now rewrite IH.
  - destruct Hp as [Hr Hp]. destruct Ha as [Ha Hk].
    assert (Hpe : plain w K qdim whole h e) by (destruct o; tauto).
    simpl in H. binv. specialize (IH _ Hpe Ha Hb).
    apply node_rop_shape in H. destruct H as [_ [H _]]. rewrite !H.
    assert (P := factor_pos K (dimn e)).
    destruct o; try (destruct Hp; fail).
    + change (dimn (UNumL BAdd k e)) with (dimn e).
      rewrite IH, Hk. destruct (den (nd_repr x) en); simpl; [|reflexivity]. f_equal. lra.
    + change (dimn (UNumL BSub k e)) with (dimn e).
      rewrite IH, Hk. destruct (den (nd_repr x) en); simpl; [|reflexivity]. f_equal. lra.
    + change (dimn (UNumL BMul k e)) with (dimn e). rewrite IH. destruct (num_value k), (den (nd_repr x) en); simpl; try reflexivity. f_equal. lra.
    + change (dimn (UNumL BDiv k e)) with (fun i => - dimn e i). rewrite factor_opp, IH. destruct (num_value k) as [y|], (den (nd_repr x) en) as [z|]; simpl; try reflexivity.
      destruct (Req_EM_T (factor lam K (dimn e) * z) 0) as [E|E], (Req_EM_T z 0) as [F|F]; simpl; try reflexivity.
      * exfalso. apply Rmult_integral in E. destruct E; lra.
      * subst z. exfalso. apply E. lra.
      * f_equal. field. split; lra.
  - destruct Hp as [Hr Hp].
    assert (Hh : hom (UFun f e)) by (apply plain_builds_iff; [now split|eauto]).
    destruct Hh as [_ Hh].
    simpl in H. binv. specialize (IH _ Hp Ha Hb). apply node_fun_shape in H. subst n. change (dimn (UFun f e)) with (fun _ : string => 0).
    rewrite factor_zero, <- option_map_1. simpl. rewrite dimless_factor in IH by exact Hh.
    rewrite <- option_map_1 in IH. now rewrite IH.
  - destruct Hp as [_ []].
  - simpl in H. destruct Hp as [_ [_ [i [p [-> [Hi Hs]]]]]].
    apply build_diff_shape in H. destruct H as [q [Eq [_ [_ [p' [Ep [_ [_ [-> _]]]]]]]]].
    change (dimn (UDiff l (Some i))) with (fun k => qdim l k - qdim i k). simpl.
    f_equal. now apply HD.
  - destruct Hp as [_ []].
Qed.

Theorem plain_covariant_unit e n d :
  plain w K qdim whole h e -> no_added_number e -> build h e = Ok n -> urep w K (nd_unit n) d ->
  den (nd_repr n) en' = option_map (Rmult (factor lam K d)) (den (nd_repr n) en).
Proof.
  intros Hp Ha H Hd. rewrite (plain_covariant e n Hp Ha H). f_equal. f_equal.
  apply factor_ext. intros k Hk.
  destruct (urep_get _ _ _ _ _ Hd Hk) as [x [Ex Hx]].
  destruct (urep_get _ _ _ _ _ (plain_dimension e n Hp H) Hk) as [y [Ey Hy]].
  apply (nrep_unique w x); [congruence|exact Hx].
Qed.
End D.
