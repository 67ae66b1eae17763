(** Facts about optimisation studies. *)
From Verif Require Import SpecOptim BaseFacts BuildFacts NumFacts SpecUnits UnitThms.
From Coq Require Import Reals Lra.
From Flocq Require Import Core BinarySingleNaN.
Notation num := Verif.Num.num.

(** ** Comparison *)
Lemma Zcompare_Rcompare a b : Rcompare (IZR a) (IZR b) = (a ?= b).
Proof. apply Rcompare_IZR. Qed.

Lemma float_cmp_Z_value (b : binary_float 53 1024) z :
  is_finite b = true -> float_cmp_Z (B2SF b) z = Some (Rcompare (B2R b) (IZR z)).
Proof.
  destruct b as [s|s| |s m e Hb]; simpl; intros Hf; try discriminate.
  - now rewrite Rcompare_IZR.
  - set (v := if s then Z.neg m else Z.pos m).
    assert (Hv : cond_Zopp s (Z.pos m) = v) by now destruct s.
    rewrite Hv. unfold F2R; simpl. f_equal.
    destruct (Z.leb_spec 0 e) as [He|He].
    + rewrite bpow_IZR_pos, <- mult_IZR by exact He. now rewrite Rcompare_IZR.
    + assert (Hpos : (0 < bpow radix2 (- e))%R) by apply bpow_gt_0.
      rewrite <- (Rcompare_mult_r (bpow radix2 (- e)) (IZR v * bpow radix2 e) (IZR z) Hpos).
      rewrite Rmult_assoc, <- bpow_plus. replace (e + - e) with 0 by lia. simpl (bpow radix2 0). rewrite Rmult_1_r.
      rewrite bpow_IZR_pos, <- mult_IZR by lia. now rewrite Rcompare_IZR.
Qed.

Lemma nltb_value x y r s : nvalue x r -> nvalue y s -> nltb x y = true <-> (r < s)%R.
Proof.
  destruct x as [i|f], y as [j|g]; simpl.
  - intros -> ->. rewrite Z.ltb_lt. split; [apply IZR_lt|apply lt_IZR].
  - intros -> (b & <- & Fb & <-). rewrite float_cmp_Z_value by exact Fb.
    destruct (Rcompare_spec (B2R b) (IZR i)); split; intros; try discriminate; try lra; reflexivity.
  - intros (b & <- & Fb & <-) ->. rewrite float_cmp_Z_value by exact Fb.
    destruct (Rcompare_spec (B2R b) (IZR j)); split; intros; try discriminate; try lra; reflexivity.
  - intros (b & <- & Fb & <-) (c & <- & Fc & <-).
    unfold SFltb. fold (Bcompare b c). rewrite (Bcompare_correct 53 1024 b c Fb Fc).
    destruct (Rcompare_spec (B2R b) (B2R c)) as [H|H|H]; split; intros; try discriminate; try lra; reflexivity.
Qed.

Lemma ordered_value x y r s : nvalue x r -> nvalue y s -> ordered x y = true <-> (r <= s)%R.
Proof.
  intros Hx Hy. unfold ordered. rewrite Bool.orb_true_iff, (neqb_value x y r s Hx Hy), (nltb_value x y r s Hx Hy). lra.
Qed.

Lemma comparison_sense : forall p f1 f2 r1 r2, fit f1 r1 -> fit f2 r2 ->
  exists b, compare_fitness p f1 f2 = Ok b /\
    (b = true <-> if op_max p then (r1 > r2)%R else (r1 < r2)%R).
Proof.
  intros p f1 f2 r1 r2 (x & l1 & -> & Hx) (y & l2 & -> & Hy). cbn. eexists. split; [reflexivity|].
  destruct (op_max p).
  - rewrite (nltb_value y x r2 r1 Hy Hx). lra.
  - now apply nltb_value.
Qed.

(** ** Sense of a run *)
Lemma run_ignores_sense : forall evolve after s t s' o t' q, same_but_sense s t ->
  run_study evolve after s = (s', o) -> run_study evolve after t = (t', q) ->
  o = q /\ st_best s' = st_best t' /\ same_but_sense s' t'.
Proof.
  intros evolve after s t s' o t' q ((m & Hp) & H1 & H2 & H3 & H4 & H5 & H6) Hs Ht.
  assert (Hsane : sane t = sane s).
  { unfold sane. rewrite H3, H2, Hp. reflexivity. }
  unfold run_study in Hs, Ht. rewrite Hsane in Ht.
  destruct (sane s) as [[|]|e].
  2-3: injection Hs as <- <-; injection Ht as <- <-; split; [reflexivity|]; split; [now rewrite H6|];
       repeat split; auto; exists m; exact Hp.
  rewrite H5 in Ht. destruct (st_mech s) as [me|] eqn:Em.
  2:{ injection Hs as <- <-; injection Ht as <- <-. split; [reflexivity|]. split; [now cbn; rewrite H6|].
      repeat split; cbn; auto; try congruence. exists m. rewrite Hp, H1, H3. reflexivity. }
  rewrite H2, H4, H3, H1, Hp in Ht. cbn [op_fitness op_set_bounds op_set_simconf op_set_max] in Ht, Hs.
  match type of Ht with context [get_bounds ?x] =>
    replace (get_bounds x) with (get_bounds (op_set_bounds (op_set_simconf (st_problem s) (st_simconf s)) (st_constraints s))) in Ht
      by reflexivity end.
  destruct (let* _ := if forallb has_name (st_params s) then Ok tt else Raise EAttribute in _) as [best|e] eqn:E.
  - destruct after as [u|e]; injection Hs as <- <-; injection Ht as <- <-; (split; [reflexivity|]); (split; [reflexivity|]);
      repeat split; cbn; auto; try congruence; exists m; reflexivity.
  - injection Hs as <- <-; injection Ht as <- <-. split; [reflexivity|]. split; [now cbn; rewrite H6|].
    repeat split; cbn; auto; try congruence. exists m. reflexivity.
Qed.

(** ** Options *)
Ltac binv2 := repeat match goal with
  | H : rbind ?r _ = Ok _ |- _ => let E := fresh "E" in destruct r eqn:E; cbn [rbind] in H; [|discriminate H]
  end.

Lemma oget_some c k v : oget c k = Ok v <-> dget k c = Some v.
Proof. unfold oget. destruct (dget k c); split; congruence. Qed.

Lemma usual_is k : dget k opt_defaults = usual k.
Proof.
  unfold usual, opt_defaults. cbn [dget existsb orb].
  repeat match goal with |- context [String.eqb k ?s] => destruct (String.eqb_spec k s) as [->|]; [reflexivity|]; cbn [orb] end. reflexivity.
Qed.

Lemma options_override : forall accepts simconf a s d, new_study accepts simconf a = Ok s -> sa_conf a = CDict d -> NoDup (dkeys d) ->
  forall k, (forall v, dget k d = Some v -> dget k (st_conf s) = Some v) /\
            (dget k d = None -> dget k (st_conf s) = usual k).
Proof.
  intros accepts simconf a s d H Hc ND k. unfold new_study in H. rewrite Hc in H. binv2. cbn in E0.
  injection E0 as <-. injection H as <-. cbn [st_conf]. rewrite (dget_dupdate k opt_defaults d ND).
  split; [intros v Hv; now rewrite Hv|]. intros Hd. rewrite Hd. apply usual_is.
Qed.

Lemma options_default : forall accepts simconf a s, new_study accepts simconf a = Ok s -> sa_conf a = CNone ->
  forall k, dget k (st_conf s) = usual k.
Proof.
  intros accepts simconf a s H Hc k. unfold new_study in H. rewrite Hc in H. binv2. cbn in E0.
  injection E0 as <-. injection H as <-. apply usual_is.
Qed.

Lemma algorithm_is accepts al args m : pg_algorithm accepts al args = Ok m -> m = mkMech al args.
Proof. unfold pg_algorithm. destruct (accepts al args); [now intros [= <-]|discriminate]. Qed.

Lemma options_used : forall accepts c m o mech, set_optimizer accepts c (OName m) = Ok (o, Some mech) ->
  forall k al w, role m k al w -> me_algo mech = al /\ exists v, dget k c = Some v /\ dget w (me_args mech) = Some v.
Proof.
  intros accepts c m o mech H k al w Hr.
  destruct Hr as [k w Hr|k w Hr|k w Hr|k w Hr]; cbn [set_optimizer String.eqb Ascii.eqb Bool.eqb] in H; binv2;
    injection H as <- <-;
    match goal with E : pg_algorithm _ _ _ = Ok _ |- _ => apply algorithm_is in E; subst end; (split; [reflexivity|]);
    repeat match goal with E : oget _ _ = Ok _ |- _ => apply oget_some in E end;
    cbn in Hr; repeat (destruct Hr as [Hr|Hr]; [injection Hr as <- <-; eexists; split; [eassumption|reflexivity]|]); destruct Hr.
Qed.

Lemma known_or_none : forall accepts c m o mech, set_optimizer accepts c (OName m) = Ok (o, mech) ->
  (known m /\ o = Some m /\ mech <> None) \/ (~ known m /\ o = None /\ mech = None).
Proof.
  intros accepts c m o mech H. unfold set_optimizer in H. unfold known. cbn [In].
  destruct (String.eqb m "ga") eqn:E1; [apply String.eqb_eq in E1; binv2; injection H as <- <-; left; subst m; split; [tauto|split; [reflexivity|discriminate]]|].
  destruct (String.eqb m "sade") eqn:E2; [apply String.eqb_eq in E2; binv2; injection H as <- <-; left; subst m; split; [tauto|split; [reflexivity|discriminate]]|].
  destruct (String.eqb m "de") eqn:E3; [apply String.eqb_eq in E3; binv2; injection H as <- <-; left; subst m; split; [tauto|split; [reflexivity|discriminate]]|].
  destruct (String.eqb m "pso") eqn:E4; [apply String.eqb_eq in E4; binv2; injection H as <- <-; left; subst m; split; [tauto|split; [reflexivity|discriminate]]|].
  injection H as <- <-. right. apply String.eqb_neq in E1, E2, E3, E4. repeat split. intuition congruence.
Qed.

Lemma study_mechanism : forall accepts simconf a s, new_study accepts simconf a = Ok s ->
  exists c, opt_configuration (sa_conf a) = Ok c /\ st_conf s = c /\ st_constraints s = sa_constraints a /\ st_problem s = sa_problem a /\
    st_best s = None /\ set_optimizer accepts c (sa_optimizer a) = Ok (st_optimizer s, st_mech s).
Proof.
  intros accepts simconf a s H. unfold new_study in H. binv2. injection H as <-. cbn. exists a1. destruct a2; auto 10.
Qed.

(** ** Boxes *)
Lemma numbers_of_map l ns : numbers_of l = Some ns <-> l = map VNum ns.
Proof.
  split.
  - revert ns. induction l as [|v r IH]; intros ns H; cbn in H; [injection H as <-; reflexivity|].
    destruct v; try discriminate. cbn in H. destruct (numbers_of r); [|discriminate]. injection H as <-. cbn. f_equal. auto.
  - intros ->. induction ns as [|n r IH]; [reflexivity|]. cbn. now rewrite IH.
Qed.

Lemma all_ordered_spec lo hi : all_ordered lo hi = true <->
  List.length lo = List.length hi /\ forall i a b, nth_error lo i = Some a -> nth_error hi i = Some b -> ordered a b = true.
Proof.
  revert hi. induction lo as [|x lo IH]; intros [|y hi]; cbn [all_ordered List.length].
  - split; [intros _; split; [reflexivity|intros [|i] a b H; discriminate H]|reflexivity].
  - split; [discriminate|intros [H _]; discriminate H].
  - split; [discriminate|intros [H _]; discriminate H].
  - rewrite Bool.andb_true_iff, IH. split.
    + intros (H & Hl & Hr). split; [now rewrite Hl|]. intros [|i] a b Ha Hb.
      * injection Ha as <-. injection Hb as <-. exact H.
      * eapply Hr; eauto.
    + intros (Hl & Hr). injection Hl as Hl. split; [now apply (Hr 0%nat)|]. split; [exact Hl|].
      intros i a b Ha Hb. now apply (Hr (S i)).
Qed.

Lemma ndim_numbers ns : ndim (VList (map VNum ns)) = Some 1%nat.
Proof.
  induction ns as [|n [|m r] IH]; [reflexivity|reflexivity|]. cbn [map] in *. cbn in IH |- *.
  unfold option_map in *. rewrite IH. reflexivity.
Qed.

Lemma box_spec : forall p lo hi, op_ready p = true ->
  (exists b, get_bounds p = Ok b /\ pg_box b = Ok (lo, hi)) <-> box_of (op_bounds p) lo hi.
Proof.
  intros p lo hi Hp. unfold get_bounds. rewrite Hp. unfold declare_bounds. split.
  - intros (b & Hb & Hbox). unfold pg_box in Hbox. destruct b as [|[l|] [|[h|] [|]]]; try discriminate Hbox.
    destruct (numbers_of l) as [[|x l']|] eqn:El; try discriminate Hbox.
    destruct (numbers_of h) as [h'|] eqn:Eh; [|discriminate Hbox].
    destruct (all_ordered (x :: l') h') eqn:Eo; [|discriminate Hbox]. injection Hbox as <- <-.
    apply all_ordered_spec in Eo. destruct Eo as [Eo1 Eo2]. apply numbers_of_map in El, Eh. subst l h.
    split; [|split; [discriminate|split; [exact Eo1|exact Eo2]]].
    destruct (ndim (op_bounds p)) as [[|[|d]]|] eqn:Ed; try discriminate Hb.
    + destruct (op_bounds p) as [| | | |l|d|r|o]; try discriminate Hb.
      * injection Hb as Hb. exfalso. clear - Hb. revert Hb. generalize (list_ascii_of_string s). intros [|c [|c' [|]]] Hb; discriminate Hb.
      * cbn in Ed. destruct l as [|x0 [|y r]]; [discriminate Ed|destruct (ndim x0); discriminate Ed|].
        destruct (ndim x0) as [n0|]; [|discriminate Ed]. exfalso.
        match type of Ed with match ?g with _ => _ end = _ => destruct g as [e|]; [|discriminate Ed] end.
        match type of Ed with (if ?g then _ else _) = _ => destruct g eqn:Eg; [|discriminate Ed] end.
        apply Bool.andb_true_iff in Eg. destruct Eg as [Eg _]. injection Ed as ->. destruct n0; discriminate Eg.
      * injection Hb as Hb. exfalso. destruct d as [|? [|? [|]]]; discriminate Hb.
    + destruct (op_bounds p) as [| | | |l|d|r|o]; try discriminate Hb.
      injection Hb as Hb. destruct l as [|a [|b [|]]]; try discriminate Hb. cbn in Hb. injection Hb as Hb1 Hb2 Hb3.
      destruct l'; [|discriminate Hb2]. subst a. destruct h' as [|y [|]]; try discriminate Hb3. injection Hb3 as ->.
      right. exists x, y. auto.
    + destruct (op_bounds p) as [| | | |l|d'|r|o]; try discriminate Hb.
      * injection Hb as Hb. exfalso. clear - Hb. revert Hb. generalize (list_ascii_of_string s). intros [|c [|c' [|]]] Hb; discriminate Hb.
      * injection Hb as Hb. destruct l as [|a [|b [|]]]; try discriminate Hb. cbn in Hb. injection Hb as Hb1 Hb2.
        destruct a; try discriminate Hb1. destruct b; try discriminate Hb2. injection Hb1 as ->. injection Hb2 as ->. left. reflexivity.
      * injection Hb as Hb. exfalso. destruct d' as [|? [|? [|]]]; discriminate Hb.
  - intros ([Hc|(l & h & Hc & -> & ->)] & Hne & Hl & Ho).
    + rewrite Hc.
      assert (Ed : ndim (VList [VList (map VNum lo); VList (map VNum hi)]) = Some 2%nat).
      { cbn [ndim]. change (match ndim (VList (map VNum lo)), option_map S (ndim (VList (map VNum hi))) with
          | Some d, Some e => if (Nat.eqb (S d) e && Nat.eqb (List.length (map VNum lo)) (List.length (map VNum hi)))%bool then Some e else None
          | _, _ => None end = Some 2%nat).
        rewrite !ndim_numbers. cbn [option_map]. rewrite !map_length, Hl. cbn. rewrite Nat.eqb_refl. reflexivity. }
      rewrite Ed. eexists. split; [reflexivity|]. cbn [map pg_box].
      rewrite (proj2 (numbers_of_map (map VNum lo) lo) eq_refl), (proj2 (numbers_of_map (map VNum hi) hi) eq_refl).
      destruct lo as [|x lo]; [congruence|]. rewrite (proj2 (all_ordered_spec (x :: lo) hi) (conj Hl Ho)). reflexivity.
    + rewrite Hc. exists [BVec [VNum l]; BVec [VNum h]]. split; [reflexivity|]. cbn.
      rewrite (Ho 0%nat l h eq_refl eq_refl). reflexivity.
Qed.

Lemma sane_list s l : st_constraints s = VList l -> sane s = if op_ready (st_problem s) then Ok true else Raise EAbsentRequired.
Proof. unfold sane. now intros ->. Qed.

Lemma box_of_list c lo hi : box_of c lo hi -> exists l, c = VList l.
Proof. intros [[->|(l & h & -> & _)] _]; eauto. Qed.

(** ** Results *)
Lemma all_have_names l : if forallb has_name l then ~ In XParam l else In XParam l.
Proof. induction l as [|[n|n|] l IH]; cbn; [tauto| | |now left]; destruct (forallb has_name l); intuition discriminate. Qed.

Lemma run_best : forall evolve after s s' o, run_study evolve after s = (s', o) ->
  (exists b, evolved s (ORun evolve after) b /\ st_best s' = Some b) \/
  ((forall b, ~ evolved s (ORun evolve after) b) /\ st_best s' = st_best s /\ exists e, o = Raise e).
Proof.
  intros evolve after s s' o H. unfold run_study in H.
  assert (Hready : op_ready (op_set_bounds (op_set_simconf (st_problem s) (st_simconf s)) (st_constraints s)) = op_ready (st_problem s)) by reflexivity.
  destruct (sane s) as [[|]|e] eqn:Es.
  2:{ exfalso. unfold sane in Es. destruct (st_constraints s); cbn [rbind] in Es;
        try (destruct (op_ready (st_problem s)); discriminate Es).
      match type of Es with rbind ?x _ = _ => destruct x; cbn [rbind] in Es; [|discriminate Es] end.
      destruct (op_ready (st_problem s)); discriminate Es. }
  2:{ injection H as <- <-. right. split; [|split; [reflexivity|eauto]]. intros b Hb. inversion Hb as [ev af m n lo hi b' H1 H2 Hp3 H3 H4 H5]. subst.
      destruct (box_of_list _ _ _ H4) as [l Hl]. rewrite (sane_list s l Hl), H1 in Es. discriminate Es. }
  assert (Hr : op_ready (st_problem s) = true).
  { unfold sane in Es. match type of Es with rbind ?x _ = _ => destruct x; cbn [rbind] in Es; [|discriminate Es] end.
    destruct (op_ready (st_problem s)); [reflexivity|discriminate Es]. }
  destruct (st_mech s) as [m|] eqn:Em.
  2:{ injection H as <- <-. right. split; [|split; [reflexivity|eauto]]. intros b Hb. inversion Hb. congruence. }
  remember (op_set_bounds (op_set_simconf (st_problem s) (st_simconf s)) (st_constraints s)) as p eqn:Ep.
  assert (Hpb : op_bounds p = st_constraints s) by now subst p.
  assert (Hpf : op_fitness p = op_fitness (st_problem s)) by now subst p.
  assert (Hpr : op_ready p = true) by (now subst p).
  assert (Hall := all_have_names (st_params s)). destruct (forallb has_name (st_params s)); cbn [rbind] in H.
  2:{ injection H as <- <-. right. split; [|split; [reflexivity|eauto]]. intros b Hb. inversion Hb. contradiction. }
  destruct (oget (st_conf s) "number_of_individuals") as [n|e] eqn:En; cbn [rbind] in H.
  2:{ injection H as <- <-. right. split; [|split; [reflexivity|eauto]]. intros b Hb. inversion Hb as [ev af m' n lo hi b' H1 H2 Hp3 H3 H4 H5].
      apply oget_some in H3. congruence. }
  apply oget_some in En.
  assert (Hnot : (forall lo hi, ~ (exists bb, get_bounds p = Ok bb /\ pg_box bb = Ok (lo, hi))) -> forall b, ~ evolved s (ORun evolve after) b).
  { intros Hno b Hb. inversion Hb as [ev af m' n' lo hi b' H1 H2 Hp3 H3 H4 H5]. subst ev af b'.
    apply (Hno lo hi). apply box_spec; [exact Hpr|]. now rewrite Hpb. }
  destruct (get_bounds p) as [bb|e] eqn:Eb; cbn [rbind] in H.
  2:{ injection H as <- <-. right. split; [|split; [reflexivity|eauto]]. apply Hnot. intros lo hi (x & Hx & _). congruence. }
  destruct (pg_box bb) as [[lo hi]|e] eqn:Ebox; cbn [rbind] in H.
  2:{ injection H as <- <-. right. split; [|split; [reflexivity|eauto]]. apply Hnot. intros lo hi (x & Hx & Hy). congruence. }
  assert (Hbox : box_of (st_constraints s) lo hi).
  { rewrite <- Hpb. apply box_spec; [exact Hpr|]. eauto. }
  destruct (evolve m (op_fitness p) (lo, hi) n) as [best|e] eqn:Ev.
  - left. exists best. split; [|destruct after; injection H as <- <-; reflexivity]. rewrite Hpf in Ev. econstructor; eauto.
  - injection H as <- <-. right. split; [|split; [reflexivity|eauto]]. intros b Hb.
    inversion Hb as [ev af m' n' lo' hi' b' H1 H2 Hp3 H3 H4 H5]. subst ev af b'.
    assert (Hsame : lo' = lo /\ hi' = hi).
    { rewrite <- Hpb in H4. apply box_spec in H4; [|exact Hpr]. destruct H4 as (x & Hx & Hy). split; congruence. }
    destruct Hsame as [-> ->]. rewrite Hpf in Ev. congruence.
Qed.

Lemma step_best : forall s a, (exists b, evolved s a b /\ st_best (fst (ostep s a)) = Some b) \/
  ((forall b, ~ evolved s a b) /\ st_best (fst (ostep s a)) = st_best s).
Proof.
  intros s [c|p|evolve after]; cbn [ostep].
  - right. split; [intros b Hb; inversion Hb|reflexivity].
  - right. split; [intros b Hb; inversion Hb|reflexivity].
  - destruct (run_study evolve after s) as [s' o] eqn:E. apply run_best in E. destruct E as [E|(E1 & E2 & _)]; [left|right]; auto.
Qed.

Lemma ohist_app s l1 l2 : ohist s (l1 ++ l2) = ohist (ohist s l1) l2.
Proof. revert s. induction l1 as [|a l1 IH]; intros s; [reflexivity|]. apply IH. Qed.

Lemma evolved_unique s a b b' : evolved s a b -> st_best (fst (ostep s a)) = Some b' -> b = b'.
Proof.
  intros H Hb. destruct (step_best s a) as [(c & Hc & Hs)|(Hn & _)]; [|exfalso; eapply Hn; eauto].
  assert (c = b') by congruence. subst c. clear Hb.
  inversion H as [ev af m n lo hi x H1 H2 Hp3 H3 H4 H5]. subst.
  inversion Hc as [ev' af' m' n' lo' hi' x' G1 G2 Gp3 G3 G4 G5]. subst.
  assert (m = m') by congruence. assert (n = n') by congruence. subst m' n'.
  set (p := mkOP "" 0 false (st_constraints s) None true (fun _ => Raise EType)).
  apply (box_spec p) in H4; [|reflexivity]. apply (box_spec p) in G4; [|reflexivity].
  destruct H4 as (y & Hy & Hz), G4 as (y' & Hy' & Hz'). assert (y = y') by congruence. subst y'.
  rewrite Hz in Hz'. injection Hz' as <- <-. congruence.
Qed.

Lemma results_latest : forall s l b, st_best s = None ->
  (study_results (ohist s l) = Ok b <-> last_champion s l b).
Proof.
  intros s l b Hs. unfold study_results.
  assert (G : st_best (ohist s l) = Some b <-> last_champion s l b).
  { revert b. induction l as [|a l IH] using rev_ind; intros b.
    - cbn. rewrite Hs. split; [discriminate|]. intros (l1 & a & l2 & H & _). destruct l1; discriminate H.
    - rewrite ohist_app. cbn [ohist]. destruct (step_best (ohist s l) a) as [(c & Hc & Hst)|(Hn & Hst)].
      + rewrite Hst. split.
        * intros [= ->]. exists l, a, (@nil oaction). split; [reflexivity|]. split; [exact Hc|].
          intros l3 a' l4 b' H. destruct l3; discriminate H.
        * intros (l1 & a1 & l2 & H & Hev & Hno). destruct l2 as [|x l2] using rev_ind.
          -- apply app_inj_tail in H. destruct H as [<- <-]. f_equal. symmetry. eapply evolved_unique; eauto.
          -- exfalso. rewrite app_comm_cons, app_assoc in H. apply app_inj_tail in H. destruct H as [-> ->].
             eapply (Hno l2 x []); [reflexivity|exact Hc].
      + rewrite Hst, IH. split; intros (l1 & a1 & l2 & H & Hev & Hno).
        * exists l1, a1, (l2 ++ [a])%list. split; [rewrite H, <- app_assoc; reflexivity|]. split; [exact Hev|].
          intros l3 a' l4 b' H'. destruct l4 as [|y l4] using rev_ind.
          -- apply app_inj_tail in H'. destruct H' as [<- <-]. rewrite <- H. apply Hn.
          -- clear IHl4. rewrite app_comm_cons, app_assoc in H'. apply app_inj_tail in H'. destruct H' as [-> ->]. eapply Hno; reflexivity.
        * destruct l2 as [|x l2] using rev_ind.
          -- exfalso. apply app_inj_tail in H. destruct H as [<- <-]. eapply Hn; eauto.
          -- clear IHl2. rewrite app_comm_cons, app_assoc in H. apply app_inj_tail in H. destruct H as [-> ->].
             exists l1, a1, l2. split; [reflexivity|]. split; [exact Hev|].
             intros l3 a' l4 b' H'. subst l2. apply (Hno l3 a' (l4 ++ [x])%list). now rewrite <- app_assoc. }
  rewrite <- G. destruct (st_best (ohist s l)); split; congruence.
Qed.

Lemma results_raise : forall s l, st_best s = None -> (forall b, ~ last_champion s l b) ->
  study_results (ohist s l) = Raise EException.
Proof.
  intros s l Hs Hno. destruct (study_results (ohist s l)) as [b|e] eqn:E.
  - exfalso. apply (Hno b). now apply results_latest.
  - unfold study_results in E. destruct (st_best (ohist s l)); [discriminate|]. congruence.
Qed.

(** A run that ends normally found its champion in the box. *)
Lemma run_in_box : forall evolve after s s', keeps_box evolve -> run_study evolve after s = (s', Ok tt) ->
  exists lo hi x f, box_of (st_constraints s) lo hi /\ study_results s' = Ok (x, f) /\ List.length x = List.length lo /\
    forall i a b c, nth_error lo i = Some a -> nth_error hi i = Some b -> nth_error x i = Some c -> within_limits a b c.
Proof.
  intros evolve after s s' Hk H. apply run_best in H. destruct H as [([x f] & Hev & Hb)|(_ & _ & e & He)]; [|discriminate He].
  inversion Hev as [ev af m n lo hi b' H1 H2 Hp3 H3 H4 H5]. subst. exists lo, hi, x, f. split; [exact H4|].
  split; [unfold study_results; now rewrite Hb|]. eapply Hk; eauto.
Qed.

Lemma interval_box params c lo hi i a b : box_of c lo hi -> interval params c i a b ->
  nth_error lo i = Some a /\ nth_error hi i = Some b.
Proof.
  intros ([->|(l & h & -> & -> & ->)] & _) H; inversion H; subst.
  - match goal with H1 : nth_error (map VNum lo) i = _, H2 : nth_error (map VNum hi) i = _ |- _ =>
      rewrite nth_error_map in H1, H2; destruct (nth_error lo i), (nth_error hi i); try discriminate;
      injection H1 as <-; injection H2 as <- end. auto.
  - auto.
Qed.

(** Each parameter is kept to its interval. *)
Lemma run_intervals : forall evolve after s s', keeps_box evolve -> run_study evolve after s = (s', Ok tt) ->
  exists x f, study_results s' = Ok (x, f) /\
    forall i lo hi, interval (st_params s) (st_constraints s) i lo hi -> exists c, nth_error x i = Some c /\ within_limits lo hi c.
Proof.
  intros evolve after s s' Hk H. destruct (run_in_box _ _ _ _ Hk H) as (lo & hi & x & f & Hbox & Hr & Hl & Hin).
  exists x, f. split; [exact Hr|]. intros i a b Hi. destruct (interval_box _ _ _ _ _ _ _ Hbox Hi) as [Ha Hb].
  destruct (nth_error x i) as [c|] eqn:E; [exists c; split; [reflexivity|eapply Hin; eauto]|].
  exfalso. apply nth_error_None in E. assert (i < List.length lo)%nat by (apply nth_error_Some; congruence). lia.
Qed.

Lemma run_needs_pairs : forall evolve after s s', run_study evolve after s = (s', Ok tt) ->
  exists lo hi, box_of (st_constraints s) lo hi.
Proof.
  intros evolve after s s' H. apply run_best in H. destruct H as [(b & Hev & Hb)|(_ & _ & e & He)]; [|discriminate He].
  inversion Hev. subst. eauto.
Qed.

Lemma dictionary_never : forall evolve after s d, st_constraints s = VDict d -> exists e, snd (run_study evolve after s) = Raise e.
Proof.
  intros evolve after s d Hd. destruct (run_study evolve after s) as [s' [u|e]] eqn:E; [|exists e; reflexivity]. exfalso. destruct u.
  apply run_needs_pairs in E. destruct E as (lo & hi & E). apply box_of_list in E. destruct E as [l Hl]. congruence.
Qed.
Lemma none_never : forall evolve after s, st_constraints s = VNone -> exists e, snd (run_study evolve after s) = Raise e.
Proof.
  intros evolve after s Hd. destruct (run_study evolve after s) as [s' [u|e]] eqn:E; [|exists e; reflexivity]. exfalso. destruct u.
  apply run_needs_pairs in E. destruct E as (lo & hi & E). apply box_of_list in E. destruct E as [l Hl]. congruence.
Qed.

(** A dictionary without one of the parameters is refused before anything else. *)
Lemma all_named_missing (q : bool) (l : list oparam) (d : list (string * cval)) : (forall x : oparam, In x l -> if q then (exists n, x = QParam n) else (exists n, x = SParam n)) ->
  (exists x n, In x l /\ param_name x = Some n /\ dget n d = None) -> all_named q l d = Ok false.
Proof.
  induction l as [|x l IH]; intros Hk (y & n & Hy & Hn & Hd); [destruct Hy|]. cbn [all_named].
  assert (Hx := Hk x (or_introl eq_refl)).
  assert (Hrest : (exists y n, In y l /\ param_name y = Some n /\ dget n d = None) -> all_named q l d = Ok false).
  { apply IH. intros z Hz. apply Hk. now right. }
  destruct Hy as [->|Hy].
  - destruct q; destruct Hx as [m ->]; cbn in Hn; injection Hn as ->; cbn [rbind]; unfold dmem; now rewrite Hd.
  - destruct q; destruct Hx as [m ->]; cbn [rbind]; destruct (dmem m d); auto; apply Hrest; eauto.
Qed.

Lemma missing_refused : forall evolve after s d, st_constraints s = VDict d ->
  ((forall x, In x (st_params s) -> exists n, x = QParam n) \/ (forall x, In x (st_params s) -> exists n, x = SParam n)) ->
  (exists x n, In x (st_params s) /\ param_name x = Some n /\ dget n d = None) ->
  run_study evolve after s = (s, Raise EAbsentRequired).
Proof.
  intros evolve after s d Hd Hk Hm. unfold run_study.
  assert (Es : sane s = Raise EAbsentRequired); [|now rewrite Es].
  unfold sane. rewrite Hd. destruct (st_params s) as [|x l] eqn:El; [destruct Hm as (y & n & [] & _)|].
  destruct Hk as [Hk|Hk]; destruct (Hk x (or_introl eq_refl)) as [m ->].
  - rewrite (all_named_missing true (QParam m :: l) d Hk Hm). reflexivity.
  - rewrite (all_named_missing false (SParam m :: l) d Hk Hm). reflexivity.
Qed.

(** A study without mechanism never has results. *)
Lemma mech_kept : forall s a, st_mech (fst (ostep s a)) = st_mech s.
Proof.
  intros s [c|p|evolve after]; [reflexivity|reflexivity|]. cbn [ostep]. unfold run_study.
  destruct (sane s) as [[|]|]; [|reflexivity|reflexivity]. destruct (st_mech s) as [m|] eqn:Em; [|cbn; now rewrite Em].
  destruct (let* n := _ in _); [destruct after|]; cbn; auto.
Qed.
Lemma no_mechanism : forall s l, st_best s = None -> st_mech s = None -> study_results (ohist s l) = Raise EException.
Proof.
  intros s l Hb Hm. apply results_raise; [exact Hb|]. intros b (l1 & a & l2 & -> & Hev & _).
  assert (H : st_mech (ohist s l1) = None).
  { clear - Hm. revert s Hm. induction l1 as [|x l1 IH]; intros s Hm; [exact Hm|]. cbn. apply IH. now rewrite mech_kept. }
  inversion Hev. congruence.
Qed.

Lemma unknown_never : forall accepts simconf a s l m, new_study accepts simconf a = Ok s -> sa_optimizer a = OName m -> ~ known m ->
  study_results (ohist s l) = Raise EException.
Proof.
  intros accepts simconf a s l m H Ho Hm. apply study_mechanism in H. destruct H as (c & _ & _ & _ & _ & Hb & Hs).
  rewrite Ho in Hs. apply known_or_none in Hs. destruct Hs as [(Hk & _)|(_ & _ & Hn)]; [contradiction|]. now apply no_mechanism.
Qed.

(** Mechanism of a study made by name. *)
Lemma study_options : forall accepts simconf a s m, new_study accepts simconf a = Ok s -> sa_optimizer a = OName m -> known m ->
  exists mech, st_mech s = Some mech /\ forall k al w, role m k al w ->
    me_algo mech = al /\ exists v, dget k (st_conf s) = Some v /\ dget w (me_args mech) = Some v.
Proof.
  intros accepts simconf a s m H Ho Hk. apply study_mechanism in H. destruct H as (c & Hc & <- & _ & _ & _ & Hs).
  rewrite Ho in Hs. assert (Hs' := Hs). apply known_or_none in Hs. destruct Hs as [(_ & _ & Hn)|(Hn & _)]; [|contradiction].
  destruct (st_mech s) as [mech|]; [|congruence]. exists mech. split; [reflexivity|]. eapply options_used; eauto.
Qed.

(** ** What a minimiser finds *)
Lemma run_minimises : forall (explored : mechanism -> list num * list num -> cval -> list (list num)) (evolve : evolution) after s s',
  (forall m g box n x f, evolve m g box n = Ok (x, f) -> best_of false g (explored m box n) x) ->
  run_study evolve after s = (s', Ok tt) ->
  exists m lo hi n x f, st_mech s = Some m /\ box_of (st_constraints s) lo hi /\ dget "number_of_individuals" (st_conf s) = Some n /\
    study_results s' = Ok (x, f) /\ best_of false (op_fitness (st_problem s)) (explored m (lo, hi) n) x.
Proof.
  intros explored evolve after s s' He H. apply run_best in H. destruct H as [([x f] & Hev & Hb)|(_ & _ & e & Hx)]; [|discriminate Hx].
  inversion Hev as [ev af m n lo hi b' H1 H2 Hp3 H3 H4 H5]. subst. exists m, lo, hi, n, x, f.
  repeat (split; [assumption|]). split; [unfold study_results; now rewrite Hb|]. eapply He. exact H5.
Qed.

(** A minimiser that looks at the two corners of the box. *)
Definition corners : evolution := fun m g box n =>
  let* a := g (fst box) in let* b := g (snd box) in
  match a, b with
  | x :: _, y :: _ => if nltb y x then Ok (snd box, b) else Ok (fst box, a)
  | _, _ => Raise EIndex
  end.
Lemma corners_minimise : forall m g box n x f, corners m g box n = Ok (x, f) -> best_of false g [fst box; snd box] x.
Proof.
  intros m g [lo hi] n x f H. unfold corners in H. cbn [fst snd] in *.
  destruct (g lo) as [[|a fa]|] eqn:Ea; cbn [rbind] in H; try discriminate H;
    destruct (g hi) as [[|b fb]|] eqn:Eb; cbn [rbind] in H; try discriminate H.
  destruct (nltb b a) eqn:Ec; injection H as <- <-.
  - split; [cbn; auto|]. intros y fx fy rx ry [<-|[<-|[]]] Hx Hy (x1 & l1 & -> & Fx) (y1 & l2 & -> & Fy); rewrite Eb in Hx; injection Hx as <- <-.
    + rewrite Ea in Hy. injection Hy as <- <-. apply (proj1 (nltb_value b a rx ry Fx Fy)) in Ec. lra.
    + rewrite Eb in Hy. injection Hy as <- <-. rewrite (nvalue_unique b rx ry Fx Fy). lra.
  - split; [cbn; auto|]. intros y fx fy rx ry [<-|[<-|[]]] Hx Hy (x1 & l1 & -> & Fx) (y1 & l2 & -> & Fy); rewrite Ea in Hx; injection Hx as <- <-.
    + rewrite Ea in Hy. injection Hy as <- <-. rewrite (nvalue_unique a rx ry Fx Fy). lra.
    + rewrite Eb in Hy. injection Hy as <- <-. destruct (Rle_or_lt rx ry) as [Hl|Hl]; [exact Hl|].
      apply (nltb_value b a ry rx Fy Fx) in Hl. congruence.
Qed.
Lemma corners_keep_box m g lo hi n x f : corners m g (lo, hi) n = Ok (x, f) -> x = lo \/ x = hi.
Proof.
  unfold corners. cbn [fst snd]. destruct (g lo) as [[|a fa]|]; cbn [rbind]; try discriminate;
    destruct (g hi) as [[|b fb]|]; cbn [rbind]; try discriminate.
  destruct (nltb b a); intros [= <- <-]; auto.
Qed.
