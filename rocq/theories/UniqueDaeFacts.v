(** Proofs: differential-algebraic equations determine one trajectory (C84). *)
From Verif Require Import Base BaseFacts Num UnitModel Sympy Node Build EquationModel ModelModel ProblemModel SpecExpr SpecModel SpecProblem ProblemFacts SolverModel SpecSolver
  SolverFacts SpecWritten SpecExact SpecLink SpecOwn SpecSession SpecSaid SaidFacts SpecCompose ComposeFacts SpecInit InitFacts RunModel SpecRun RunFacts SpecUnique TameFacts UniqueAnalysis
  UniqueFacts SpecUniqueDae.
From Verif Require DomainModel.
From Coq Require Import Reals Lra Lia.
Notation num := Verif.Num.num.
Open Scope R_scope.

Lemma gap_none known en en' : (forall x, In x known -> e_sym en x = e_sym en' x) -> gap known en en' = 0.
Proof.
  induction known as [|x l IH]; intros H; [reflexivity|]. cbn. fold (gap l en en'). rewrite IH by (intros; apply H; now right).
  rewrite (H x (or_introl eq_refl)), less_self, Rabs_R0. lra.
Qed.
Lemma gap_more t known en en' : e_sym en t = e_sym en' t -> gap (t :: known) en en' = gap known en en'.
Proof. intros E. cbn. fold (gap known en en'). rewrite E, less_self, Rabs_R0. lra. Qed.

Section Dae.
Variables (P P' : written -> Prop) (t : string) (names diffs zs : list string) (sol sol' : string -> R -> R).
Hypothesis Fo : follow P P' t diffs zs.
Hypothesis Sr : same_dae_rates P P' t diffs zs.
Hypothesis In_d : forall x, In x diffs -> In x names.
Hypothesis In_z : forall x, In x zs -> In x names.

Definition stood (Q : written -> Prop) (so : string -> R -> R) (s : R) : Prop :=
  (exists en, dae_moment t names diffs so s en) /\ forall en, dae_moment t names diffs so s en -> forall w, Q w -> wr_value w en = Some 0.

Lemma equal_value Q so s en z g : stood Q so s -> dae_moment t names diffs so s en -> equals_said Q z g -> g en = Some (e_sym en z).
Proof.
  intros (_ & H) A (w & Hw & Hv). exact (Hv en (H en A w Hw)).
Qed.
Lemma dae_rate_value Q so s en x g : stood Q so s -> dae_moment t names diffs so s en -> change_said Q x t g -> g en = Some (e_der en x t).
Proof.
  intros (_ & H) A (w & Hw & Hv). exact (Hv en (H en A w Hw)).
Qed.

(** What is known of quantities near the time [s]. *)
Definition states_gap (l : list string) (r : R) : R := total (fun x => Rabs (sol x r - sol' x r)) l.
Definition known_near (a b s : R) (known : list string) : Prop :=
  (forall x, In x known -> In x names) /\
  (forall x, In x known -> sol x s = sol' x s) /\
  (forall d, 0 < d -> exists c, 0 < c /\ forall r, a <= r <= b -> Rabs (r - s) < c -> forall x, In x known -> Rabs (sol x r - sol x s) < d /\ Rabs (sol' x r - sol' x s) < d) /\
  exists c K, 0 < c /\ 0 <= K /\ forall r, a <= r <= b -> Rabs (r - s) < c -> states_gap known r <= K * states_gap diffs r.

Lemma moment_gap l r en en' : (forall x, In x l -> In x names) -> dae_moment t names diffs sol r en -> dae_moment t names diffs sol' r en' -> gap l en en' = states_gap l r.
Proof.
  intros I (_ & A & _) (_ & A' & _). unfold states_gap. rewrite gap_total. apply total_ext. intros x Hx. now rewrite (A x (I x Hx)), (A' x (I x Hx)).
Qed.
Lemma states_gap_pos l r : 0 <= states_gap l r.
Proof. apply total_nonneg. intros. apply Rabs_pos. Qed.

Lemma known_next a b s known z g g' : (forall r, a <= r <= b -> stood P sol r /\ stood P' sol' r) -> a <= s <= b -> In z names ->
  equals_said P z g -> equals_said P' z g' -> (forall en, g en = g' en) -> even_tempered (t :: known) g -> known_near a b s known -> known_near a b s (z :: known).
Proof.
  intros H Hs Iz G G' Eg T (Kn & Ke & Kc & c0 & K0 & Hc0 & HK0 & Kg). destruct (H s Hs) as (H1 & H2).
  destruct (proj1 H1) as (en0 & A0). destruct (proj1 H2) as (en0' & A0').
  assert (V0 := equal_value P sol s en0 z g H1 A0 G). assert (V0' := equal_value P' sol' s en0' z g' H2 A0' G'). rewrite <- Eg in V0'.
  destruct (T en0 _ V0) as (d & L & Hd & HL & Tt).
  assert (S0 : forall x, In x known -> e_sym en0 x = sol x s) by (intros x Hx; apply A0, Kn, Hx).
  (* nearby *)
  assert (Nr : forall d1, 0 < d1 -> exists c, 0 < c /\ forall r en en', a <= r <= b -> Rabs (r - s) < c -> dae_moment t names diffs sol r en -> dae_moment t names diffs sol' r en' ->
    near d1 (t :: known) en0 en /\ near d1 (t :: known) en0 en').
  { intros d1 D1. destruct (Kc d1 D1) as (c & Hc & Cc). exists (Rmin c d1). split; [now apply Rmin_glb_lt|]. intros r en en' Hr Dr A A'.
    assert (Dc : Rabs (r - s) < c) by (assert (M := Rmin_l c d1); lra). assert (Dd : Rabs (r - s) < d1) by (assert (M := Rmin_r c d1); lra).
    split; intros x [<-|Hx].
    - rewrite (proj1 A), (proj1 A0). exact Dd.
    - rewrite (S0 x Hx), (proj1 (proj2 A) x (Kn x Hx)). now apply Cc.
    - rewrite (proj1 A'), (proj1 A0). exact Dd.
    - rewrite (S0 x Hx), (proj1 (proj2 A') x (Kn x Hx)), (Ke x Hx). now apply Cc. }
  assert (Ez : sol z s = sol' z s).
  { destruct (Nr d Hd) as (c & Hc & N). assert (D0 : Rabs (s - s) < c) by (rewrite less_self, Rabs_R0; exact Hc). destruct (N s en0 en0' Hs D0 A0 A0') as (N1 & N2).
    assert (B := Tt en0 en0' N1 N2 _ _ V0 V0'). rewrite gap_none in B.
    - rewrite (proj1 (proj2 A0) z Iz), (proj1 (proj2 A0') z Iz) in B. rewrite Rmult_0_r in B. assert (Q := Rabs_pos (sol z s - sol' z s)).
      assert (Rabs (sol z s - sol' z s) = 0) by lra. destruct (Req_dec (sol z s - sol' z s) 0) as [E|E]; [lra|]. apply Rabs_no_R0 in E. contradiction.
    - intros x [<-|Hx]; [now rewrite (proj1 A0), (proj1 A0')|]. now rewrite (S0 x Hx), (proj1 (proj2 A0') x (Kn x Hx)), (Ke x Hx). }
  split; [intros x [<-|Hx]; auto|]. split; [intros x [<-|Hx]; auto|]. split.
  - intros eta He. assert (Tm : tame (t :: known) g) by exact T.
    destruct (tame_close (t :: known) g en0 _ eta Tm V0 He) as (d1 & D1 & Cl). destruct (Nr d1 D1) as (c1 & Hc1 & N1). destruct (Kc eta He) as (c2 & Hc2 & N2).
    exists (Rmin c1 c2). split; [now apply Rmin_glb_lt|]. intros r Hr Dr.
    assert (Dr1 : Rabs (r - s) < c1) by (assert (M := Rmin_l c1 c2); lra). assert (Dr2 : Rabs (r - s) < c2) by (assert (M := Rmin_r c1 c2); lra).
    intros x [<-|Hx]; [|now apply N2]. destruct (H r Hr) as (R1 & R2). destruct (proj1 R1) as (en & A). destruct (proj1 R2) as (en' & A').
    destruct (N1 r en en' Hr Dr1 A A') as (M1 & M2). assert (V := equal_value P sol r en z g R1 A G). assert (V' := equal_value P' sol' r en' z g' R2 A' G'). rewrite <- Eg in V'.
    assert (B1 := Cl en M1 _ V). assert (B2 := Cl en' M2 _ V'). rewrite (proj1 (proj2 A) z Iz), (proj1 (proj2 A0) z Iz) in B1.
    rewrite (proj1 (proj2 A') z Iz), (proj1 (proj2 A0) z Iz), Ez in B2. auto.
  - destruct (Nr d Hd) as (c1 & Hc1 & N1). exists (Rmin c0 c1), (K0 + L * K0). split; [now apply Rmin_glb_lt|].
    assert (LK : 0 <= L * K0) by now apply Rmult_le_pos. split; [lra|]. intros r Hr Dr.
    assert (Dr0 : Rabs (r - s) < c0) by (assert (M := Rmin_l c0 c1); lra). assert (Dr1 : Rabs (r - s) < c1) by (assert (M := Rmin_r c0 c1); lra).
    destruct (H r Hr) as (R1 & R2). destruct (proj1 R1) as (en & A). destruct (proj1 R2) as (en' & A').
    destruct (N1 r en en' Hr Dr1 A A') as (M1 & M2). assert (V := equal_value P sol r en z g R1 A G). assert (V' := equal_value P' sol' r en' z g' R2 A' G'). rewrite <- Eg in V'.
    assert (B := Tt en en' M1 M2 _ _ V V'). rewrite gap_more in B by (now rewrite (proj1 A), (proj1 A')). rewrite (moment_gap known r en en' Kn A A') in B.
    rewrite (proj1 (proj2 A) z Iz), (proj1 (proj2 A') z Iz) in B. assert (B0 := Kg r Hr Dr0).
    unfold states_gap at 1. cbn [total fold_right]. fold (total (fun x => Rabs (sol x r - sol' x r)) known). fold (states_gap known r).
    assert (L * states_gap known r <= L * (K0 * states_gap diffs r)) by now apply Rmult_le_compat_l. lra.
Qed.

Lemma known_all a b s zz known : (forall r, a <= r <= b -> stood P sol r /\ stood P' sol' r) -> a <= s <= b -> (forall x, In x zz -> In x names) ->
  follow P P' t known zz -> known_near a b s known -> known_near a b s (rev zz ++ known).
Proof.
  intros H Hs. revert known. induction zz as [|z zz IH]; intros known I F K; [exact K|]. destruct F as ((g & g' & G & G' & Eg & T) & F).
  cbn [rev]. rewrite <- app_assoc. cbn [app]. apply IH; [intros; apply I; now right|exact F|].
  apply (known_next a b s known z g g'); auto. apply I. now left.
Qed.

Lemma known_diffs a b s : (forall r, a <= r <= b -> stood P sol r /\ stood P' sol' r) -> a <= s <= b -> (forall x, In x diffs -> sol x s = sol' x s) -> known_near a b s diffs.
Proof.
  intros H Hs Es. split; [exact In_d|]. split; [exact Es|]. split.
  - intros d Hd. destruct (H s Hs) as (H1 & H2).
    assert (Co : forall x so Q, stood Q so s -> In x diffs -> exists c, 0 < c /\ forall r, Rabs (r - s) < c -> Rabs (so x r - so x s) < d).
    { intros x so Q ((en & A) & _) Hx. destruct A as (_ & _ & A). assert (D := A x Hx).
      assert (C : continuity_pt (so x) s) by (apply derivable_continuous_pt; now exists (e_der en x t)).
      destruct (C d Hd) as (c & Hc & K). exists c. split; [exact Hc|]. intros r Hr. destruct (Req_dec r s) as [-> |Nr]; [rewrite less_self, Rabs_R0; exact Hd|].
      apply (K r). split; [split; [exact I|auto]|exact Hr]. }
    destruct (common diffs (fun x c _ => forall r, Rabs (r - s) < c -> Rabs (sol x r - sol x s) < d /\ Rabs (sol' x r - sol' x s) < d)) as (c & L1 & Hc & HC).
    { intros x c _ c' _ _ K Hc' _ r Hr. apply K. lra. }
    { intros x Hx. destruct (Co x sol P H1 Hx) as (c1 & C1 & K1). destruct (Co x sol' P' H2 Hx) as (c2 & C2 & K2).
      exists (Rmin c1 c2), 0. split; [now apply Rmin_glb_lt|]. intros r Hr. split; [apply K1|apply K2].
      - assert (M := Rmin_l c1 c2). lra.
      - assert (M := Rmin_r c1 c2). lra. }
    exists c. split; [exact Hc|]. intros r _ Hr x Hx. now apply HC.
  - exists 1, 1. split; [lra|]. split; [lra|]. intros r _ _. lra.
Qed.

Lemma stood_tied a b s : (forall r, a <= r <= b -> stood P sol r /\ stood P' sol' r) -> a <= s <= b -> (forall x, In x diffs -> sol x s = sol' x s) ->
  tied diffs sol sol' a b s.
Proof.
  intros H Hs Es. assert (Kw := known_all a b s zs diffs H Hs In_z Fo (known_diffs a b s H Hs Es)).
  destruct Kw as (Kn & Ke & Kc & c0 & K0 & Hc0 & HK0 & Kg). set (all := rev zs ++ diffs) in *.
  destruct (H s Hs) as (H1 & H2). destruct (proj1 H1) as (en0 & A0). destruct (proj1 H2) as (en0' & A0').
  destruct (common diffs (fun x d L => exists g g', change_said P x t g /\ change_said P' x t g' /\ (forall en, g en = g' en) /\
    forall en en', near d (t :: all) en0 en -> near d (t :: all) en0 en' -> e_sym en t = e_sym en' t ->
      forall u v, g en = Some u -> g en' = Some v -> Rabs (u - v) <= L * gap all en en')) as (d & L & Hd & HL).
  { intros x d L d' L' _ (g & g' & G1 & G2 & G3 & G4) Hd HL. exists g, g'. do 3 (split; [assumption|]). intros en en' N N' Et u v Hu Hv.
    assert (Q := G4 en en' (near_less _ _ _ _ _ (proj2 Hd) N) (near_less _ _ _ _ _ (proj2 Hd) N') Et u v Hu Hv).
    assert (Gn := gap_nonneg all en en'). assert (L * gap all en en' <= L' * gap all en en') by now apply Rmult_le_compat_r. lra. }
  { intros x Hx. destruct (Sr x Hx) as (g & g' & G1 & G2 & G3 & G4).
    assert (E0 := dae_rate_value P sol s en0 x g H1 A0 G1).
    destruct (G4 en0 _ E0) as (d & L & Hd & Hl). exists d, L. split; [exact Hd|]. exists g, g'. auto. }
  destruct (Kc d Hd) as (c1 & Hc1 & HC).
  exists (Rmin (Rmin c0 c1) d), (Rmax L 0 * K0). split; [repeat apply Rmin_glb_lt; assumption|]. intros tau Ht Dt.
  assert (M1 := Rmin_l (Rmin c0 c1) d). assert (M2 := Rmin_r (Rmin c0 c1) d). assert (M3 := Rmin_l c0 c1). assert (M4 := Rmin_r c0 c1).
  assert (D0 : Rabs (tau - s) < c0) by lra. assert (D1 : Rabs (tau - s) < c1) by lra. assert (Dd : Rabs (tau - s) < d) by lra. clear M1 M2 M3 M4 Dt.
  destruct (H tau Ht) as (T1 & T2). destruct (proj1 T1) as (en1 & A1). destruct (proj1 T2) as (en2 & A2).
  exists (fun x => e_der en1 x t), (fun x => e_der en2 x t). intros x Hx.
  split; [apply A1; exact Hx|]. split; [apply A2; exact Hx|]. destruct (HL x Hx) as (g & g' & G1 & G2 & G3 & G4).
  assert (E1 := dae_rate_value P sol tau en1 x g T1 A1 G1). assert (E2 := dae_rate_value P' sol' tau en2 x g' T2 A2 G2). rewrite <- G3 in E2.
  assert (Q : Rabs (e_der en1 x t - e_der en2 x t) <= L * gap all en1 en2).
  { apply (G4 en1 en2); [| |now rewrite (proj1 A1), (proj1 A2)|exact E1|exact E2].
    - intros y [<-|Hy]; [now rewrite (proj1 A1), (proj1 A0)|]. rewrite (proj1 (proj2 A1) y (Kn y Hy)), (proj1 (proj2 A0) y (Kn y Hy)). now apply HC.
    - intros y [<-|Hy]; [now rewrite (proj1 A2), (proj1 A0)|]. rewrite (proj1 (proj2 A2) y (Kn y Hy)), (proj1 (proj2 A0) y (Kn y Hy)), (Ke y Hy). now apply HC. }
  rewrite (moment_gap all tau en1 en2 Kn A1 A2) in Q. assert (B := Kg tau Ht D0). assert (Sp := states_gap_pos all tau). fold (states_gap diffs tau).
  assert (L * states_gap all tau <= Rmax L 0 * states_gap all tau) by (apply Rmult_le_compat_r; [exact Sp|apply Rmax_l]).
  assert (Rmax L 0 * states_gap all tau <= Rmax L 0 * (K0 * states_gap diffs tau)) by (apply Rmult_le_compat_l; [apply Rmax_r|exact B]). lra.
Qed.

Lemma stood_derivable s x : stood P sol s -> stood P' sol' s -> In x diffs -> exists df dg, derivable_pt_lim (sol x) s df /\ derivable_pt_lim (sol' x) s dg.
Proof. intros ((en & _ & _ & A) & _) ((en' & _ & _ & A') & _) Hx. exists (e_der en x t), (e_der en' x t). split; [apply A|apply A']; exact Hx. Qed.

Lemma one_dae_solution t0 times times' : dae_obeys_all P t names diffs t0 times sol -> dae_obeys_all P' t names diffs t0 times' sol' ->
  (forall x, In x diffs -> sol x t0 = sol' x t0) -> forall tau, during t0 times tau -> during t0 times' tau ->
  forall x, In x diffs \/ In x zs -> sol x tau = sol' x tau.
Proof.
  intros O O' E tau Du Du'.
  assert (Dx : forall x, In x diffs -> sol x tau = sol' x tau).
  { intros x Hx. destruct Du as (tk & Hk & Dk). destruct Du' as (tk' & Hk' & Dk').
    destruct (Rle_lt_dec t0 tau) as [Lt|Lt].
    - assert (H : forall r, t0 <= r <= tau -> stood P sol r /\ stood P' sol' r).
      { intros r Hr. split; [apply O|apply O']; [exists tk|exists tk']; (split; [assumption|]).
        - destruct Dk as [Dk|Dk]; [left; lra|]. right. lra.
        - destruct Dk' as [Dk'|Dk']; [left; lra|]. right. lra. }
      apply (equal_to_end diffs sol sol' t0 tau Lt); [| |exact E|lra|exact Hx].
      + intros s y Hs Hy. destruct (H s Hs). now apply stood_derivable.
      + intros s Hs Es. now apply stood_tied.
    - assert (H : forall r, tau <= r <= t0 -> stood P sol r /\ stood P' sol' r).
      { intros r Hr. split; [apply O|apply O']; [exists tk|exists tk']; (split; [assumption|]).
        - destruct Dk as [Dk|Dk]; [left; lra|]. right. lra.
        - destruct Dk' as [Dk'|Dk']; [left; lra|]. right. lra. }
      apply (equal_to_start diffs sol sol' tau t0 ltac:(lra)); [| |exact E|lra|exact Hx].
      + intros s y Hs Hy. destruct (H s Hs). now apply stood_derivable.
      + intros s Hs Es. now apply stood_tied. }
  intros x [Hx|Hx]; [now apply Dx|].
  assert (Hr : forall r, tau <= r <= tau -> stood P sol r /\ stood P' sol' r).
  { intros r Hr. replace r with tau by lra. split; [exact (O tau Du)|exact (O' tau Du')]. }
  assert (Hs : tau <= tau <= tau) by lra.
  destruct (known_all tau tau tau zs diffs Hr Hs In_z Fo (known_diffs tau tau tau Hr Hs Dx)) as (_ & Ke & _). apply Ke, in_or_app. left. now apply in_rev in Hx.
Qed.
End Dae.
