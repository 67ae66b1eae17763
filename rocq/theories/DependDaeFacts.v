(** Proofs for C89, differential-algebraic problems (SpecDependDae.v). *)
From Verif Require Import Base BaseFacts Num UnitModel Sympy Node Build EquationModel ModelModel ProblemModel SpecExpr SpecProblem SolverModel SpecSolver SpecWritten SpecInit SpecRun
  RunModel RunFacts WholeModel SimModel SpecWhole SpecUnique TameFacts UniqueFacts DaeFacts DaeRunFacts SpecUniqueDae UniqueDaeFacts DaeAgreeFacts SpecDepend DependAnalysis DependFacts SpecDependDae UniqueAnalysis.
From Verif Require DomainModel.
From Coq Require Import Reals Lra Lia.
Notation num := Verif.Num.num.
Open Scope R_scope.

Lemma gap_app l m en en' : gap (l ++ m) en en' = gap l en en' + gap m en en'.
Proof. unfold gap. induction l as [|x l IH]; cbn [app fold_right]; [lra|rewrite IH; lra]. Qed.
Lemma gap_bounded l r en en' : (forall x, In x l -> Rabs (e_sym en x - e_sym en' x) <= r) -> gap l en en' <= INR (List.length l) * r.
Proof.
  induction l as [|x l IH]; intros H; [cbn; lra|]. assert (A := H x (or_introl eq_refl)). assert (B := IH (fun y I => H y (or_intror I))).
  cbn [List.length]. rewrite S_INR. unfold gap in *. cbn [fold_right]. lra.
Qed.
Lemma equals_value P z g en : equals_said P z g -> (forall w, P w -> wr_value w en = Some 0) -> g en = Some (e_sym en z).
Proof.
  intros (w & Hw & V) H. exact (V en (H w Hw)).
Qed.
Lemma change_value P x t g en : change_said P x t g -> (forall w, P w -> wr_value w en = Some 0) -> g en = Some (e_der en x t).
Proof.
  intros (w & Hw & V) H. exact (V en (H w Hw)).
Qed.

Lemma in_turn_given here P P' t known zs L delta : given_in_turn here P P' t known zs L delta -> 0 <= L /\ 0 <= delta /\ given_near here L delta P P' t known zs.
Proof.
  induction 1 as [|z zs L delta l d g g' _ (L0 & D0 & IH) Hl Hd G G' Q]; [split; [lra|split; [lra|intros ? ? ? ? ? ? ? z []]]|].
  split; [apply Rle_trans with L; [exact L0|apply Rmax_l]|]. split; [apply Rle_trans with delta; [exact D0|apply Rmax_l]|].
  intros en en' I I' T W W' y Hy. assert (N := pos_INR (List.length zs)). assert (K0 := gap_nonneg known en en').
  assert (B : forall y, In y zs -> Rabs (e_sym en y - e_sym en' y) <= L * gap known en en' + delta) by (intros; now apply IH).
  destruct Hy as [<-|Hy].
  - specialize (Q en en' I I' T _ _ (equals_value _ _ _ _ G W) (equals_value _ _ _ _ G' W')). rewrite gap_app in Q. assert (S := gap_bounded zs _ en en' B).
    assert (l * (gap known en en' + gap zs en en') <= l * (gap known en en' + INR (List.length zs) * (L * gap known en en' + delta))) by (apply Rmult_le_compat_l; lra).
    assert (M1 := Rmax_r L (l * (1 + INR (List.length zs) * L))). assert (M2 := Rmax_r delta (l * (INR (List.length zs) * delta) + d)).
    assert (l * (1 + INR (List.length zs) * L) * gap known en en' <= Rmax L (l * (1 + INR (List.length zs) * L)) * gap known en en') by now apply Rmult_le_compat_r. lra.
  - specialize (B y Hy). assert (M1 := Rmax_l L (l * (1 + INR (List.length zs) * L))). assert (M2 := Rmax_l delta (l * (INR (List.length zs) * delta) + d)).
    assert (L * gap known en en' <= Rmax L (l * (1 + INR (List.length zs) * L)) * gap known en en') by now apply Rmult_le_compat_r. lra.
Qed.

Section Near.
Variables (P P' : written -> Prop) (t : string) (names diffs zs : list string) (sol sol' : string -> R -> R) (here : env -> Prop) (L delta Lz dz eta : R).
Hypothesis (HL : 0 <= L) (Hd : 0 <= delta) (HLz : 0 <= Lz) (Hdz : 0 <= dz) (He : 0 <= eta).
Hypothesis (Gn : given_near here Lz dz P P' t diffs zs) (Cn : changes_near here L delta P P' t diffs zs).
Hypothesis (Id : forall x, In x diffs -> In x names) (Iz : forall x, In x zs -> In x names).

Definition dae_held (Q : written -> Prop) (so : string -> R -> R) (s : R) : Prop :=
  (exists en, dae_moment t names diffs so s en) /\ (forall en, dae_moment t names diffs so s en -> here en) /\
  forall en, dae_moment t names diffs so s en -> forall w, Q w -> wr_value w en = Some 0.

Lemma dae_pulled s : dae_held P sol s -> dae_held P' sol' s -> pulled diffs sol sol' (total_slope L Lz (List.length zs)) (total_shift L delta dz (List.length zs)) s.
Proof.
  intros ((en & A) & I & H) ((en' & A') & I' & H'). exists (fun x => e_der en x t), (fun x => e_der en' x t). intros x Hx.
  assert (A0 := A). assert (A0' := A'). destruct A0 as (Et & Es & Ed). destruct A0' as (Et' & Es' & Ed').
  split; [now apply Ed|]. split; [now apply Ed'|]. destruct (Cn x Hx) as (g & g' & G & G' & Q).
  assert (T : e_sym en t = e_sym en' t) by congruence.
  specialize (Q en en' (I en A) (I' en' A') T _ _ (change_value _ _ _ _ _ G (H en A)) (change_value _ _ _ _ _ G' (H' en' A'))). rewrite gap_app in Q.
  assert (B := gap_bounded zs _ en en' (Gn en en' (I en A) (I' en' A') T (H en A) (H' en' A'))).
  assert (E : gap diffs en en' = total (fun y => Rabs (sol y s - sol' y s)) diffs).
  { rewrite gap_total. apply total_ext. intros y Hy. cbv beta. now rewrite (Es y (Id y Hy)), (Es' y (Id y Hy)). }
  rewrite <- E. unfold total_slope, total_shift.
  assert (L * (gap diffs en en' + gap zs en en') <= L * (gap diffs en en' + INR (List.length zs) * (Lz * gap diffs en en' + dz))) by (apply Rmult_le_compat_l; lra). lra.
Qed.

Lemma dae_solutions_near t0 times times' : dae_obeys_all P t names diffs t0 times sol -> dae_obeys_all P' t names diffs t0 times' sol' ->
  (forall tau en, during t0 times tau -> dae_moment t names diffs sol tau en -> here en) ->
  (forall tau en, during t0 times' tau -> dae_moment t names diffs sol' tau en -> here en) ->
  (forall x, In x diffs -> Rabs (sol x t0 - sol' x t0) <= eta) ->
  forall tau, during t0 times tau -> during t0 times' tau -> forall x, In x diffs \/ In x zs ->
  Rabs (sol x tau - sol' x tau) <= spread (List.length diffs) Lz dz
    (drift (List.length diffs) (total_slope L Lz (List.length zs)) eta (total_shift L delta dz (List.length zs)) (Rabs (tau - t0))).
Proof.
  intros O O' I I' E tau D D' x Hx.
  assert (Dh : forall s, during t0 times s -> dae_held P sol s) by (intros s Ds; destruct (O s Ds) as (O1 & O2); split; [exact O1|split; [intros en; now apply I|exact O2]]).
  assert (Dh' : forall s, during t0 times' s -> dae_held P' sol' s) by (intros s Ds; destruct (O' s Ds) as (O1 & O2); split; [exact O1|split; [intros en; now apply I'|exact O2]]).
  assert (N := pos_INR (List.length zs)).
  assert (S0 : 0 <= total_slope L Lz (List.length zs)) by (unfold total_slope; apply Rmult_le_pos; [exact HL|assert (0 <= INR (List.length zs) * Lz) by (now apply Rmult_le_pos); lra]).
  assert (S1 : 0 <= total_shift L delta dz (List.length zs)) by (unfold total_shift; assert (0 <= L * (INR (List.length zs) * dz)) by (apply Rmult_le_pos; [exact HL|now apply Rmult_le_pos]); lra).
  set (r := drift _ _ _ _ _).
  assert (Bd : forall y, In y diffs -> Rabs (sol y tau - sol' y tau) <= r).
  { intros y Hy. unfold r, drift. destruct D as (tk & Hk & Dk). destruct D' as (tk' & Hk' & Dk'). destruct (Rle_lt_dec t0 tau) as [Lt|Lt].
    - rewrite (Rabs_pos_eq (tau - t0)) by lra. apply drift_bound; try assumption.
      intros s Hs. apply dae_pulled; [apply Dh; exists tk|apply Dh'; exists tk']; (split; [assumption|]); [destruct Dk; [left|right]|destruct Dk'; [left|right]]; lra.
    - replace (Rabs (tau - t0)) with (t0 - tau) by (rewrite <- Rabs_Ropp, Rabs_pos_eq; lra). apply drift_back; try assumption; [lra|].
      intros s Hs. apply dae_pulled; [apply Dh; exists tk|apply Dh'; exists tk']; (split; [assumption|]); [destruct Dk; [left|right]|destruct Dk'; [left|right]]; lra. }
  unfold spread. destruct Hx as [Hx|Hx]; [apply Rle_trans with r; [now apply Bd|apply Rmax_l]|].
  destruct (Dh tau D) as ((en & A) & J & H). destruct (Dh' tau D') as ((en' & A') & J' & H').
  assert (Q := Gn en en' (J en A) (J' en' A') ltac:(destruct A as (? & _), A' as (? & _); congruence) (H en A) (H' en' A') x Hx).
  destruct A as (_ & Es & _). destruct A' as (_ & Es' & _). rewrite (Es x (Iz x Hx)), (Es' x (Iz x Hx)) in Q.
  assert (B : gap diffs en en' <= INR (List.length diffs) * r).
  { apply gap_bounded. intros y Hy. rewrite (Es y (Id y Hy)), (Es' y (Id y Hy)). now apply Bd. }
  assert (Lz * gap diffs en en' <= Lz * (INR (List.length diffs) * r)) by now apply Rmult_le_compat_l.
  assert (M := Rmax_r r (Lz * (INR (List.length diffs) * r) + dz)). lra.
Qed.
End Near.

Lemma dae_simulations_near here L delta Lz dz eta acts s b P t pn dae lib arrays ps h st doms sm sanity st1 doms1 out o names eps t0 e n
    acts' s' b' P' pn' dae' lib' arrays' ps' h' st' doms' sm' sanity' st1' doms1' out' o' names' eps' e' n' zs :
  0 <= L -> 0 <= delta -> 0 <= Lz -> 0 <= dz -> 0 <= eta ->
  dae_problem acts s b P t pn dae -> dae_problem acts' s' b' P' t pn' dae' ->
  (forall x, In x (dnames dae) <-> In x (dnames dae')) -> (forall x, In x (b_varlist b) <-> In x (b_varlist b')) ->
  (forall x, In x (b_varlist b) <-> In x (dnames dae) \/ In x zs) ->
  given_near here Lz dz P P' t (dnames dae) zs -> changes_near here L delta P P' t (dnames dae) zs -> starts_near eta acts acts' (dnames dae) ->
  (forall times, even_points times t0 e n -> dae_confined here acts P t (b_varlist b) (dnames dae) t0 times) ->
  (forall times, even_points times t0 e' n' -> dae_confined here acts' P' t (b_varlist b) (dnames dae) t0 times) ->
  dae_simulates s b t pn lib doms sm o names eps t0 e n -> dae_simulates s' b' t pn' lib' doms' sm' o' names' eps' t0 e' n' ->
  whole_run lib arrays pn ps h st doms sm sanity = (st1, doms1, Ok out) ->
  whole_run lib' arrays' pn' ps' h' st' doms' sm' sanity' = (st1', doms1', Ok out') ->
  exists d d', nth_error doms1 o = Some d /\ nth_error doms1' o' = Some d' /\
    agree_by (fun tau => eps + eps' + spread (List.length dae) Lz dz
      (drift (List.length dae) (total_slope L Lz (List.length zs)) eta (total_shift L delta dz (List.length zs)) (Rabs (tau - t0)))) t (b_varlist b) d names d' names'.
Proof.
  intros HL Hdl HLz Hdz He O O' Ed Ev Ea Gn Cn Sn Cf Cf' S S' H H'.
  destruct (dae_simulated_table _ _ _ _ _ _ _ _ _ _ _ _ _ _ _ _ _ _ _ _ _ _ _ _ O S H) as (_ & _ & d & times & sol & _ & (_ & Hd & _) & Ep & St & Ob & (Ct & Cx)).
  destruct (dae_simulated_table _ _ _ _ _ _ _ _ _ _ _ _ _ _ _ _ _ _ _ _ _ _ _ _ O' S' H') as (_ & _ & d' & times' & sol' & _ & (_ & Hd' & _) & Ep' & St' & Ob' & (Ct' & Cx')).
  exists d, d'. split; [exact Hd|]. split; [exact Hd'|].
  assert (St2 : starts_right acts' (dnames dae) t0 sol') by (intros x Hx; apply St'; now apply Ed).
  assert (Eq : forall x, In x (dnames dae) -> Rabs (sol x t0 - sol' x t0) <= eta).
  { intros x Hx. destruct (St x Hx) as (k & v & K1 & K2 & ->). destruct (St2 x Hx) as (k' & v' & K1' & K2' & ->). exact (Sn x k k' v v' Hx K1 K1' K2 K2'). }
  assert (Ob2 : dae_obeys_all P' t (b_varlist b) (dnames dae) t0 times' sol').
  { assert (M : forall tau en, dae_moment t (b_varlist b') (dnames dae') sol' tau en <-> dae_moment t (b_varlist b) (dnames dae) sol' tau en).
    { intros tau en. unfold dae_moment. split; intros (M1 & M2 & M3); (split; [exact M1|]); (split; intros x Hx; [apply M2|apply M3]); now (apply Ev || apply Ed). }
    intros tau Du. destruct (Ob' tau Du) as ((en & A) & B). split; [exists en; now apply M|]. intros en' A'. apply B. now apply M. }
  exists times, times'. split; [exact Ct|]. split; [exact Ct'|]. intros x Hx. destruct (Cx x Hx) as (col & Hc & F). destruct (Cx' x (proj1 (Ev x) Hx)) as (col' & Hc' & F').
  exists col, col'. do 2 (split; [assumption|]). split; [symmetry; exact (forall2_length _ _ _ F)|]. split; [symmetry; exact (forall2_length _ _ _ F')|].
  intros k k' tau v v' T1 T2 V1 V2. assert (Q1 := forall2_at _ _ _ F k tau v T1 V1). assert (Q2 := forall2_at _ _ _ F' k' tau v' T2 V2). cbv beta in Q1, Q2.
  assert (Ln : List.length dae = List.length (dnames dae)) by (symmetry; apply map_length).
  assert (E : Rabs (sol x tau - sol' x tau) <= spread (List.length dae) Lz dz
      (drift (List.length dae) (total_slope L Lz (List.length zs)) eta (total_shift L delta dz (List.length zs)) (Rabs (tau - t0)))).
  { rewrite Ln. apply (dae_solutions_near P P' t (b_varlist b) (dnames dae) zs sol sol' here L delta Lz dz eta HL Hdl HLz Hdz He Gn Cn) with (times := times) (times' := times');
      [| |exact Ob|exact Ob2|exact (Cf times Ep sol St Ob)|exact (Cf' times' Ep' sol' St2 Ob2)|exact Eq| | |now apply Ea].
    - intros y Hy. apply Ea. now left.
    - intros y Hy. apply Ea. now right.
    - exists tau. split; [now apply nth_error_In in T1|]. destruct (Rle_lt_dec t0 tau); [left|right]; lra.
    - exists tau. split; [now apply nth_error_In in T2|]. destruct (Rle_lt_dec t0 tau); [left|right]; lra. }
  replace (v - v') with ((v - sol x tau) + ((sol x tau - sol' x tau) + - (v' - sol' x tau))) by ring.
  assert (T := Rabs_triang (v - sol x tau) ((sol x tau - sol' x tau) + - (v' - sol' x tau))).
  assert (T' := Rabs_triang (sol x tau - sol' x tau) (- (v' - sol' x tau))). rewrite Rabs_Ropp in T'. lra.
Qed.

(** ** Without differences *)
Lemma drift_none n L T : drift n L 0 0 T = 0.
Proof. unfold drift. ring. Qed.
Lemma spread_none n Lz : spread n Lz 0 0 = 0.
Proof. unfold spread. replace (Lz * (INR n * 0) + 0) with 0 by ring. apply Rmax_left. lra. Qed.
Lemma dae_same_region P P' t names diffs zs sol sol' here L Lz : 0 <= L -> 0 <= Lz ->
  given_near here Lz 0 P P' t diffs zs -> changes_near here L 0 P P' t diffs zs ->
  (forall x, In x diffs -> In x names) -> (forall x, In x zs -> In x names) -> forall t0 times times',
  dae_obeys_all P t names diffs t0 times sol -> dae_obeys_all P' t names diffs t0 times' sol' ->
  (forall tau en, during t0 times tau -> dae_moment t names diffs sol tau en -> here en) ->
  (forall tau en, during t0 times' tau -> dae_moment t names diffs sol' tau en -> here en) ->
  (forall x, In x diffs -> sol x t0 = sol' x t0) ->
  forall tau, during t0 times tau -> during t0 times' tau -> forall x, In x diffs \/ In x zs -> sol x tau = sol' x tau.
Proof.
  intros HL HLz G C Id Iz t0 times times' O O' I I' E tau D D' x Hx.
  assert (Q := dae_solutions_near P P' t names diffs zs sol sol' here L 0 Lz 0 0 HL (Rle_refl 0) HLz (Rle_refl 0) (Rle_refl 0) G C Id Iz t0 times times' O O' I I'
    ltac:(intros y Hy; rewrite (E y Hy), Rminus_diag_eq, Rabs_R0 by reflexivity; lra) tau D D' x Hx).
  assert (Z : total_shift L 0 0 (List.length zs) = 0) by (unfold total_shift; ring). rewrite Z, drift_none, spread_none in Q.
  assert (A := Rabs_pos (sol x tau - sol' x tau)). destruct (Req_dec (sol x tau - sol' x tau) 0) as [B|B]; [lra|]. apply Rabs_pos_lt in B. lra.
Qed.
