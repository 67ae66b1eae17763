(** Proofs for C89 (SpecDepend.v). *)
From Verif Require Import Base BaseFacts Num NumFacts UnitModel Sympy Node Build EquationModel ModelModel ProblemModel SpecExpr SpecProblem SolverModel SpecSolver SpecWritten SpecInit SpecRun
  RunModel RunFacts WholeModel SimModel SpecWhole SpecUnique TameFacts UniqueFacts SpecSimulated SimulatedFacts SpecDepend DependAnalysis UniqueAnalysis.
From Verif Require DomainModel.
From Coq Require Import Reals Lra Lia.
From Coquelicot Require Import Coquelicot.
Notation num := Verif.Num.num.
Open Scope R_scope.

Section Near.
Variables (P P' : written -> Prop) (t : string) (names : list string) (sol sol' : string -> R -> R) (here : env -> Prop) (L delta eta : R).
Hypothesis (HL : 0 <= L) (Hd : 0 <= delta) (He : 0 <= eta) (Rn : rates_near here L delta P P' t names).

Lemma held_pulled s : held t names P sol s -> held t names P' sol' s -> (forall en, at_moment t names sol s en -> here en) ->
  (forall en, at_moment t names sol' s en -> here en) -> pulled names sol sol' L delta s.
Proof.
  intros H H' I I'. assert (H0 := H). assert (H0' := H'). destruct H0 as ((en & A) & _). destruct H0' as ((en' & A') & _).
  exists (fun x => e_der en x t), (fun x => e_der en' x t). intros x Hx. split; [apply A; exact Hx|]. split; [apply A'; exact Hx|].
  destruct (Rn x Hx) as (g & g' & G & G' & Q). assert (E := rate_value t names P sol s en x g H A G). assert (E' := rate_value t names P' sol' s en' x g' H' A' G').
  specialize (Q en en' (I en A) (I' en' A') ltac:(destruct A, A'; congruence) _ _ E E'). rewrite gap_total in Q.
  erewrite (total_ext _ (fun y => Rabs (sol y s - sol' y s))) in Q; [exact Q|]. intros y Hy. cbv beta. destruct A as (_ & A). destruct A' as (_ & A'). now rewrite (proj1 (A y Hy)), (proj1 (A' y Hy)).
Qed.

Lemma solutions_near t0 times times' : obeys_all P t names t0 times sol -> obeys_all P' t names t0 times' sol' ->
  (forall tau en, during t0 times tau -> at_moment t names sol tau en -> here en) ->
  (forall tau en, during t0 times' tau -> at_moment t names sol' tau en -> here en) ->
  (forall x, In x names -> Rabs (sol x t0 - sol' x t0) <= eta) ->
  forall tau, during t0 times tau -> during t0 times' tau -> forall x, In x names ->
  Rabs (sol x tau - sol' x tau) <= drift (List.length names) L eta delta (Rabs (tau - t0)).
Proof.
  intros O O' I I' E tau (tk & Hk & Dk) (tk' & Hk' & Dk') x Hx. unfold drift.
  assert (Pu : forall s, during t0 times s -> during t0 times' s -> pulled names sol sol' L delta s).
  { intros s D D'. apply held_pulled; [now apply O|now apply O'|intros en; now apply I|intros en; now apply I']. }
  destruct (Rle_lt_dec t0 tau) as [Lt|Lt].
  - rewrite (Rabs_pos_eq (tau - t0)) by lra. apply drift_bound; try assumption.
    intros s Hs. apply Pu; [exists tk|exists tk']; (split; [assumption|]); [destruct Dk; [left|right]|destruct Dk'; [left|right]]; lra.
  - replace (Rabs (tau - t0)) with (t0 - tau) by (rewrite <- Rabs_Ropp, Rabs_pos_eq; lra). apply drift_back; try assumption; [lra|].
    intros s Hs. apply Pu; [exists tk|exists tk']; (split; [assumption|]); [destruct Dk; [left|right]|destruct Dk'; [left|right]]; lra.
Qed.
End Near.

(** ** Runs *)
Lemma runs_near here L delta eta acts s b P t pn ode acts' s' b' P' pn' ode' t0 ts d names eps ts' d' names' eps' :
  0 <= L -> 0 <= delta -> 0 <= eta ->
  ode_problem acts s b P t pn ode -> ode_problem acts' s' b' P' t pn' ode' ->
  (forall x, In x (map fst ode) <-> In x (map fst ode')) -> rates_near here L delta P P' t (map fst ode) -> starts_near eta acts acts' (map fst ode) ->
  confined here acts P t (map fst ode) t0 ts -> confined here acts' P' t (map fst ode) t0 ts' ->
  recorded_run s b t pn ode t0 ts d names eps -> recorded_run s' b' t pn' ode' t0 ts' d' names' eps' ->
  agree_by (fun tau => eps + eps' + drift (List.length ode) L eta delta (Rabs (tau - t0))) t (map fst ode) d names d' names'.
Proof.
  intros HL Hd He O O' En Rn Sn Cf Cf' R R'. destruct (run_records _ _ _ _ _ _ _ _ _ _ _ _ O R) as (_ & sol & St & Ob & (Ct & Cx)).
  destruct (run_records _ _ _ _ _ _ _ _ _ _ _ _ O' R') as (_ & sol' & St' & Ob' & (Ct' & Cx')).
  assert (St2 : starts_right acts' (map fst ode) t0 sol') by (intros x Hx; apply St'; now apply En).
  assert (Eq : forall x, In x (map fst ode) -> Rabs (sol x t0 - sol' x t0) <= eta).
  { intros x Hx. destruct (St x Hx) as (k & v & K1 & K2 & ->). destruct (St2 x Hx) as (k' & v' & K1' & K2' & ->). exact (Sn x k k' v v' Hx K1 K1' K2 K2'). }
  assert (Ob2 : obeys_all P' t (map fst ode) t0 ts' sol').
  { assert (M : forall tau en, at_moment t (map fst ode') sol' tau en <-> at_moment t (map fst ode) sol' tau en).
    { intros tau en. unfold at_moment. split; intros (M1 & M2); (split; [exact M1|]); intros x Hx; apply M2; now apply En. }
    intros tau Hu. destruct (Ob' tau Hu) as ((en & A) & B). split; [exists en; now apply M|]. intros en' A'. apply B. now apply M. }
  exists ts, ts'. split; [exact Ct|]. split; [exact Ct'|]. intros x Hx. destruct (Cx x Hx) as (col & Hc & F). destruct (Cx' x (proj1 (En x) Hx)) as (col' & Hc' & F').
  exists col, col'. do 2 (split; [assumption|]). split; [symmetry; exact (forall2_length _ _ _ F)|]. split; [symmetry; exact (forall2_length _ _ _ F')|].
  intros k k' tau v v' T1 T2 V1 V2. assert (Q1 := forall2_at _ _ _ F k tau v T1 V1). assert (Q2 := forall2_at _ _ _ F' k' tau v' T2 V2). cbv beta in Q1, Q2.
  assert (E : Rabs (sol x tau - sol' x tau) <= drift (List.length ode) L eta delta (Rabs (tau - t0))).
  { rewrite <- (map_length fst ode). apply (solutions_near P P' t (map fst ode) sol sol' here L delta eta HL Hd He Rn t0 ts ts' Ob Ob2 (Cf sol St Ob) (Cf' sol' St2 Ob2) Eq tau); [| |exact Hx].
    - exists tau. split; [now apply nth_error_In in T1|]. destruct (Rle_lt_dec t0 tau); [left|right]; lra.
    - exists tau. split; [now apply nth_error_In in T2|]. destruct (Rle_lt_dec t0 tau); [left|right]; lra. }
  replace (v - v') with ((v - sol x tau) + ((sol x tau - sol' x tau) + - (v' - sol' x tau))) by ring.
  assert (T := Rabs_triang (v - sol x tau) ((sol x tau - sol' x tau) + - (v' - sol' x tau))).
  assert (T' := Rabs_triang (sol x tau - sol' x tau) (- (v' - sol' x tau))). rewrite Rabs_Ropp in T'. lra.
Qed.

Lemma simulations_near here L delta eta acts s b P t pn ode lib arrays ps h st doms sm sanity st1 doms1 ts rows o names eps t0
    acts' s' b' P' pn' ode' lib' arrays' ps' h' st' doms' sm' sanity' st1' doms1' ts' rows' o' names' eps' t0' :
  0 <= L -> 0 <= delta -> 0 <= eta ->
  ode_problem acts s b P t pn ode -> ode_problem acts' s' b' P' t pn' ode' ->
  (forall x, In x (map fst ode) <-> In x (map fst ode')) -> rates_near here L delta P P' t (map fst ode) -> starts_near eta acts acts' (map fst ode) ->
  simulates s b t pn ode lib doms sm o names eps t0 -> simulates s' b' t pn' ode' lib' doms' sm' o' names' eps' t0' ->
  whole_run lib arrays pn ps h st doms sm sanity = (st1, doms1, Ok (WRun ts rows)) ->
  whole_run lib' arrays' pn' ps' h' st' doms' sm' sanity' = (st1', doms1', Ok (WRun ts' rows')) ->
  t0 ts = t0' ts' -> confined here acts P t (map fst ode) (t0 ts) ts -> confined here acts' P' t (map fst ode) (t0 ts) ts' ->
  exists d d', nth_error doms1 o = Some d /\ nth_error doms1' o' = Some d' /\
    agree_by (fun tau => eps + eps' + drift (List.length ode) L eta delta (Rabs (tau - t0 ts))) t (map fst ode) d names d' names'.
Proof.
  intros HL Hd He O O' En Rn Sn S S' H H' T Cf Cf'.
  destruct (simulated_recorded _ _ _ _ _ _ _ _ _ _ _ _ _ _ _ _ _ _ _ _ _ _ O S H) as (ts1 & rows1 & d & E & (_ & Od & _) & R).
  destruct (simulated_recorded _ _ _ _ _ _ _ _ _ _ _ _ _ _ _ _ _ _ _ _ _ _ O' S' H') as (ts2 & rows2 & d' & E' & (_ & Od' & _) & R').
  injection E as <- <-. injection E' as <- <-. rewrite <- T in R'. exists d, d'. split; [exact Od|]. split; [exact Od'|].
  exact (runs_near here L delta eta acts s b P t pn ode acts' s' b' P' pn' ode' (t0 ts) ts d names eps ts' d' names' eps' HL Hd He O O' En Rn Sn Cf Cf' R R').
Qed.

(** ** Expressions *)
Lemma product_gap x y x' y' M M' : Rabs x' <= M -> Rabs y <= M' -> Rabs (x * y - x' * y') <= Rabs (x - x') * M' + M * Rabs (y - y').
Proof.
  intros H H'. replace (x * y - x' * y') with ((x - x') * y + x' * (y - y')) by ring.
  assert (T := Rabs_triang ((x - x') * y) (x' * (y - y'))). rewrite !Rabs_mult in T.
  assert (Rabs (x - x') * Rabs y <= Rabs (x - x') * M') by (apply Rmult_le_compat_l; [apply Rabs_pos|exact H']).
  assert (Rabs x' * Rabs (y - y') <= M * Rabs (y - y')) by (apply Rmult_le_compat_r; [apply Rabs_pos|exact H]). lra.
Qed.
Lemma power_bound x M n : Rabs x <= M -> Rabs (x ^ n) <= M ^ n.
Proof. intros H. rewrite <- RPow_abs. apply pow_incr. split; [apply Rabs_pos|exact H]. Qed.
Lemma power_gap x y M n : Rabs x <= M -> Rabs y <= M -> Rabs (x ^ S n - y ^ S n) <= INR (S n) * M ^ n * Rabs (x - y).
Proof.
  intros H H'. induction n as [|n IH]; [cbn; rewrite !Rmult_1_r, Rmult_1_l; lra|].
  assert (Q := product_gap x (x ^ S n) y (y ^ S n) M (M ^ S n) H' (power_bound x M (S n) H)).
  change (x ^ S (S n)) with (x * x ^ S n). change (y ^ S (S n)) with (y * y ^ S n).
  assert (M0 : 0 <= M) by (assert (A := Rabs_pos x); lra).
  assert (M * Rabs (x ^ S n - y ^ S n) <= M * (INR (S n) * M ^ n * Rabs (x - y))) by now apply Rmult_le_compat_l.
  rewrite (S_INR (S n)). change (M ^ S n) with (M * M ^ n) in *. lra.
Qed.
(** A function that changes at most [k] times as fast as its argument. *)
Lemma slope_gap (f f' : R -> R) k lo hi x y : (forall c, lo <= c <= hi -> is_derive f c (f' c)) -> (forall c, lo <= c <= hi -> Rabs (f' c) <= k) ->
  lo <= x <= hi -> lo <= y <= hi -> Rabs (f x - f y) <= k * Rabs (x - y).
Proof.
  intros D B Hx Hy.
  assert (V : forall u v, lo <= u <= hi -> lo <= v <= hi -> u < v -> Rabs (f v - f u) <= k * Rabs (v - u)).
  { intros u v Hu Hv Uv. destruct (MVT_gen f u v f') as (c & Hc & Ec).
    - intros c Hc. apply D. rewrite Rmin_left, Rmax_right in Hc by lra. lra.
    - intros c Hc. apply continuity_pt_filterlim. refine (ex_derive_continuous f c _). exists (f' c). apply D. rewrite Rmin_left, Rmax_right in Hc by lra. lra.
    - rewrite Ec, Rabs_mult. apply Rmult_le_compat_r; [apply Rabs_pos|]. apply B. rewrite Rmin_left, Rmax_right in Hc by lra. lra. }
  destruct (Rtotal_order x y) as [H|[ ->|H]].
  - rewrite (Rabs_minus_sym (f x)), (Rabs_minus_sym x). now apply V.
  - rewrite !Rminus_eq_0, Rabs_R0. lra.
  - now apply V.
Qed.
Lemma wave_gap f x y : f = FSin \/ f = FCos -> exists a b, fn_value f x = Some a /\ fn_value f y = Some b /\ Rabs (a - b) <= Rabs (x - y) /\ Rabs a <= 1 /\ Rabs b <= 1.
Proof.
  assert (B : forall c, Rabs (sin c) <= 1 /\ Rabs (cos c) <= 1) by (intros c; split; apply Rabs_le; [apply SIN_bound|apply COS_bound]).
  set (lo := Rmin x y). set (hi := Rmax x y). assert (Hx : lo <= x <= hi) by (split; [apply Rmin_l|apply Rmax_l]). assert (Hy : lo <= y <= hi) by (split; [apply Rmin_r|apply Rmax_r]).
  intros [ ->| ->]; [exists (sin x), (sin y)|exists (cos x), (cos y)]; do 2 (split; [reflexivity|]); (split; [|split; apply B]); rewrite <- (Rmult_1_l (Rabs (x - y))).
  - apply (slope_gap sin cos 1 lo hi); try assumption; [intros; apply is_derive_sin|intros; apply B].
  - apply (slope_gap cos (fun c => - sin c) 1 lo hi); try assumption; [intros; apply is_derive_cos|intros; rewrite Rabs_Ropp; apply B].
Qed.
Lemma exp_rises x y : x <= y -> exp x <= exp y.
Proof. intros [H| ->]; [left; now apply exp_increasing|lra]. Qed.
Lemma exp_gap x y M : Rabs x <= M -> Rabs y <= M -> Rabs (exp x - exp y) <= exp M * Rabs (x - y).
Proof.
  intros H H'. apply Rabs_le_between in H. apply Rabs_le_between in H'. apply (slope_gap exp exp (exp M) (- M) M); try assumption.
  - intros; apply is_derive_exp.
  - intros c Hc. rewrite Rabs_pos_eq by (left; apply exp_pos). now apply exp_rises.
Qed.
Lemma exp_bound x M : Rabs x <= M -> Rabs (exp x) <= exp M.
Proof. intros H. apply Rabs_le_between in H. rewrite Rabs_pos_eq by (left; apply exp_pos). now apply exp_rises. Qed.
Lemma quotient_gap x y x' y' M m : 0 < m -> m <= Rabs y -> m <= Rabs y' -> Rabs x' <= M ->
  Rabs (x / y - x' / y') <= Rabs (x - x') / m + M * Rabs (y - y') / (m * m).
Proof.
  intros Hm Hy Hy' Hx'. assert (Y : y <> 0) by (intros ->; rewrite Rabs_R0 in Hy; lra). assert (Y' : y' <> 0) by (intros ->; rewrite Rabs_R0 in Hy'; lra).
  replace (x / y - x' / y') with ((x - x') / y + x' * (y' - y) / (y * y')) by (field; auto).
  assert (T := Rabs_triang ((x - x') / y) (x' * (y' - y) / (y * y'))). unfold Rdiv in T at 3 4. rewrite !Rabs_mult, !Rabs_Rinv in T by (try apply Rmult_integral_contrapositive_currified; assumption).
  rewrite Rabs_mult in T. rewrite (Rabs_minus_sym y' y) in T.
  assert (I : / Rabs y <= / m) by (apply Rinv_le_contravar; assumption).
  assert (I' : / (Rabs y * Rabs y') <= / (m * m)) by (apply Rinv_le_contravar; [apply Rmult_lt_0_compat; assumption|apply Rmult_le_compat; lra]).
  assert (Rabs (x - x') * / Rabs y <= Rabs (x - x') * / m) by (apply Rmult_le_compat_l; [apply Rabs_pos|exact I]).
  assert (Rabs x' * Rabs (y - y') * / (Rabs y * Rabs y') <= M * Rabs (y - y') * / (m * m)).
  { apply Rmult_le_compat; [apply Rmult_le_pos; apply Rabs_pos|left; apply Rinv_0_lt_compat; apply Rmult_lt_0_compat; lra| |exact I'].
    apply Rmult_le_compat_r; [apply Rabs_pos|exact Hx']. }
  unfold Rdiv. lra.
Qed.


Lemma log_between x m M : 0 < m -> m <= x -> x <= M -> Rabs (ln x) <= log_size m M.
Proof.
  intros Hm Hx HM. assert (A : ln m <= ln x) by (destruct Hx as [H| ->]; [left; apply ln_increasing; lra|lra]). assert (B : ln x <= ln M) by (destruct HM as [H| ->]; [left; apply ln_increasing; lra|lra]).
  unfold log_size. assert (C := Rmax_l (Rabs (ln m)) (Rabs (ln M))). assert (E := Rmax_r (Rabs (ln m)) (Rabs (ln M))). assert (F := Rle_abs (ln M)). assert (G := Rle_abs (- ln m)). rewrite Rabs_Ropp in G.
  apply Rabs_le. lra.
Qed.
Lemma log_gap x y m : 0 < m -> m <= x -> m <= y -> Rabs (ln x - ln y) <= Rabs (x - y) / m.
Proof.
  intros Hm Hx Hy. assert (Q := slope_gap ln Rinv (/ m) m (Rmax x y) x y). rewrite Rmult_comm in Q. apply Q.
  - intros c Hc. apply is_derive_Reals. apply derivable_pt_lim_ln. lra.
  - intros c Hc. rewrite Rabs_pos_eq; [apply Rinv_le_contravar; lra|left; apply Rinv_0_lt_compat; lra].
  - split; [exact Hx|apply Rmax_l].
  - split; [exact Hy|apply Rmax_r].
Qed.
Lemma root_gap x y m : 0 < m -> m <= x -> m <= y -> Rabs (sqrt x - sqrt y) <= Rabs (x - y) / (2 * sqrt m).
Proof.
  intros Hm Hx Hy. assert (S := sqrt_lt_R0 m Hm). assert (Sx := sqrt_le_1_alt m x Hx). assert (Sy := sqrt_le_1_alt m y Hy).
  apply Rmult_le_reg_r with (2 * sqrt m); [lra|]. unfold Rdiv. rewrite Rmult_assoc, Rinv_l, Rmult_1_r by lra.
  replace (x - y) with ((sqrt x - sqrt y) * (sqrt x + sqrt y)) by (ring_simplify; rewrite !pow2_sqrt by lra; ring).
  rewrite Rabs_mult. apply Rmult_le_compat_l; [apply Rabs_pos|]. rewrite Rabs_pos_eq by lra. lra.
Qed.
Lemma sin_small x : Rabs (sin x) <= Rabs x.
Proof. destruct (wave_gap FSin x 0 (or_introl eq_refl)) as (a & b & A & B & G & _). injection A as <-. injection B as <-. now rewrite sin_0, !Rminus_0_r in G. Qed.
Lemma tan_gap x y m : 0 < m -> m <= Rabs (cos x) -> m <= Rabs (cos y) -> Rabs (tan x - tan y) <= Rabs (x - y) / (m * m).
Proof.
  intros Hm Hx Hy. assert (X : cos x <> 0) by (intros E; rewrite E, Rabs_R0 in Hx; lra). assert (Y : cos y <> 0) by (intros E; rewrite E, Rabs_R0 in Hy; lra).
  replace (tan x - tan y) with (sin (x - y) / (cos x * cos y)) by (rewrite sin_minus; unfold tan; field; auto).
  assert (XY : cos x * cos y <> 0) by now apply Rmult_integral_contrapositive_currified.
  unfold Rdiv. rewrite Rabs_mult, Rabs_Rinv, Rabs_mult by exact XY.
  apply Rmult_le_compat; [apply Rabs_pos|left; apply Rinv_0_lt_compat, Rmult_lt_0_compat; lra|apply sin_small|].
  apply Rinv_le_contravar; [apply Rmult_lt_0_compat; lra|apply Rmult_le_compat; lra].
Qed.
Lemma tan_bound x m : 0 < m -> m <= Rabs (cos x) -> Rabs (tan x) <= 1 / m.
Proof.
  intros Hm Hx. assert (X : cos x <> 0) by (intros E; rewrite E, Rabs_R0 in Hx; lra). unfold tan, Rdiv. rewrite Rabs_mult, Rabs_Rinv by exact X.
  apply Rmult_le_compat; [apply Rabs_pos|left; apply Rinv_0_lt_compat; lra|apply Rabs_le, SIN_bound|now apply Rinv_le_contravar].
Qed.
(** Powers by real exponents. *)
Lemma raised_gap x y x' y' m M M' : 0 < m -> m <= x <= M -> m <= x' <= M -> Rabs y <= M' -> Rabs y' <= M' ->
  Rabs (Rpower x y) <= exp (M' * log_size m M) /\
  Rabs (Rpower x y - Rpower x' y') <= exp (M' * log_size m M) * (Rabs (y - y') * log_size m M + M' * (Rabs (x - x') / m)).
Proof.
  intros Hm Hx Hx' Hy Hy'. unfold Rpower.
  assert (K : Rabs (ln x) <= log_size m M) by (apply log_between; lra). assert (K' : Rabs (ln x') <= log_size m M) by (apply log_between; lra).
  assert (Bd : forall u v, Rabs u <= M' -> Rabs v <= log_size m M -> Rabs (u * v) <= M' * log_size m M) by (intros u v Hu Hv; rewrite Rabs_mult; apply Rmult_le_compat; auto using Rabs_pos).
  split; [apply exp_bound; now apply Bd|]. eapply Rle_trans; [apply exp_gap; now apply Bd|]. apply Rmult_le_compat_l; [left; apply exp_pos|].
  assert (P := product_gap y (ln x) y' (ln x') M' (log_size m M) Hy' K). assert (G := log_gap x x' m Hm (proj1 Hx) (proj1 Hx')).
  assert (M0 : 0 <= M') by (assert (T := Rabs_pos y); lra). assert (M' * Rabs (ln x - ln x') <= M' * (Rabs (x - x') / m)) by now apply Rmult_le_compat_l. lra.
Qed.
Lemma rpow_above x y : 0 < x -> rpow x y = Some (Rpower x y).
Proof. intros H. unfold rpow. now destruct (Rlt_dec 0 x). Qed.
Lemma pick_gap mx x y x' y' g : Rabs (x - x') <= g -> Rabs (y - y') <= g -> Rabs (pick mx x y - pick mx x' y') <= g.
Proof.
  intros H H'. apply Rabs_le_between in H. apply Rabs_le_between in H'. apply Rabs_le. unfold pick. destruct mx; unfold Rmax, Rmin;
    destruct (Rle_dec x y), (Rle_dec x' y'); lra.
Qed.
Lemma pick_bound mx x y M : Rabs x <= M -> Rabs y <= M -> Rabs (pick mx x y) <= M.
Proof. intros H H'. unfold pick. destruct mx; unfold Rmax, Rmin; destruct (Rle_dec x y); assumption. Qed.
Lemma extremum_gap mx l l' M g : Forall2 (fun o o' => forall x y, o = Some x -> o' = Some y -> Rabs x <= M /\ Rabs y <= M /\ Rabs (x - y) <= g) l l' ->
  forall x y, extremum mx l = Some x -> extremum mx l' = Some y -> Rabs x <= M /\ Rabs y <= M /\ Rabs (x - y) <= g.
Proof.
  induction 1 as [|o o' l l' H F IH]; intros x y Hx Hy; [discriminate|]. destruct F as [|o1 o1' l l' H1 F]; [now apply H|].
  set (r := o1 :: l) in *. set (r' := o1' :: l') in *. change (match o, extremum mx r with Some a, Some b => Some (pick mx a b) | _, _ => None end = Some x) in Hx.
  change (match o', extremum mx r' with Some a, Some b => Some (pick mx a b) | _, _ => None end = Some y) in Hy.
  destruct o as [a|]; [|discriminate]. destruct (extremum mx r) as [b|]; [|discriminate]. destruct o' as [a'|]; [|discriminate]. destruct (extremum mx r') as [b'|]; [|discriminate].
  injection Hx as <-. injection Hy as <-. destruct (H a a' eq_refl eq_refl) as (A & A' & G). destruct (IH b b' eq_refl eq_refl) as (A1 & A1' & G1).
  split; [now apply pick_bound|]. split; [now apply pick_bound|now apply pick_gap].
Qed.

Lemma args_ind (P : uargs string -> Prop) : P ANil -> (forall e l, P l -> P (AExpr e l)) -> (forall k l, P l -> P (ANum k l)) -> forall l, P l.
Proof. intros H0 H1 H2. fix IH 1. intros [|e l|k l]; [exact H0|apply H1, IH|apply H2, IH]. Qed.

Definition sound_sway (D D' : dict thing) (B : string -> R) (t : string) (names : list string) (e : uexpr string) (L d M : R) : Prop :=
  forall en en', boxed B (t :: names) en -> boxed B (t :: names) en' -> e_sym en t = e_sym en' t ->
  forall a b, expr_value D en e = Some a -> expr_value D' en' e = Some b ->
    0 <= L /\ 0 <= d /\ Rabs a <= M /\ Rabs b <= M /\ Rabs (a - b) <= L * gap names en en' + d.
Lemma arith_some o x y v : arith o x y = Some v -> exists a b, x = Some a /\ y = Some b /\ arith o (Some a) (Some b) = Some v.
Proof. unfold arith at 1. destruct x as [a|], y as [b|]; try discriminate. intros H. exists a, b. auto. Qed.
Ltac sides H a b := let E := fresh in let E' := fresh in let V := fresh "V" in apply arith_some in H; destruct H as (a & b & E & E' & V).

Lemma sways_sound D D' B t names e L d M : sways D D' B t names e L d M -> sound_sway D D' B t names e L d M.
Proof.
  induction 1 as [a q q' Q Q' S S' N I|a q q' Q Q' S S' N N'|a q q' r r' Q Q' S S' N N'|o a b L d M L' d' M' O _ IH _ IH'|a b L d M L' d' M' _ IH _ IH'
    |a b L d M L' d' M' m _ IH _ IH' Hm K K'|o a k r L d M O Hk _ IH|o a k r L d M O Hk _ IH|a k r L d M Hk _ IH|a k r L d M Hk _ IH|a k r L d M Hk Nz _ IH
    |a n L d M _ IH|a L d M _ IH|f a L d M F _ IH|a L d M _ IH
    |a L d M m _ IH Hm K K'|a L d M m _ IH Hm K K'|a L d M m _ IH Hm K K'|a L d M m _ IH Hm K K'|a b L d M L' d' M' m _ IH _ IH' Hm K K'|a k r L d M m Hk _ IH Hm K K'|k a r L d M Hk Hr _ IH
    |k a r L d M m Hk _ IH Hm K K'|f k x r Hk Hf|mx l L d M L0 D0 _ IH Nk|e L d M L' d' M' HL Hd HM _ IH]; intros en en' Bx Bx' Et u v Hu Hv; cbn [expr_value] in Hu, Hv;
    assert (G0 := gap_nonneg names en en').
  - rewrite Q in Hu. rewrite Q' in Hv. unfold thing_value in Hu, Hv. rewrite S in Hu. rewrite S' in Hv. injection Hu as <-. injection Hv as <-. rewrite <- N.
    split; [lra|]. split; [lra|]. split; [apply Bx; now right|]. split; [apply Bx'; now right|]. rewrite Rmult_1_l, Rplus_0_r.
    rewrite gap_total. apply (total_in (fun y => Rabs (e_sym en y - e_sym en' y))); [intros; apply Rabs_pos|exact I].
  - rewrite Q in Hu. rewrite Q' in Hv. unfold thing_value in Hu, Hv. rewrite S, N in Hu. rewrite S', N' in Hv. injection Hu as <-. injection Hv as <-.
    split; [lra|]. split; [lra|]. split; [apply Bx; now left|]. split; [apply Bx'; now left|]. rewrite Et, Rminus_eq_0, Rabs_R0. lra.
  - rewrite Q in Hu. rewrite Q' in Hv. unfold thing_value in Hu, Hv. rewrite S, N in Hu. rewrite S', N' in Hv. injection Hu as <-. injection Hv as <-.
    split; [lra|]. split; [apply Rabs_pos|]. split; [apply Rmax_l|]. split; [apply Rmax_r|]. lra.
  - sides Hu a1 b1. sides Hv a2 b2. destruct (IH en en' Bx Bx' Et a1 a2) as (L0 & D0 & A1 & A2 & Ga); [assumption..|].
    destruct (IH' en en' Bx Bx' Et b1 b2) as (L0' & D0' & A1' & A2' & Gb); [assumption..|]. split; [lra|]. split; [lra|].
    destruct O as [ ->| ->]; injection V as <-; injection V0 as <-.
    + assert (T1 := Rabs_triang a1 b1). assert (T2 := Rabs_triang a2 b2). replace (a1 + b1 - (a2 + b2)) with ((a1 - a2) + (b1 - b2)) by ring.
      assert (T3 := Rabs_triang (a1 - a2) (b1 - b2)). lra.
    + assert (T1 := Rabs_triang a1 (- b1)). assert (T2 := Rabs_triang a2 (- b2)). replace (a1 - b1 - (a2 - b2)) with ((a1 - a2) + - (b1 - b2)) by ring.
      assert (T3 := Rabs_triang (a1 - a2) (- (b1 - b2))). rewrite Rabs_Ropp in T1, T2, T3. change (a1 + - b1) with (a1 - b1) in T1. change (a2 + - b2) with (a2 - b2) in T2. lra.
  - sides Hu a1 b1. sides Hv a2 b2. destruct (IH en en' Bx Bx' Et a1 a2) as (L0 & D0 & A1 & A2 & Ga); [assumption..|].
    destruct (IH' en en' Bx Bx' Et b1 b2) as (L0' & D0' & A1' & A2' & Gb); [assumption..|]. injection V as <-. injection V0 as <-.
    assert (M0 : 0 <= M) by (assert (T := Rabs_pos a1); lra). assert (M0' : 0 <= M') by (assert (T := Rabs_pos b1); lra).
    assert (Z1 := Rmult_le_pos _ _ L0 M0'). assert (Z2 := Rmult_le_pos _ _ M0 L0'). assert (Z3 := Rmult_le_pos _ _ D0 M0'). assert (Z4 := Rmult_le_pos _ _ M0 D0').
    split; [lra|]. split; [lra|]. rewrite !Rabs_mult. split; [apply Rmult_le_compat; auto using Rabs_pos|]. split; [apply Rmult_le_compat; auto using Rabs_pos|].
    assert (P := product_gap a1 b1 a2 b2 M M' A2 A1'). assert (Rabs (a1 - a2) * M' <= (L * gap names en en' + d) * M') by now apply Rmult_le_compat_r.
    assert (M * Rabs (b1 - b2) <= M * (L' * gap names en en' + d')) by now apply Rmult_le_compat_l. lra.
  - sides Hu a1 b1. sides Hv a2 b2. destruct (IH en en' Bx Bx' Et a1 a2) as (L0 & D0 & A1 & A2 & Ga); [assumption..|].
    destruct (IH' en en' Bx Bx' Et b1 b2) as (L0' & D0' & A1' & A2' & Gb); [assumption..|].
    assert (B1 : m <= Rabs b1) by now apply (K en). assert (B2 : m <= Rabs b2) by now apply (K' en'). unfold arith in V, V0.
    destruct (Req_EM_T b1 0); [discriminate|]. destruct (Req_EM_T b2 0); [discriminate|]. injection V as <-. injection V0 as <-.
    assert (M0 : 0 <= M) by (assert (T := Rabs_pos a1); lra). assert (I : 0 < / m) by now apply Rinv_0_lt_compat. assert (I2 : 0 < / (m * m)) by (apply Rinv_0_lt_compat, Rmult_lt_0_compat; lra).
    assert (Z1 : 0 <= L * / m) by (apply Rmult_le_pos; lra). assert (Z2 : 0 <= M * L' * / (m * m)) by (apply Rmult_le_pos; [now apply Rmult_le_pos|lra]).
    assert (Z3 : 0 <= d * / m) by (apply Rmult_le_pos; lra). assert (Z4 : 0 <= M * d' * / (m * m)) by (apply Rmult_le_pos; [now apply Rmult_le_pos|lra]).
    assert (Qb : forall x y, Rabs x <= M -> y <> 0 -> m <= Rabs y -> Rabs (x / y) <= M / m).
    { intros x y Hx Hy Hy2. unfold Rdiv. rewrite Rabs_mult, Rabs_Rinv by assumption. apply Rmult_le_compat; [apply Rabs_pos|left; apply Rinv_0_lt_compat; lra|exact Hx|now apply Rinv_le_contravar]. }
    unfold Rdiv at 1 2 3 4. split; [lra|]. split; [lra|]. split; [now apply Qb|]. split; [now apply Qb|].
    assert (P := quotient_gap a1 b1 a2 b2 M m Hm B1 B2 A2). unfold Rdiv in P at 3 4. unfold Rdiv at 3 4 5 6.
    assert (Rabs (a1 - a2) * / m <= (L * gap names en en' + d) * / m) by (apply Rmult_le_compat_r; lra).
    assert (M * Rabs (b1 - b2) * / (m * m) <= M * (L' * gap names en en' + d') * / (m * m)) by (apply Rmult_le_compat_r; [lra|now apply Rmult_le_compat_l]). lra.
  - sides Hu a1 b1. sides Hv a2 b2. destruct (IH en en' Bx Bx' Et a1 a2) as (L0 & D0 & A1 & A2 & Ga); [assumption..|].
    assert (b1 = r) by congruence. assert (b2 = r) by congruence. subst b1 b2. split; [lra|]. split; [lra|].
    destruct O as [ ->| ->]; injection V as <-; injection V0 as <-.
    + assert (T1 := Rabs_triang a1 r). assert (T2 := Rabs_triang a2 r). replace (a1 + r - (a2 + r)) with (a1 - a2) by ring. lra.
    + assert (T1 := Rabs_triang a1 (- r)). assert (T2 := Rabs_triang a2 (- r)). rewrite Rabs_Ropp in T1, T2. replace (a1 - r - (a2 - r)) with (a1 - a2) by ring. change (a1 + - r) with (a1 - r) in T1. change (a2 + - r) with (a2 - r) in T2. lra.
  - sides Hu b1 a1. sides Hv b2 a2. destruct (IH en en' Bx Bx' Et a1 a2) as (L0 & D0 & A1 & A2 & Ga); [assumption..|].
    assert (b1 = r) by congruence. assert (b2 = r) by congruence. subst b1 b2. split; [lra|]. split; [lra|].
    destruct O as [ ->| ->]; injection V as <-; injection V0 as <-.
    + assert (T1 := Rabs_triang r a1). assert (T2 := Rabs_triang r a2). replace (r + a1 - (r + a2)) with (a1 - a2) by ring. lra.
    + assert (T1 := Rabs_triang r (- a1)). assert (T2 := Rabs_triang r (- a2)). rewrite Rabs_Ropp in T1, T2. replace (r - a1 - (r - a2)) with (- (a1 - a2)) by ring. rewrite Rabs_Ropp. change (r + - a1) with (r - a1) in T1. change (r + - a2) with (r - a2) in T2. lra.
  - sides Hu a1 b1. sides Hv a2 b2. destruct (IH en en' Bx Bx' Et a1 a2) as (L0 & D0 & A1 & A2 & Ga); [assumption..|].
    assert (b1 = r) by congruence. assert (b2 = r) by congruence. subst b1 b2. injection V as <-. injection V0 as <-. assert (R0 := Rabs_pos r).
    split; [now apply Rmult_le_pos|]. split; [now apply Rmult_le_pos|]. replace (a1 * r - a2 * r) with ((a1 - a2) * r) by ring. rewrite !Rabs_mult.
    split; [now apply Rmult_le_compat_r|]. split; [now apply Rmult_le_compat_r|]. assert (Rabs (a1 - a2) * Rabs r <= (L * gap names en en' + d) * Rabs r) by now apply Rmult_le_compat_r. lra.
  - sides Hu b1 a1. sides Hv b2 a2. destruct (IH en en' Bx Bx' Et a1 a2) as (L0 & D0 & A1 & A2 & Ga); [assumption..|].
    assert (b1 = r) by congruence. assert (b2 = r) by congruence. subst b1 b2. injection V as <-. injection V0 as <-. assert (R0 := Rabs_pos r).
    split; [now apply Rmult_le_pos|]. split; [now apply Rmult_le_pos|]. replace (r * a1 - r * a2) with (r * (a1 - a2)) by ring. rewrite !Rabs_mult.
    split; [now apply Rmult_le_compat_l|]. split; [now apply Rmult_le_compat_l|]. assert (Rabs r * Rabs (a1 - a2) <= Rabs r * (L * gap names en en' + d)) by now apply Rmult_le_compat_l. lra.
  - sides Hu a1 b1. sides Hv a2 b2. destruct (IH en en' Bx Bx' Et a1 a2) as (L0 & D0 & A1 & A2 & Ga); [assumption..|].
    assert (b1 = r) by congruence. assert (b2 = r) by congruence. subst b1 b2. unfold arith in V, V0. destruct (Req_EM_T r 0); [contradiction|]. injection V as <-. injection V0 as <-.
    assert (R0 : 0 < / Rabs r) by now apply Rinv_0_lt_compat, Rabs_pos_lt. unfold Rdiv.
    split; [apply Rmult_le_pos; lra|]. split; [apply Rmult_le_pos; lra|]. replace (a1 * / r - a2 * / r) with ((a1 - a2) * / r) by ring. rewrite !Rabs_mult, Rabs_Rinv by assumption.
    split; [apply Rmult_le_compat_r; lra|]. split; [apply Rmult_le_compat_r; lra|]. assert (Rabs (a1 - a2) * / Rabs r <= (L * gap names en en' + d) * / Rabs r) by (apply Rmult_le_compat_r; lra). lra.
  - sides Hu a1 b1. sides Hv a2 b2. destruct (IH en en' Bx Bx' Et a1 a2) as (L0 & D0 & A1 & A2 & Ga); [assumption..|].
    change (Some (IZR (Z.of_nat (S n))) = Some b1) in H0. change (Some (IZR (Z.of_nat (S n))) = Some b2) in H2. assert (Q1 : b1 = IZR (Z.of_nat (S n))) by congruence. assert (Q2 : b2 = IZR (Z.of_nat (S n))) by congruence.
    unfold arith in V, V0. rewrite Q1, rpow_whole in V. rewrite Q2, rpow_whole in V0. destruct (Z_lt_dec (Z.of_nat (S n)) 0) as [Bad|_]; [lia|].
    rewrite Nat2Z.id in V, V0. assert (u = a1 ^ S n) by congruence. assert (v = a2 ^ S n) by congruence. subst u v. assert (M0 : 0 <= M) by (assert (T := Rabs_pos a1); lra).
    assert (P0 : 0 <= INR (S n) * M ^ n) by (apply Rmult_le_pos; [apply pos_INR|now apply pow_le]).
    split; [now apply Rmult_le_pos|]. split; [now apply Rmult_le_pos|]. split; [now apply power_bound|]. split; [now apply power_bound|].
    assert (P := power_gap a1 a2 M n A1 A2). assert (INR (S n) * M ^ n * Rabs (a1 - a2) <= INR (S n) * M ^ n * (L * gap names en en' + d)) by now apply Rmult_le_compat_l. lra.
  - destruct (expr_value D en a) as [a1|] eqn:E1; [|discriminate]. destruct (expr_value D' en' a) as [a2|] eqn:E2; [|discriminate]. injection Hu as <-. injection Hv as <-.
    destruct (IH en en' Bx Bx' Et a1 a2 E1 E2) as (L0 & D0 & A1 & A2 & Ga). rewrite !Rabs_Rabsolu. assert (T := Rabs_triang_inv2 a1 a2). repeat (split; [assumption|]). lra.
  - destruct (expr_value D en a) as [a1|] eqn:E1; [|discriminate]. destruct (expr_value D' en' a) as [a2|] eqn:E2; [|discriminate].
    destruct (IH en en' Bx Bx' Et a1 a2 E1 E2) as (L0 & D0 & A1 & A2 & Ga). destruct (wave_gap f a1 a2 F) as (x & y & X & Y & G & X1 & Y1).
    assert (u = x) by congruence. assert (v = y) by congruence. subst u v. repeat (split; [assumption|]). lra.
  - destruct (expr_value D en a) as [a1|] eqn:E1; [|discriminate]. destruct (expr_value D' en' a) as [a2|] eqn:E2; [|discriminate]. injection Hu as <-. injection Hv as <-.
    destruct (IH en en' Bx Bx' Et a1 a2 E1 E2) as (L0 & D0 & A1 & A2 & Ga). assert (X := exp_pos M).
    split; [apply Rmult_le_pos; lra|]. split; [apply Rmult_le_pos; lra|]. split; [now apply exp_bound|]. split; [now apply exp_bound|].
    assert (P := exp_gap a1 a2 M A1 A2). assert (exp M * Rabs (a1 - a2) <= exp M * (L * gap names en en' + d)) by (apply Rmult_le_compat_l; lra). lra.
  - destruct (expr_value D en a) as [a1|] eqn:E1; [|discriminate]. destruct (expr_value D' en' a) as [a2|] eqn:E2; [|discriminate].
    destruct (IH en en' Bx Bx' Et a1 a2 E1 E2) as (L0 & D0 & A1 & A2 & Ga). assert (B1 := K en a1 Bx E1). assert (B2 := K' en' a2 Bx' E2). unfold fn_value in Hu, Hv.
    destruct (Rlt_dec 0 a1); [|discriminate]. destruct (Rlt_dec 0 a2); [|discriminate]. injection Hu as <-. injection Hv as <-. rewrite Rabs_pos_eq in A1, A2, B1, B2 by lra.
    assert (I : 0 < / m) by now apply Rinv_0_lt_compat. split; [apply Rmult_le_pos; lra|]. split; [apply Rmult_le_pos; lra|].
    split; [now apply log_between|]. split; [now apply log_between|]. assert (Q := log_gap a1 a2 m Hm B1 B2).
    assert (Rabs (a1 - a2) / m <= (L * gap names en en' + d) / m) by (apply Rmult_le_compat_r; lra). unfold Rdiv in *. lra.
  - destruct (expr_value D en a) as [a1|] eqn:E1; [|discriminate]. destruct (expr_value D' en' a) as [a2|] eqn:E2; [|discriminate].
    destruct (IH en en' Bx Bx' Et a1 a2 E1 E2) as (L0 & D0 & A1 & A2 & Ga). assert (B1 := K en a1 Bx E1). assert (B2 := K' en' a2 Bx' E2). unfold fn_value in Hu, Hv.
    destruct (Rlt_dec 0 a1); [|discriminate]. destruct (Rlt_dec 0 a2); [|discriminate]. injection Hu as <-. injection Hv as <-. rewrite Rabs_pos_eq in A1, A2, B1, B2 by lra.
    assert (I : 0 < / m) by now apply Rinv_0_lt_compat. assert (T : 0 < / ln 10) by (apply Rinv_0_lt_compat; rewrite <- ln_1; apply ln_increasing; lra).
    assert (Z : forall c, 0 <= c -> 0 <= c / m / ln 10) by (intros c Hc; apply Rmult_le_pos; [apply Rmult_le_pos; lra|lra]).
    assert (Qb : forall x, m <= x -> x <= M -> Rabs (ln x / ln 10) <= log_size m M / ln 10)
      by (intros x H1 H2; unfold Rdiv; rewrite Rabs_mult, (Rabs_pos_eq (/ ln 10)) by lra; apply Rmult_le_compat_r; [lra|now apply log_between]).
    split; [now apply Z|]. split; [now apply Z|]. split; [now apply Qb|]. split; [now apply Qb|].
    assert (Q := log_gap a1 a2 m Hm B1 B2). replace (ln a1 / ln 10 - ln a2 / ln 10) with ((ln a1 - ln a2) * / ln 10) by (unfold Rdiv; ring).
    rewrite Rabs_mult, (Rabs_pos_eq (/ ln 10)) by lra.
    assert (Rabs (a1 - a2) / m <= (L * gap names en en' + d) / m) by (apply Rmult_le_compat_r; lra).
    assert (Rabs (ln a1 - ln a2) * / ln 10 <= (L * gap names en en' + d) / m * / ln 10) by (apply Rmult_le_compat_r; lra). unfold Rdiv in *. lra.
  - destruct (expr_value D en a) as [a1|] eqn:E1; [|discriminate]. destruct (expr_value D' en' a) as [a2|] eqn:E2; [|discriminate].
    destruct (IH en en' Bx Bx' Et a1 a2 E1 E2) as (L0 & D0 & A1 & A2 & Ga). assert (B1 := K en a1 Bx E1). assert (B2 := K' en' a2 Bx' E2). unfold fn_value in Hu, Hv.
    destruct (Rle_dec 0 a1); [|discriminate]. destruct (Rle_dec 0 a2); [|discriminate]. injection Hu as <-. injection Hv as <-. rewrite Rabs_pos_eq in A1, A2, B1, B2 by lra.
    assert (I : 0 < / (2 * sqrt m)) by (apply Rinv_0_lt_compat; assert (T := sqrt_lt_R0 m Hm); lra). split; [apply Rmult_le_pos; lra|]. split; [apply Rmult_le_pos; lra|].
    rewrite !(Rabs_pos_eq (sqrt _)) by apply sqrt_pos. split; [now apply sqrt_le_1_alt|]. split; [now apply sqrt_le_1_alt|]. assert (Q := root_gap a1 a2 m Hm B1 B2).
    assert (Rabs (a1 - a2) / (2 * sqrt m) <= (L * gap names en en' + d) / (2 * sqrt m)) by (apply Rmult_le_compat_r; lra). unfold Rdiv in *. lra.
  - destruct (expr_value D en a) as [a1|] eqn:E1; [|discriminate]. destruct (expr_value D' en' a) as [a2|] eqn:E2; [|discriminate].
    destruct (IH en en' Bx Bx' Et a1 a2 E1 E2) as (L0 & D0 & A1 & A2 & Ga).
    assert (B1 : m <= Rabs (cos a1)) by (apply (K en); [assumption|cbn [expr_value]; rewrite E1; reflexivity]).
    assert (B2 : m <= Rabs (cos a2)) by (apply (K' en'); [assumption|cbn [expr_value]; rewrite E2; reflexivity]). unfold fn_value in Hu, Hv.
    destruct (Req_EM_T (cos a1) 0); [discriminate|]. destruct (Req_EM_T (cos a2) 0); [discriminate|]. injection Hu as <-. injection Hv as <-.
    assert (I : 0 < / (m * m)) by (apply Rinv_0_lt_compat, Rmult_lt_0_compat; lra). split; [apply Rmult_le_pos; lra|]. split; [apply Rmult_le_pos; lra|].
    split; [now apply tan_bound|]. split; [now apply tan_bound|]. assert (Q := tan_gap a1 a2 m Hm B1 B2).
    assert (Rabs (a1 - a2) / (m * m) <= (L * gap names en en' + d) / (m * m)) by (apply Rmult_le_compat_r; lra). unfold Rdiv in *. lra.
  - sides Hu a1 b1. sides Hv a2 b2. destruct (IH en en' Bx Bx' Et a1 a2) as (L0 & D0 & A1 & A2 & Ga); [assumption..|].
    destruct (IH' en en' Bx Bx' Et b1 b2) as (L0' & D0' & A1' & A2' & Gb); [assumption..|].
    assert (B1 : m <= a1) by now apply (K en). assert (B2 : m <= a2) by now apply (K' en'). unfold arith in V, V0. rewrite rpow_above in V, V0 by lra.
    rewrite Rabs_pos_eq in A1, A2 by lra. injection V as <-. injection V0 as <-.
    destruct (raised_gap a1 b1 a2 b2 m M M' Hm (conj B1 A1) (conj B2 A2) A1' A2') as (U1 & G). destruct (raised_gap a2 b2 a1 b1 m M M' Hm (conj B2 A2) (conj B1 A1) A2' A1') as (U2 & _).
    assert (X := exp_pos (M' * log_size m M)). assert (I : 0 < / m) by now apply Rinv_0_lt_compat. assert (M0 : 0 <= M') by (assert (T := Rabs_pos b1); lra).
    assert (K0 : 0 <= log_size m M) by (assert (T := log_between a1 m M Hm B1 A1); assert (T2 := Rabs_pos (ln a1)); lra).
    assert (Z : forall c c', 0 <= c -> 0 <= c' -> 0 <= c' * log_size m M + M' * (c / m)).
    { intros c c' Hc Hc'. assert (0 <= c' * log_size m M) by now apply Rmult_le_pos. assert (0 <= M' * (c / m)) by (apply Rmult_le_pos; [exact M0|apply Rmult_le_pos; lra]). lra. }
    split; [apply Rmult_le_pos; [lra|now apply Z]|]. split; [apply Rmult_le_pos; [lra|now apply Z]|]. split; [exact U1|]. split; [exact U2|].
    eapply Rle_trans; [exact G|]. assert (Rabs (b1 - b2) * log_size m M <= (L' * gap names en en' + d') * log_size m M) by now apply Rmult_le_compat_r.
    assert (Rabs (a1 - a2) / m <= (L * gap names en en' + d) / m) by (apply Rmult_le_compat_r; lra).
    assert (M' * (Rabs (a1 - a2) / m) <= M' * ((L * gap names en en' + d) / m)) by now apply Rmult_le_compat_l.
    assert (Q : exp (M' * log_size m M) * (Rabs (b1 - b2) * log_size m M + M' * (Rabs (a1 - a2) / m)) <=
      exp (M' * log_size m M) * ((L' * gap names en en' + d') * log_size m M + M' * ((L * gap names en en' + d) / m))) by (apply Rmult_le_compat_l; lra).
    eapply Rle_trans; [exact Q|]. right. unfold Rdiv. ring.
  - sides Hu a1 b1. sides Hv a2 b2. destruct (IH en en' Bx Bx' Et a1 a2) as (L0 & D0 & A1 & A2 & Ga); [assumption..|]. assert (b1 = r) by congruence. assert (b2 = r) by congruence. subst b1 b2.
    assert (B1 : m <= a1) by now apply (K en). assert (B2 : m <= a2) by now apply (K' en'). unfold arith in V, V0. rewrite rpow_above in V, V0 by lra.
    rewrite Rabs_pos_eq in A1, A2 by lra. injection V as <-. injection V0 as <-.
    destruct (raised_gap a1 r a2 r m M (Rabs r) Hm (conj B1 A1) (conj B2 A2) (Rle_refl _) (Rle_refl _)) as (U1 & G).
    destruct (raised_gap a2 r a1 r m M (Rabs r) Hm (conj B2 A2) (conj B1 A1) (Rle_refl _) (Rle_refl _)) as (U2 & _). rewrite Rminus_eq_0, Rabs_R0, Rmult_0_l, Rplus_0_l in G.
    assert (X := exp_pos (Rabs r * log_size m M)). assert (I : 0 < / m) by now apply Rinv_0_lt_compat. assert (M0 := Rabs_pos r).
    assert (Z : forall c, 0 <= c -> 0 <= Rabs r * (c / m)) by (intros c Hc; apply Rmult_le_pos; [exact M0|apply Rmult_le_pos; lra]).
    split; [apply Rmult_le_pos; [lra|now apply Z]|]. split; [apply Rmult_le_pos; [lra|now apply Z]|]. split; [exact U1|]. split; [exact U2|].
    eapply Rle_trans; [exact G|]. assert (Rabs (a1 - a2) / m <= (L * gap names en en' + d) / m) by (apply Rmult_le_compat_r; lra).
    assert (Rabs r * (Rabs (a1 - a2) / m) <= Rabs r * ((L * gap names en en' + d) / m)) by now apply Rmult_le_compat_l.
    assert (Q : exp (Rabs r * log_size m M) * (Rabs r * (Rabs (a1 - a2) / m)) <= exp (Rabs r * log_size m M) * (Rabs r * ((L * gap names en en' + d) / m))) by (apply Rmult_le_compat_l; lra).
    eapply Rle_trans; [exact Q|]. right. unfold Rdiv. ring.
  - sides Hu b1 a1. sides Hv b2 a2. destruct (IH en en' Bx Bx' Et a1 a2) as (L0 & D0 & A1 & A2 & Ga); [assumption..|]. assert (b1 = r) by congruence. assert (b2 = r) by congruence. subst b1 b2.
    unfold arith in V, V0. rewrite rpow_above in V, V0 by lra. injection V as <-. injection V0 as <-. unfold Rpower.
    assert (X := exp_pos (M * Rabs (ln r))). assert (M0 := Rabs_pos (ln r)).
    assert (Bd : forall c, Rabs c <= M -> Rabs (c * ln r) <= M * Rabs (ln r)) by (intros c Hc; rewrite Rabs_mult; now apply Rmult_le_compat_r).
    split; [apply Rmult_le_pos; [lra|now apply Rmult_le_pos]|]. split; [apply Rmult_le_pos; [lra|now apply Rmult_le_pos]|].
    split; [apply exp_bound; now apply Bd|]. split; [apply exp_bound; now apply Bd|].
    assert (G := exp_gap (a1 * ln r) (a2 * ln r) (M * Rabs (ln r)) (Bd a1 A1) (Bd a2 A2)).
    replace (a1 * ln r - a2 * ln r) with ((a1 - a2) * ln r) in G by ring. rewrite Rabs_mult in G. eapply Rle_trans; [exact G|].
    assert (Rabs (a1 - a2) * Rabs (ln r) <= (L * gap names en en' + d) * Rabs (ln r)) by now apply Rmult_le_compat_r.
    assert (Q : exp (M * Rabs (ln r)) * (Rabs (a1 - a2) * Rabs (ln r)) <= exp (M * Rabs (ln r)) * ((L * gap names en en' + d) * Rabs (ln r))) by (apply Rmult_le_compat_l; lra).
    eapply Rle_trans; [exact Q|]. right. ring.
  - sides Hu b1 a1. sides Hv b2 a2. destruct (IH en en' Bx Bx' Et a1 a2) as (L0 & D0 & A1 & A2 & Ga); [assumption..|]. assert (b1 = r) by congruence. assert (b2 = r) by congruence. subst b1 b2.
    assert (B1 : m <= Rabs a1) by now apply (K en). assert (B2 : m <= Rabs a2) by now apply (K' en'). unfold arith in V, V0.
    destruct (Req_EM_T a1 0); [discriminate|]. destruct (Req_EM_T a2 0); [discriminate|]. injection V as <-. injection V0 as <-.
    assert (I2 : 0 < / (m * m)) by (apply Rinv_0_lt_compat, Rmult_lt_0_compat; lra). assert (M0 := Rabs_pos r).
    assert (Z : forall c, 0 <= c -> 0 <= Rabs r * c / (m * m)) by (intros c Hc; apply Rmult_le_pos; [now apply Rmult_le_pos|lra]).
    assert (Qb : forall y, y <> 0 -> m <= Rabs y -> Rabs (r / y) <= Rabs r / m).
    { intros y Hy Hy2. unfold Rdiv. rewrite Rabs_mult, Rabs_Rinv by assumption. apply Rmult_le_compat_l; [apply Rabs_pos|now apply Rinv_le_contravar]. }
    split; [now apply Z|]. split; [now apply Z|]. split; [now apply Qb|]. split; [now apply Qb|].
    assert (P := quotient_gap r a1 r a2 (Rabs r) m Hm B1 B2 (Rle_refl _)). rewrite Rminus_eq_0, Rabs_R0 in P. unfold Rdiv in *.
    assert (Rabs r * Rabs (a1 - a2) * / (m * m) <= Rabs r * (L * gap names en en' + d) * / (m * m)) by (apply Rmult_le_compat_r; [lra|now apply Rmult_le_compat_l]). lra.
  - rewrite Hk in Hu, Hv. assert (u = r) by congruence. assert (v = r) by congruence. subst u v. rewrite Rminus_eq_0, Rabs_R0. lra.
  - split; [exact L0|]. split; [exact D0|]. refine (extremum_gap mx _ _ M _ _ u v Hu Hv). clear Hu Hv. assert (C0 : 0 <= L * gap names en en' + d) by (assert (T := Rmult_le_pos _ _ L0 G0); lra).
    assert (W : forall e x y, In e (arg_exprs l) -> expr_value D en e = Some x -> expr_value D' en' e = Some y -> Rabs x <= M /\ Rabs y <= M /\ Rabs (x - y) <= L * gap names en en' + d)
      by (intros e x y He Hx Hy; apply (IH e He en en' Bx Bx' Et x y Hx Hy)). clear IH.
    induction l as [|e l IHl|k l IHl] using args_ind; cbn [args_values arg_exprs arg_numbers] in *; constructor.
    + intros x y Hx Hy. apply (W e); auto. now left.
    + apply IHl; [exact Nk|]. intros e' x y He. apply W. now right.
    + intros x y Hx Hy. destruct (Nk k (or_introl eq_refl)) as (r & Er & Br). assert (x = r) by congruence. assert (y = r) by congruence. subst x y. rewrite Rminus_eq_0, Rabs_R0. auto.
    + apply IHl; [|exact W]. intros k' Hk'. apply Nk. now right.
  - destruct (IH en en' Bx Bx' Et u v Hu Hv) as (L0 & D0 & A1 & A2 & Ga). assert (L * gap names en en' <= L' * gap names en en') by now apply Rmult_le_compat_r. lra.
Qed.
Lemma sways_near D D' B t names e L d M : sways D D' B t names e L d M ->
  forall en en', boxed B (t :: names) en -> boxed B (t :: names) en' -> e_sym en t = e_sym en' t ->
  forall a b, expr_value D en e = Some a -> expr_value D' en' e = Some b -> Rabs a <= M /\ Rabs b <= M /\ Rabs (a - b) <= L * gap names en en' + d.
Proof. intros H en en' B1 B2 E a b Ha Hb. now destruct (sways_sound _ _ _ _ _ _ _ _ _ H en en' B1 B2 E a b Ha Hb) as (_ & _ & R). Qed.

Lemma written_near D D' B L d P P' t names : written_alike D D' B L d P P' t names -> rates_near (boxed B (t :: names)) L d P P' t names.
Proof.
  intros H x Hx. destruct (H x Hx) as (n & n' & a & b & e & M & q & q' & r & r' & W & W' & A & A' & Ab & Ab' & U & U' & N & N' & T & T' & S).
  exists (fun en => expr_value D en e), (fun en => expr_value D' en e).
  assert (V : forall en, expr_value D en (UDiff a (Some b)) = Some (e_der en x t)) by (intros en; cbn [expr_value]; rewrite A, Ab; unfold thing_rate; now rewrite U, N, T).
  assert (V' : forall en, expr_value D' en (UDiff a (Some b)) = Some (e_der en x t)) by (intros en; cbn [expr_value]; rewrite A', Ab'; unfold thing_rate; now rewrite U', N', T').
  split; [|split].
  - apply (rate_of_sides _ (read_eq D n (UElem (UDiff a (Some b)) e))); [exact W|]. intros en. cbn [read_eq wr_value]. now rewrite V.
  - apply (rate_of_sides _ (read_eq D' n' (UElem (UDiff a (Some b)) e))); [exact W'|]. intros en. cbn [read_eq wr_value]. now rewrite V'.
  - intros en en' B1 B2 Et u v Hu Hv. now apply (sways_near _ _ _ _ _ _ _ _ _ S).
Qed.
