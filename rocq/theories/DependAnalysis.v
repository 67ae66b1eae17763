(** How far solutions of nearby differential equations drift apart (used for C89;
    nothing of the project in here). *)
From Verif Require Import UniqueAnalysis.
From Coq Require Import Reals Lra List Lia.
From Coquelicot Require Import Coquelicot.
Import ListNotations.
Open Scope R_scope.

Section Drift.
Context {A : Type} (names : list A) (f g : A -> R -> R) (L delta : R).
Let N : R := INR (length names).
Let dist (s : R) : R := total (fun x => Rsqr (f x s - g x s)) names.

(** The derivatives at [s] differ by at most [delta] and a multiple of the distance. *)
Definition pulled (s : R) : Prop :=
  exists df dg : A -> R, forall x, In x names -> derivable_pt_lim (f x) s (df x) /\ derivable_pt_lim (g x) s (dg x) /\
    Rabs (df x - dg x) <= L * total (fun y => Rabs (f y s - g y s)) names + delta.

Lemma dist_nonneg s : 0 <= dist s.
Proof. apply total_nonneg. intros; apply Rle_0_sqr. Qed.

Lemma dist_slope s : 0 <= L -> 0 <= delta -> pulled s -> exists dd, derivable_pt_lim dist s dd /\
  dd <= 2 * (L * N * dist s + delta * sqrt N * sqrt (dist s)).
Proof.
  intros HL Hd (df & dg & Hx). set (dd := total (fun x => 2 * (f x s - g x s) * (df x - dg x)) names). exists dd. split.
  { apply total_derivable. intros x Ix. destruct (Hx x Ix) as (D1 & D2 & _).
    assert (D3 := derivable_pt_lim_minus _ _ _ _ _ D1 D2).
    assert (D4 := derivable_pt_lim_comp _ Rsqr s _ _ D3 (derivable_pt_lim_Rsqr _)). cbv beta in D4.
    unfold comp, minus_fct in D4. exact D4. }
  set (S := total (fun y => Rabs (f y s - g y s)) names) in *.
  assert (S0 : 0 <= S) by (apply total_nonneg; intros; apply Rabs_pos).
  assert (B1 : dd <= total (fun x => 2 * (L * S + delta) * Rabs (f x s - g x s)) names).
  { apply total_le. intros x Ix. destruct (Hx x Ix) as (_ & _ & B).
    assert (B3 : (f x s - g x s) * (df x - dg x) <= Rabs (f x s - g x s) * Rabs (df x - dg x)) by (rewrite <- Rabs_mult; apply Rle_abs).
    assert (Rabs (f x s - g x s) * Rabs (df x - dg x) <= Rabs (f x s - g x s) * (L * S + delta)) by (apply Rmult_le_compat_l; [apply Rabs_pos|exact B]).
    lra. }
  rewrite total_scal in B1. fold S in B1. assert (C := UniqueAnalysis.cauchy (fun x => f x s - g x s) names). cbv beta in C. fold S N (dist s) in C. unfold Rsqr at 1 in C.
  assert (HN : 0 <= N) by apply pos_INR.
  assert (C2 : S <= sqrt N * sqrt (dist s)).
  { rewrite <- sqrt_mult by (assumption || apply dist_nonneg). rewrite <- (sqrt_square S S0). now apply sqrt_le_1_alt. }
  assert (L * (S * S) <= L * (N * dist s)) by (apply Rmult_le_compat_l; [lra|exact C]).
  assert (delta * S <= delta * (sqrt N * sqrt (dist s))) by (apply Rmult_le_compat_l; [lra|exact C2]). lra.
Qed.

(** With [r] to avoid the kink of the square root at zero. *)
Lemma drift_smooth r a b : 0 < r -> a <= b -> 0 <= L -> 0 <= delta -> (forall s, a <= s <= b -> pulled s) ->
  sqrt (dist b + r * r) <= exp (L * N * (b - a)) * (sqrt (dist a + r * r) + delta * sqrt N * (b - a)).
Proof.
  intros Hr Hab HL Hd H. assert (HN : 0 <= N) by apply pos_INR. set (K := L * N). assert (HK : 0 <= K) by (apply Rmult_le_pos; assumption).
  set (u := fun s => sqrt (dist s + r * r)).
  assert (Pu : forall s, 0 < dist s + r * r) by (intros s; assert (0 < r * r) by (apply Rmult_lt_0_compat; lra); assert (D := dist_nonneg s); lra).
  set (E := fun s => u s * exp (- K * (s - a)) - delta * sqrt N * (s - a)).
  assert (Ef : E b <= E a).
  { apply falls; [exact Hab|]. intros c Hc. destruct (dist_slope c HL Hd (H c Hc)) as (dd & Dd & Bd).
    assert (Up : 0 < u c) by (apply sqrt_lt_R0; apply Pu).
    assert (Du : derivable_pt_lim u c (/ (2 * u c) * dd)).
    { assert (D1 : derivable_pt_lim (fun s => dist s + r * r) c dd).
      { assert (D2 := derivable_pt_lim_plus _ _ _ _ _ Dd (derivable_pt_lim_const (r * r) c)). rewrite Rplus_0_r in D2. exact D2. }
      exact (derivable_pt_lim_comp (fun s => dist s + r * r) sqrt c _ _ D1 (derivable_pt_lim_sqrt _ (Pu c))). }
    assert (Di : derivable_pt_lim (fun s => s - a) c 1).
    { assert (D2 := derivable_pt_lim_minus id (fct_cte a) c 1 0 (derivable_pt_lim_id c) (derivable_pt_lim_const a c)).
      replace (1 - 0) with 1 in D2 by lra. exact D2. }
    assert (De : derivable_pt_lim (fun s => exp (- K * (s - a))) c (exp (- K * (c - a)) * (- K))).
    { assert (D5 := derivable_pt_lim_scal _ (- K) c 1 Di). rewrite Rmult_1_r in D5.
      exact (derivable_pt_lim_comp (fun s => - K * (s - a)) exp c _ _ D5 (derivable_pt_lim_exp _)). }
    assert (D6 := derivable_pt_lim_mult _ _ _ _ _ Du De). assert (D7 := derivable_pt_lim_scal _ (delta * sqrt N) c 1 Di).
    assert (D8 := derivable_pt_lim_minus _ _ _ _ _ D6 D7). eexists. split; [exact D8|].
    assert (Q1 : / (2 * u c) * dd <= K * u c + delta * sqrt N).
    { assert (U2 : u c * u c = dist c + r * r) by (apply sqrt_sqrt; left; apply Pu).
      assert (Sd : sqrt (dist c) <= u c) by (apply sqrt_le_1_alt; assert (0 < r * r) by (apply Rmult_lt_0_compat; lra); lra).
      assert (Sn : 0 <= sqrt N) by apply sqrt_pos. assert (S3 : 0 <= delta * sqrt N) by now apply Rmult_le_pos.
      apply (Rmult_le_reg_l (2 * u c)); [lra|]. rewrite <- Rmult_assoc, Rinv_r, Rmult_1_l by lra.
      assert (K * dist c <= K * (u c * u c)) by (apply Rmult_le_compat_l; [exact HK|rewrite U2; assert (0 < r * r) by (apply Rmult_lt_0_compat; lra); lra]).
      assert (delta * sqrt N * sqrt (dist c) <= delta * sqrt N * u c) by now apply Rmult_le_compat_l.
      unfold K in *. lra. }
    set (e := exp (- K * (c - a))) in *.
    assert (Ep : 0 < e) by apply exp_pos.
    assert (E1 : e <= 1). { unfold e. rewrite <- exp_0. destruct (Req_dec (- K * (c - a)) 0) as [->|Nz]; [lra|]. left. apply exp_increasing. assert (0 <= K * (c - a)) by (apply Rmult_le_pos; lra). lra. }
    assert (S3 : 0 <= delta * sqrt N) by (apply Rmult_le_pos; [exact Hd|apply sqrt_pos]).
    assert (/ (2 * u c) * dd * e <= (K * u c + delta * sqrt N) * e) by (apply Rmult_le_compat_r; lra).
    assert (delta * sqrt N * e <= delta * sqrt N * 1) by now apply Rmult_le_compat_l. lra. }
  unfold E in Ef. replace (a - a) with 0 in Ef by ring. rewrite !Rmult_0_r, exp_0, Rmult_1_r in Ef.
  fold (u a) (u b). replace (K * (b - a)) with (- (- K * (b - a))) by ring.
  rewrite exp_Ropp. apply (Rmult_le_reg_l (exp (- K * (b - a)))); [apply exp_pos|]. rewrite <- Rmult_assoc, Rinv_r, Rmult_1_l by (apply Rgt_not_eq, exp_pos). lra.
Qed.

Lemma drift_total a b : a <= b -> 0 <= L -> 0 <= delta -> (forall s, a <= s <= b -> pulled s) ->
  sqrt (dist b) <= exp (L * N * (b - a)) * (sqrt (dist a) + delta * sqrt N * (b - a)).
Proof.
  intros Hab HL Hd H. set (e := exp (L * N * (b - a))). assert (Ep : 0 < e) by apply exp_pos.
  apply le_epsilon. intros eps He. assert (Hr : 0 < eps / e) by (apply Rdiv_lt_0_compat; assumption).
  assert (Q := drift_smooth (eps / e) a b Hr Hab HL Hd H). fold e in Q.
  assert (S1 : sqrt (dist b) <= sqrt (dist b + eps / e * (eps / e))) by (apply sqrt_le_1_alt; assert (0 < eps / e * (eps / e)) by (apply Rmult_lt_0_compat; assumption); lra).
  assert (S2 : sqrt (dist a + eps / e * (eps / e)) <= sqrt (dist a) + eps / e).
  { assert (D := dist_nonneg a). assert (Sp := sqrt_pos (dist a)). rewrite <- (sqrt_square (sqrt (dist a) + eps / e)) by lra. apply sqrt_le_1_alt.
    assert (Q2 := sqrt_sqrt (dist a) D). assert (0 <= sqrt (dist a) * (eps / e)) by (apply Rmult_le_pos; lra). lra. }
  assert (e * sqrt (dist a + eps / e * (eps / e)) <= e * (sqrt (dist a) + eps / e)) by (apply Rmult_le_compat_l; lra).
  replace (e * (sqrt (dist a) + eps / e)) with (e * sqrt (dist a) + eps) in * by (field; lra). lra.
Qed.

(** Starting [eta] apart in each component. *)
Lemma drift_bound a b eta : a <= b -> 0 <= L -> 0 <= delta -> 0 <= eta -> (forall s, a <= s <= b -> pulled s) ->
  (forall x, In x names -> Rabs (f x a - g x a) <= eta) ->
  forall x, In x names -> Rabs (f x b - g x b) <= sqrt N * exp (L * N * (b - a)) * (eta + delta * (b - a)).
Proof.
  intros Hab HL Hd He H S x Hx. assert (Q := drift_total a b Hab HL Hd H).
  assert (Q1 : Rabs (f x b - g x b) <= sqrt (dist b)).
  { rewrite <- sqrt_Rsqr_abs. apply sqrt_le_1_alt. apply (total_in (fun x => Rsqr (f x b - g x b))); [intros; apply Rle_0_sqr|exact Hx]. }
  assert (Q2 : sqrt (dist a) <= sqrt N * eta).
  { assert (HN : 0 <= N) by apply pos_INR. rewrite <- (sqrt_square eta He), <- sqrt_mult by (try assumption; apply Rle_0_sqr || (apply Rmult_le_pos; assumption)).
    apply sqrt_le_1_alt. apply Rle_trans with (total (fun _ => eta * eta) names).
    - apply total_le. intros y Hy. rewrite (Rsqr_abs (f y a - g y a)). unfold Rsqr. apply Rmult_le_compat; try apply Rabs_pos; now apply S.
    - clear. unfold N. induction names as [|y l IH]; [cbn; lra|]. cbn [length total fold_right]. rewrite S_INR. unfold total in IH. lra. }
  set (e := exp (L * N * (b - a))) in *. assert (Ep : 0 < e) by apply exp_pos.
  assert (e * (sqrt (dist a) + delta * sqrt N * (b - a)) <= e * (sqrt N * eta + delta * sqrt N * (b - a))) by (apply Rmult_le_compat_l; lra). lra.
Qed.
End Drift.

(** The same backwards in time. *)
Lemma drift_back {A} (names : list A) (f g : A -> R -> R) L delta a b eta : a <= b -> 0 <= L -> 0 <= delta -> 0 <= eta ->
  (forall s, a <= s <= b -> pulled names f g L delta s) -> (forall x, In x names -> Rabs (f x b - g x b) <= eta) ->
  forall x, In x names -> Rabs (f x a - g x a) <= sqrt (INR (length names)) * exp (L * INR (length names) * (b - a)) * (eta + delta * (b - a)).
Proof.
  intros Hab HL Hd He H S x Hx.
  assert (Dn : forall (k : R -> R) s l, derivable_pt_lim k (- s) l -> derivable_pt_lim (fun r => k (- r)) s (- l)).
  { intros k s l D. assert (D1 : derivable_pt_lim (fun r => - r) s (-1)).
    { assert (D2 := derivable_pt_lim_opp id s 1 (derivable_pt_lim_id s)). exact D2. }
    assert (D3 := derivable_pt_lim_comp (fun r => - r) k s _ _ D1 D). replace (- l) with (l * -1) by ring. exact D3. }
  assert (Q := drift_bound names (fun x s => f x (- s)) (fun x s => g x (- s)) L delta (- b) (- a) eta ltac:(lra) HL Hd He). cbv beta in Q.
  rewrite !Ropp_involutive in Q. replace (- a - - b) with (b - a) in Q by ring. apply Q; [| |exact Hx].
  - intros s Hs. destruct (H (- s) ltac:(lra)) as (df & dg & D). exists (fun y => - df y), (fun y => - dg y). intros y Hy. destruct (D y Hy) as (D1 & D2 & D3).
    split; [now apply Dn|]. split; [now apply Dn|]. replace (- df y - - dg y) with (- (df y - dg y)) by ring. now rewrite Rabs_Ropp.
  - intros y Hy. now apply S.
Qed.
