(** Differential equations whose right-hand sides are locally Lipschitz have one
    solution (used for C84; nothing of the project in here). *)
From Coq Require Import Reals Lra List Lia Classical_Prop.
From Coquelicot Require Import Coquelicot.
Import ListNotations.
Open Scope R_scope.

(** The sum of [f x] for [x] in a list. *)
Definition total {A} (f : A -> R) (l : list A) : R := fold_right (fun x r => f x + r) 0 l.

Lemma total_nonneg {A} (f : A -> R) l : (forall x, In x l -> 0 <= f x) -> 0 <= total f l.
Proof. induction l as [|x l IH]; intros H; cbn; [lra|]. assert (0 <= f x) by (apply H; now left). assert (0 <= total f l) by (apply IH; intros; apply H; now right). unfold total in *. lra. Qed.
Lemma total_le {A} (f g : A -> R) l : (forall x, In x l -> f x <= g x) -> total f l <= total g l.
Proof. induction l as [|x l IH]; intros H; cbn; [lra|]. assert (f x <= g x) by (apply H; now left). assert (total f l <= total g l) by (apply IH; intros; apply H; now right). unfold total in *. lra. Qed.
Lemma total_ext {A} (f g : A -> R) l : (forall x, In x l -> f x = g x) -> total f l = total g l.
Proof. intros H. apply Rle_antisym; apply total_le; intros x Hx; rewrite (H x Hx); lra. Qed.
Lemma total_scal {A} (f : A -> R) k l : total (fun x => k * f x) l = k * total f l.
Proof. induction l as [|x l IH]; cbn; [lra|]. unfold total in *. rewrite IH. lra. Qed.
Lemma total_in {A} (f : A -> R) l x : (forall y, In y l -> 0 <= f y) -> In x l -> f x <= total f l.
Proof.
  induction l as [|y l IH]; intros H Hx; [destruct Hx|]. cbn. fold (total f l).
  assert (0 <= total f l) by (apply total_nonneg; intros; apply H; now right).
  assert (0 <= f y) by (apply H; now left). destruct Hx as [-> |Hx]; [lra|]. assert (f x <= total f l) by (apply IH; [intros; apply H; now right|exact Hx]). lra.
Qed.
Lemma total_zero {A} (f : A -> R) l : (forall x, In x l -> 0 <= f x) -> total f l <= 0 -> forall x, In x l -> f x = 0.
Proof. intros H Z x Hx. assert (f x <= total f l) by now apply total_in. assert (0 <= f x) by now apply H. lra. Qed.
Lemma young {A} (u : A -> R) l a : 2 * Rabs a * total (fun x => Rabs (u x)) l <= INR (length l) * Rsqr a + total (fun x => Rsqr (u x)) l.
Proof.
  induction l as [|x l IH]; [cbn; lra|]. cbn [length]. rewrite S_INR. cbn [total fold_right].
  fold (total (fun x => Rabs (u x)) l) (total (fun x => Rsqr (u x)) l).
  assert (2 * Rabs a * Rabs (u x) <= Rsqr a + Rsqr (u x)). { rewrite (Rsqr_abs a), (Rsqr_abs (u x)). generalize (Rle_0_sqr (Rabs a - Rabs (u x))). unfold Rsqr. lra. }
  lra.
Qed.
Lemma cauchy {A} (u : A -> R) l : Rsqr (total (fun x => Rabs (u x)) l) <= INR (length l) * total (fun x => Rsqr (u x)) l.
Proof.
  induction l as [|x l IH]; [cbn; unfold Rsqr; lra|]. cbn [length]. rewrite S_INR. cbn [total fold_right].
  fold (total (fun x => Rabs (u x)) l) (total (fun x => Rsqr (u x)) l). assert (Y := young u l (u x)). assert (Q := Rsqr_abs (u x)). unfold Rsqr in *. lra.
Qed.

(** A function whose derivatives are not positive does not grow. *)
Lemma falls (E : R -> R) a b : a <= b -> (forall c, a <= c <= b -> exists l, derivable_pt_lim E c l /\ l <= 0) -> E b <= E a.
Proof.
  intros [Hab| ->] H; [|lra].
  assert (D : forall c, a <= c <= b -> derivable_pt_lim E c (Derive E c) /\ Derive E c <= 0).
  { intros c Hc. destruct (H c Hc) as (l & Hl & Ll). assert (Q : Derive E c = l) by (apply is_derive_unique; now apply is_derive_Reals). rewrite Q. auto. }
  destruct (MVT_cor2 E (Derive E) a b Hab (fun c Hc => proj1 (D c Hc))) as (c & Hc & Ic).
  assert (Q := proj2 (D c ltac:(lra))). assert (Derive E c * (b - a) <= 0) by nra. lra.
Qed.

Lemma total_derivable {A} (f : A -> R -> R) (d : A -> R) l tau : (forall x, In x l -> derivable_pt_lim (f x) tau (d x)) ->
  derivable_pt_lim (fun s => total (fun x => f x s) l) tau (total d l).
Proof.
  induction l as [|x l IH]; intros H; cbn [total fold_right]; [apply (derivable_pt_lim_const 0)|].
  apply (derivable_pt_lim_plus (f x) (fun s => total (fun x => f x s) l)); [apply H; now left|]. apply IH. intros; apply H; now right.
Qed.

Section Unique.
Context {A : Type} (names : list A) (f g : A -> R -> R).

(** Near [s] (within [a, b]) the derivatives of [f] and [g] exist and differ by at most a
    multiple of the distance. *)
Definition tied (a b s : R) : Prop :=
  exists delta L, 0 < delta /\ forall tau, a <= tau <= b -> Rabs (tau - s) < delta -> exists df dg : A -> R, forall x, In x names ->
    derivable_pt_lim (f x) tau (df x) /\ derivable_pt_lim (g x) tau (dg x) /\
    Rabs (df x - dg x) <= L * total (fun y => Rabs (f y tau - g y tau)) names.

Let dist (s : R) : R := total (fun x => Rsqr (f x s - g x s)) names.

Lemma dist_zero s : dist s <= 0 -> forall x, In x names -> f x s = g x s.
Proof. intros H x Hx. assert (Q := total_zero _ names (fun x _ => Rle_0_sqr (f x s - g x s)) H x Hx). cbn in Q. apply Rsqr_0_uniq in Q. lra. Qed.

(** From equal states, equal states for a while. *)
Lemma locally_equal a b s : a <= s < b -> tied a b s -> (forall x, In x names -> f x s = g x s) ->
  exists e, s < e <= b /\ forall tau, s <= tau <= e -> forall x, In x names -> f x tau = g x tau.
Proof.
  intros Hs (delta & L0 & Hd & H) Eq. set (L := Rmax L0 0). set (N := INR (length names)). set (K := 2 * L * N).
  assert (HL : 0 <= L) by apply Rmax_r. assert (HN : 0 <= N) by apply pos_INR.
  exists (Rmin b (s + delta / 2)). split; [split; [apply Rmin_glb_lt; lra|apply Rmin_l]|].
  intros tau Ht. apply dist_zero. set (E := fun r => dist r * exp (- K * r)).
  assert (Hm := Rmin_l b (s + delta / 2)). assert (Hm' := Rmin_r b (s + delta / 2)).
  assert (Ef : E tau <= E s).
  { apply falls; [lra|]. intros c Hc. destruct (H c) as (df & dg & Hx); [lra|apply Rabs_def1; lra|].
    set (dd := total (fun x => 2 * (f x c - g x c) * (df x - dg x)) names).
    assert (Dd : derivable_pt_lim dist c dd).
    { apply total_derivable. intros x Ix. destruct (Hx x Ix) as (D1 & D2 & _).
      assert (D3 := derivable_pt_lim_minus _ _ _ _ _ D1 D2).
      assert (D4 := derivable_pt_lim_comp _ Rsqr c _ _ D3 (derivable_pt_lim_Rsqr _)). cbv beta in D4.
      unfold comp, minus_fct in D4. exact D4. }
    assert (De : derivable_pt_lim (fun r => exp (- K * r)) c (exp (- K * c) * (- K))).
    { assert (D5 : derivable_pt_lim (fun r => - K * r) c (- K)).
      { assert (D6 := derivable_pt_lim_scal id (- K) c 1 (derivable_pt_lim_id c)). rewrite Rmult_1_r in D6. exact D6. }
      exact (derivable_pt_lim_comp (fun r => - K * r) exp c _ _ D5 (derivable_pt_lim_exp (- K * c))). }
    assert (DE := derivable_pt_lim_mult _ _ _ _ _ Dd De). eexists. split; [exact DE|].
    assert (Bd : dd <= K * dist c).
    { set (S := total (fun y => Rabs (f y c - g y c)) names).
      assert (S0 : 0 <= S) by (apply total_nonneg; intros; apply Rabs_pos).
      assert (B1 : dd <= total (fun x => 2 * L * S * Rabs (f x c - g x c)) names).
      { apply total_le. intros x Ix. destruct (Hx x Ix) as (_ & _ & B). fold S in B.
        assert (B2 : Rabs (df x - dg x) <= L * S). { assert (L0 <= L) by apply Rmax_l. nra. }
        assert (B3 : (f x c - g x c) * (df x - dg x) <= Rabs (f x c - g x c) * Rabs (df x - dg x)) by (rewrite <- Rabs_mult; apply Rle_abs).
        assert (Rabs (f x c - g x c) * Rabs (df x - dg x) <= Rabs (f x c - g x c) * (L * S)) by (apply Rmult_le_compat_l; [apply Rabs_pos|exact B2]).
        lra. }
      rewrite total_scal in B1. fold S in B1. assert (C := cauchy (fun x => f x c - g x c) names). fold S N in C. cbv beta in C. fold (dist c) in C.
      assert (2 * L * (S * S) <= 2 * L * (N * dist c)) by (apply Rmult_le_compat_l; [lra|exact C]). unfold K. lra. }
    assert (Ep := exp_pos (- K * c)). nra. }
  assert (E0 : E s = 0). { unfold E, dist. rewrite (total_ext _ (fun _ => 0)); [|intros x Hx; rewrite (Eq x Hx); unfold Rsqr; lra].
    clear. replace (total (fun _ : A => 0) names) with 0; [lra|]. induction names as [|y l IH]; cbn; [reflexivity|]. unfold total in IH. lra. }
  rewrite E0 in Ef. unfold E in Ef. assert (Ep := exp_pos (- K * tau)). apply Rnot_lt_le. intros C. assert (0 < dist tau * exp (- K * tau)) by now apply Rmult_lt_0_compat. lra.
Qed.

(** Equal at the start, equal at the end. *)
Lemma equal_to_end a b : a <= b -> (forall s x, a <= s <= b -> In x names -> exists df dg, derivable_pt_lim (f x) s df /\ derivable_pt_lim (g x) s dg) ->
  (forall s, a <= s <= b -> (forall x, In x names -> f x s = g x s) -> tied a b s) -> (forall x, In x names -> f x a = g x a) ->
  forall tau, a <= tau <= b -> forall x, In x names -> f x tau = g x tau.
Proof.
  intros Hab Dv T Ea. set (same := fun s => a <= s <= b /\ forall tau, a <= tau <= s -> forall x, In x names -> f x tau = g x tau).
  assert (B : bound same) by (exists b; intros s (Hs & _); lra).
  assert (Sa : same a). { split; [lra|]. intros tau Ht x Hx. replace tau with a by lra. now apply Ea. }
  destruct (completeness same B (ex_intro _ a Sa)) as (m & Um & Lm).
  assert (Am : a <= m) by now apply Um. assert (Mb : m <= b) by (apply Lm; intros s (Hs & _); lra).
  assert (Below : forall tau, a <= tau < m -> forall x, In x names -> f x tau = g x tau).
  { intros tau Ht. assert (Q : exists s, same s /\ tau < s).
    { apply NNPP. intros N. assert (m <= tau); [|lra]. apply Lm. intros s Hs. apply Rnot_lt_le. intros C. apply N. eauto. }
    destruct Q as (s & (_ & Hs) & C). apply Hs. lra. }
  assert (At : forall x, In x names -> f x m = g x m).
  { intros x Hx. destruct (Rle_lt_or_eq_dec a m Am) as [Lt| <-]; [|now apply Ea].
    destruct (Dv m x ltac:(lra) Hx) as (df & dg & D1 & D2). assert (Cd := derivable_pt_lim_minus _ _ _ _ _ D1 D2).
    set (u := minus_fct (f x) (g x)) in *.
    assert (Cu : continuity_pt u m) by (apply derivable_continuous_pt; now exists (df - dg)).
    apply NNPP. intros N. assert (Nu : 0 < Rabs (u m)) by (apply Rabs_pos_lt; unfold u, minus_fct; lra).
    destruct (Cu (Rabs (u m)) Nu) as (al & Hal & Q). set (r := Rmax a (m - al / 2)).
    assert (Rr : a <= r < m) by (unfold r; split; [apply Rmax_l|apply Rmax_lub_lt; lra]).
    assert (Rr' : m - al / 2 <= r) by apply Rmax_r.
    assert (U0 : u r = 0) by (unfold u, minus_fct; rewrite (Below r Rr x Hx); lra).
    specialize (Q r). cbn in Q. unfold R_dist in Q. rewrite U0 in Q. replace (0 - u m) with (- u m) in Q by ring. rewrite Rabs_Ropp in Q.
    assert (Rabs (u m) < Rabs (u m)); [|lra]. apply Q. split; [split; [exact I|lra]|]. rewrite Rabs_minus_sym, Rabs_right; lra. }
  assert (Em : m = b).
  { apply NNPP. intros N. destruct (locally_equal a b m ltac:(lra) (T m ltac:(lra) At) At) as (e & He & Q).
    assert (same e); [|assert (e <= m) by (now apply Um); lra]. split; [lra|]. intros tau Ht x Hx.
    destruct (Rlt_le_dec tau m); [apply Below; auto; lra|apply Q; auto; lra]. }
  intros tau Ht x Hx. destruct (Req_dec tau m) as [-> |]; [now apply At|]. apply Below; [lra|exact Hx].
Qed.
End Unique.

(** The same backwards in time. *)
Lemma equal_to_start {A} (names : list A) (f g : A -> R -> R) a b : a <= b ->
  (forall s x, a <= s <= b -> In x names -> exists df dg, derivable_pt_lim (f x) s df /\ derivable_pt_lim (g x) s dg) ->
  (forall s, a <= s <= b -> (forall x, In x names -> f x s = g x s) -> tied names f g a b s) ->
  (forall x, In x names -> f x b = g x b) -> forall tau, a <= tau <= b -> forall x, In x names -> f x tau = g x tau.
Proof.
  intros Hab Dv T Eb tau Ht x Hx.
  assert (Dn : forall (k : R -> R) s l, derivable_pt_lim k (- s) l -> derivable_pt_lim (fun r => k (- r)) s (- l)).
  { intros k s l D. assert (D1 : derivable_pt_lim (fun r => - r) s (-1)).
    { assert (D2 := derivable_pt_lim_opp id s 1 (derivable_pt_lim_id s)). exact D2. }
    assert (D3 := derivable_pt_lim_comp (fun r => - r) k s _ _ D1 D). replace (- l) with (l * -1) by ring. exact D3. }
  assert (Q := equal_to_end names (fun x s => f x (- s)) (fun x s => g x (- s)) (- b) (- a)). cbv beta in Q.
  replace (f x tau) with (f x (- - tau)) by (f_equal; ring). replace (g x tau) with (g x (- - tau)) by (f_equal; ring).
  apply Q; [lra| | |intros y Hy; rewrite Ropp_involutive; now apply Eb|lra|exact Hx].
  - intros s y Hs Hy. destruct (Dv (- s) y ltac:(lra) Hy) as (df & dg & D1 & D2). exists (- df), (- dg). split; now apply Dn.
  - intros s Hs Es. destruct (T (- s) ltac:(lra) Es) as (delta & L & Hd & H). exists delta, L. split; [exact Hd|].
    intros r Hr Dr. destruct (H (- r) ltac:(lra)) as (df & dg & D). { replace (- r - - s) with (- (r - s)) by ring. now rewrite Rabs_Ropp. }
    exists (fun y => - df y), (fun y => - dg y). intros y Hy. destruct (D y Hy) as (D1 & D2 & D3).
    split; [now apply Dn|]. split; [now apply Dn|]. replace (- df y - - dg y) with (- (df y - dg y)) by ring. now rewrite Rabs_Ropp.
Qed.
