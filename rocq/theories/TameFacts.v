(** Proofs about values that change at most in proportion to the quantities (C84). *)
From Verif Require Import Base BaseFacts Num UnitModel Sympy Node Build EquationModel ModelModel ProblemModel SpecExpr SpecProblem SolverModel SpecSolver SpecWritten SpecExact
  SpecLink SpecSaid SpecInit RunModel SpecRun SpecUnique.
From Coq Require Import Reals Lra Lia.
Notation num := Verif.Num.num.
Open Scope R_scope.

Lemma less_self (x : R) : x - x = 0.
Proof. ring. Qed.

(** As [steady], for all of [ns] at once. *)
Definition tame (ns : list string) (g : env -> option R) : Prop :=
  forall en0 c, g en0 = Some c -> exists delta L, 0 < delta /\ 0 <= L /\ forall en en',
    near delta ns en0 en -> near delta ns en0 en' -> forall a b, g en = Some a -> g en' = Some b -> Rabs (a - b) <= L * gap ns en en'.

Lemma gap_nonneg ns en en' : 0 <= gap ns en en'.
Proof. induction ns as [|x ns IH]; cbn; [lra|]. assert (Q := Rabs_pos (e_sym en x - e_sym en' x)). unfold gap in IH. lra. Qed.
Lemma gap_in ns en en' x : In x ns -> Rabs (e_sym en x - e_sym en' x) <= gap ns en en'.
Proof.
  induction ns as [|y ns IH]; intros H; [destruct H|]. cbn. fold (gap ns en en'). assert (G := gap_nonneg ns en en'). destruct H as [->|H]; [lra|].
  assert (Q := Rabs_pos (e_sym en y - e_sym en' y)). specialize (IH H). lra.
Qed.
Lemma gap_near ns delta en0 en : near delta ns en0 en -> gap ns en en0 <= INR (List.length ns) * delta.
Proof.
  induction ns as [|y ns IH]; intros H; [cbn; lra|]. cbn [List.length]. rewrite S_INR. cbn [gap fold_right]. fold (gap ns en en0).
  assert (gap ns en en0 <= INR (List.length ns) * delta) by (apply IH; intros x Hx; apply H; now right).
  assert (Rabs (e_sym en y - e_sym en0 y) < delta) by (apply H; now left). lra.
Qed.
Lemma near_self delta ns en : 0 < delta -> near delta ns en en.
Proof. intros H x _. rewrite less_self. now rewrite Rabs_R0. Qed.
Lemma near_less d d' ns en0 en : d <= d' -> near d ns en0 en -> near d' ns en0 en.
Proof. intros H N x Hx. specialize (N x Hx). lra. Qed.

Lemma tame_steady t names g : tame (t :: names) g -> steady t names g.
Proof.
  intros T en0 c Hc. destruct (T en0 c Hc) as (d & L & Hd & HL & H). exists d, L. split; [exact Hd|].
  intros en en' N N' Et a b Ha Hb. specialize (H en en' N N' a b Ha Hb). cbn [gap fold_right] in H. fold (gap names en en') in H.
  rewrite Et, less_self, Rabs_R0, Rplus_0_l in H. exact H.
Qed.
Lemma tame_ext ns g g' : (forall en, g en = g' en) -> tame ns g -> tame ns g'.
Proof. intros E T en0 c Hc. rewrite <- E in Hc. destruct (T en0 c Hc) as (d & L & Hd & HL & H). exists d, L. do 2 (split; [assumption|]). intros en en' N N' a b Ha Hb. apply (H en en' N N'); now rewrite E. Qed.

Lemma tame_close ns g en0 c eta : tame ns g -> g en0 = Some c -> 0 < eta -> exists delta, 0 < delta /\ forall en, near delta ns en0 en -> forall a, g en = Some a -> Rabs (a - c) < eta.
Proof.
  intros T Hc He. destruct (T en0 c Hc) as (d & L & Hd & HL & H). assert (Hn := pos_INR (List.length ns)). set (n := INR (List.length ns)) in *.
  assert (Hp : 0 < L * n + 1) by (assert (0 <= L * n) by (now apply Rmult_le_pos); lra).
  set (d' := Rmin d (eta / (2 * (L * n + 1)))).
  assert (D' : 0 < d') by (apply Rmin_glb_lt; [exact Hd|apply Rdiv_lt_0_compat; lra]).
  exists d'. split; [exact D'|]. intros en N a Ha.
  assert (Q := H en en0 (near_less _ _ _ _ _ (Rmin_l _ _) N) (near_self _ _ _ Hd) a c Ha Hc).
  assert (G := gap_near _ _ _ _ N). fold n in G.
  assert (B : L * gap ns en en0 <= L * (n * d')) by (apply Rmult_le_compat_l; assumption).
  assert (d' * (2 * (L * n + 1)) <= eta).
  { assert (M := Rmin_r d (eta / (2 * (L * n + 1)))). fold d' in M. apply (Rmult_le_compat_r (2 * (L * n + 1))) in M; [|lra].
    unfold Rdiv in M. rewrite Rmult_assoc, Rinv_l in M by lra. lra. }
  nra.
Qed.

(** A function of two values that changes, near every point where it is defined, at
    most in proportion. *)
Definition soft2 (phi : R -> R -> option R) : Prop :=
  forall c1 c2 v, phi c1 c2 = Some v -> exists eta M, 0 < eta /\ 0 <= M /\ forall a1 a2 b1 b2,
    Rabs (a1 - c1) < eta -> Rabs (a2 - c2) < eta -> Rabs (b1 - c1) < eta -> Rabs (b2 - c2) < eta ->
    forall u w, phi a1 a2 = Some u -> phi b1 b2 = Some w -> Rabs (u - w) <= M * (Rabs (a1 - b1) + Rabs (a2 - b2)).
Definition soft (phi : R -> option R) : Prop := soft2 (fun x _ => phi x).

Definition both (phi : R -> R -> option R) (a b : option R) : option R := match a, b with Some x, Some y => phi x y | _, _ => None end.
Definition one (phi : R -> option R) (a : option R) : option R := match a with Some x => phi x | None => None end.

Lemma tame_both ns phi f g : soft2 phi -> tame ns f -> tame ns g -> tame ns (fun en => both phi (f en) (g en)).
Proof.
  intros S F G en0 v Hv. unfold both in Hv. destruct (f en0) as [c1|] eqn:E1; [|discriminate]. destruct (g en0) as [c2|] eqn:E2; [|discriminate].
  destruct (S c1 c2 v Hv) as (eta & M & He & HM & H).
  destruct (tame_close ns f en0 c1 eta F E1 He) as (d1 & D1 & N1). destruct (tame_close ns g en0 c2 eta G E2 He) as (d2 & D2 & N2).
  destruct (F en0 c1 E1) as (d3 & L1 & D3 & P1 & H1). destruct (G en0 c2 E2) as (d4 & L2 & D4 & P2 & H2).
  set (d := Rmin (Rmin d1 d2) (Rmin d3 d4)).
  assert (Bd : d <= d1 /\ d <= d2 /\ d <= d3 /\ d <= d4).
  { unfold d. assert (A1 := Rmin_l (Rmin d1 d2) (Rmin d3 d4)). assert (A2 := Rmin_r (Rmin d1 d2) (Rmin d3 d4)).
    assert (A3 := Rmin_l d1 d2). assert (A4 := Rmin_r d1 d2). assert (A5 := Rmin_l d3 d4). assert (A6 := Rmin_r d3 d4). lra. }
  destruct Bd as (B1 & B2 & B3 & B4).
  exists d, (M * (L1 + L2)). split; [unfold d; repeat apply Rmin_glb_lt; assumption|]. split; [apply Rmult_le_pos; lra|].
  intros en en' N N' a b Ha Hb. unfold both in Ha, Hb.
  destruct (f en) as [a1|] eqn:A1; [|discriminate]. destruct (g en) as [a2|] eqn:A2; [|discriminate].
  destruct (f en') as [b1|] eqn:A3; [|discriminate]. destruct (g en') as [b2|] eqn:A4; [|discriminate].
  assert (Q := H a1 a2 b1 b2 (N1 en (near_less _ _ _ _ _ B1 N) a1 A1) (N2 en (near_less _ _ _ _ _ B2 N) a2 A2)
    (N1 en' (near_less _ _ _ _ _ B1 N') b1 A3) (N2 en' (near_less _ _ _ _ _ B2 N') b2 A4) a b Ha Hb).
  assert (Q1 := H1 en en' (near_less _ _ _ _ _ B3 N) (near_less _ _ _ _ _ B3 N') a1 b1 A1 A3).
  assert (Q2 := H2 en en' (near_less _ _ _ _ _ B4 N) (near_less _ _ _ _ _ B4 N') a2 b2 A2 A4).
  assert (M * (Rabs (a1 - b1) + Rabs (a2 - b2)) <= M * (L1 * gap ns en en' + L2 * gap ns en en')) by (apply Rmult_le_compat_l; lra). lra.
Qed.
Lemma tame_one ns phi f : soft phi -> tame ns f -> tame ns (fun en => one phi (f en)).
Proof.
  intros S F. apply (tame_ext ns (fun en => both (fun x _ => phi x) (f en) (f en))); [intros en; unfold both, one; now destruct (f en)|]. now apply tame_both.
Qed.
Lemma tame_const ns (k : option R) : tame ns (fun _ => k).
Proof.
  intros en0 c Hc. exists 1, 0. split; [lra|]. split; [lra|]. intros en en' _ _ a b Ha Hb. rewrite Ha in Hb. injection Hb as <-.
  rewrite less_self, Rabs_R0. lra.
Qed.
Lemma tame_sym ns x : In x ns -> tame ns (fun en => Some (e_sym en x)).
Proof.
  intros Hx en0 c Hc. exists 1, 1. split; [lra|]. split; [lra|]. intros en en' _ _ a b Ha Hb. injection Ha as <-. injection Hb as <-.
  rewrite Rmult_1_l. now apply gap_in.
Qed.

(** ** Functions *)
Lemma soft_lip (phi : R -> R) M : 0 <= M -> (forall a b, Rabs (phi a - phi b) <= M * Rabs (a - b)) -> soft (fun x => Some (phi x)).
Proof.
  intros HM H c1 c2 v _. exists 1, M. split; [lra|]. split; [exact HM|]. intros a1 a2 b1 b2 _ _ _ _ u w Hu Hw. injection Hu as <-. injection Hw as <-.
  assert (Q := H a1 b1). assert (Z := Rabs_pos (a2 - b2)). assert (M * Rabs (a1 - b1) <= M * (Rabs (a1 - b1) + Rabs (a2 - b2))) by (apply Rmult_le_compat_l; lra). lra.
Qed.
Lemma mean_lip (phi dphi : R -> R) lo hi M : (forall x, lo <= x <= hi -> derivable_pt_lim phi x (dphi x) /\ Rabs (dphi x) <= M) ->
  forall a b, lo <= a <= hi -> lo <= b <= hi -> Rabs (phi a - phi b) <= M * Rabs (a - b).
Proof.
  intros H.
  assert (K : forall a b, lo <= a -> a < b -> b <= hi -> Rabs (phi b - phi a) <= M * Rabs (b - a)).
  { intros a b La Lab Lb. destruct (MVT_cor2 phi dphi a b Lab (fun c Hc => proj1 (H c ltac:(lra)))) as (c & E & Hc).
    rewrite E, Rabs_mult. apply Rmult_le_compat_r; [apply Rabs_pos|]. apply H. lra. }
  intros a b Ha Hb. destruct (Rtotal_order a b) as [L|[->|L]].
  - rewrite Rabs_minus_sym, (Rabs_minus_sym a b). apply K; lra.
  - rewrite !less_self, Rabs_R0. lra.
  - apply K; lra.
Qed.
(** Functions with a bounded derivative around each point of their domain. *)
Lemma soft_smooth (phi : R -> option R) (f df : R -> R) :
  (forall x v, phi x = Some v -> v = f x) ->
  (forall c v, phi c = Some v -> exists eta M, 0 < eta /\ forall x, Rabs (x - c) <= eta -> derivable_pt_lim f x (df x) /\ Rabs (df x) <= M) -> soft phi.
Proof.
  intros Hf H c1 c2 v Hv. destruct (H c1 v Hv) as (eta & M & He & Hd). exists eta, M. split; [exact He|].
  split. { destruct (Hd c1) as [_ B]; [rewrite less_self, Rabs_R0; lra|]. assert (Q := Rabs_pos (df c1)). lra. }
  intros a1 a2 b1 b2 A1 _ B1 _ u w Hu Hw. apply Hf in Hu. apply Hf in Hw. subst u w.
  assert (Q : Rabs (f a1 - f b1) <= M * Rabs (a1 - b1)).
  { apply (mean_lip f df (c1 - eta) (c1 + eta) M); [intros x Hx; apply Hd; apply Rabs_le; lra| |].
    - apply Rabs_def2 in A1. lra.
    - apply Rabs_def2 in B1. lra. }
  assert (Z := Rabs_pos (a2 - b2)). assert (Y := Rabs_pos (a1 - b1)).
  assert (HM : 0 <= M). { destruct (Hd c1) as [_ B]; [rewrite less_self, Rabs_R0; lra|]. assert (X := Rabs_pos (df c1)). lra. }
  assert (M * Rabs (a1 - b1) <= M * (Rabs (a1 - b1) + Rabs (a2 - b2))) by (apply Rmult_le_compat_l; lra). lra.
Qed.

Lemma soft_add : soft2 (fun x y => Some (x + y)).
Proof.
  intros c1 c2 v _. exists 1, 1. split; [lra|]. split; [lra|]. intros a1 a2 b1 b2 _ _ _ _ u w Hu Hw. injection Hu as <-. injection Hw as <-.
  replace (a1 + a2 - (b1 + b2)) with ((a1 - b1) + (a2 - b2)) by ring. assert (Q := Rabs_triang (a1 - b1) (a2 - b2)). lra.
Qed.
Lemma soft_sub : soft2 (fun x y => Some (x - y)).
Proof.
  intros c1 c2 v _. exists 1, 1. split; [lra|]. split; [lra|]. intros a1 a2 b1 b2 _ _ _ _ u w Hu Hw. injection Hu as <-. injection Hw as <-.
  replace (a1 - a2 - (b1 - b2)) with ((a1 - b1) + - (a2 - b2)) by ring. assert (Q := Rabs_triang (a1 - b1) (- (a2 - b2))). rewrite Rabs_Ropp in Q. lra.
Qed.
Lemma soft_mul : soft2 (fun x y => Some (x * y)).
Proof.
  intros c1 c2 v _. exists 1, (Rabs c1 + Rabs c2 + 1). assert (P1 := Rabs_pos c1). assert (P2 := Rabs_pos c2). split; [lra|]. split; [lra|].
  intros a1 a2 b1 b2 A1 _ _ B2 u w Hu Hw. injection Hu as <-. injection Hw as <-.
  replace (a1 * a2 - b1 * b2) with (a1 * (a2 - b2) + b2 * (a1 - b1)) by ring.
  assert (T := Rabs_triang (a1 * (a2 - b2)) (b2 * (a1 - b1))). rewrite !Rabs_mult in T.
  assert (N1 : Rabs a1 <= Rabs c1 + 1). { assert (Q := Rabs_triang_inv a1 c1). lra. }
  assert (N2 : Rabs b2 <= Rabs c2 + 1). { assert (Q := Rabs_triang_inv b2 c2). lra. }
  assert (Z1 := Rabs_pos (a1 - b1)). assert (Z2 := Rabs_pos (a2 - b2)).
  assert (Rabs a1 * Rabs (a2 - b2) <= (Rabs c1 + Rabs c2 + 1) * Rabs (a2 - b2)) by (apply Rmult_le_compat_r; lra).
  assert (Rabs b2 * Rabs (a1 - b1) <= (Rabs c1 + Rabs c2 + 1) * Rabs (a1 - b1)) by (apply Rmult_le_compat_r; lra). lra.
Qed.
Definition inverse (x : R) : option R := if Req_EM_T x 0 then None else Some (/ x).
Lemma soft_inv : soft inverse.
Proof.
  intros c1 c2 v Hv. unfold inverse in *. destruct (Req_EM_T c1 0) as [|Nz]; [discriminate|]. assert (Pc : 0 < Rabs c1) by now apply Rabs_pos_lt.
  exists (Rabs c1 / 2), (4 / (Rabs c1 * Rabs c1)). split; [lra|]. assert (Pq : 0 < Rabs c1 * Rabs c1) by now apply Rmult_lt_0_compat.
  assert (Pk : 0 < 4 / (Rabs c1 * Rabs c1)) by (apply Rdiv_lt_0_compat; lra). split; [lra|].
  intros a1 a2 b1 b2 A1 _ B1 _ u w Hu Hw. destruct (Req_EM_T a1 0) as [|Na]; [discriminate|]. destruct (Req_EM_T b1 0) as [|Nb]; [discriminate|].
  injection Hu as <-. injection Hw as <-. replace (/ a1 - / b1) with ((b1 - a1) * / (a1 * b1)) by (field; auto).
  rewrite Rabs_mult, (Rabs_minus_sym b1 a1).
  assert (La : Rabs c1 / 2 <= Rabs a1). { assert (Q := Rabs_triang_inv c1 a1). rewrite Rabs_minus_sym in Q. lra. }
  assert (Lb : Rabs c1 / 2 <= Rabs b1). { assert (Q := Rabs_triang_inv c1 b1). rewrite Rabs_minus_sym in Q. lra. }
  assert (Li : Rabs (/ (a1 * b1)) <= 4 / (Rabs c1 * Rabs c1)).
  { rewrite Rabs_inv, Rabs_mult. assert (P : Rabs c1 * Rabs c1 / 4 <= Rabs a1 * Rabs b1).
    { replace (Rabs c1 * Rabs c1 / 4) with ((Rabs c1 / 2) * (Rabs c1 / 2)) by field. apply Rmult_le_compat; lra. }
    replace (4 / (Rabs c1 * Rabs c1)) with (/ (Rabs c1 * Rabs c1 / 4)) by (field; lra). apply Rinv_le_contravar; [lra|exact P]. }
  assert (Z1 := Rabs_pos (a1 - b1)). assert (Z2 := Rabs_pos (a2 - b2)).
  assert (Rabs (a1 - b1) * Rabs (/ (a1 * b1)) <= Rabs (a1 - b1) * (4 / (Rabs c1 * Rabs c1))) by (apply Rmult_le_compat_l; assumption).
  assert (0 <= 4 / (Rabs c1 * Rabs c1) * Rabs (a2 - b2)) by (apply Rmult_le_pos; lra). lra.
Qed.
Lemma soft_abs : soft (fun x => Some (Rabs x)).
Proof. apply (soft_lip Rabs 1); [lra|]. intros a b. rewrite Rmult_1_l. apply Rabs_triang_inv2. Qed.
Lemma soft_exp : soft (fun x => Some (exp x)).
Proof.
  apply (soft_smooth _ exp exp); [intros x v E; now injection E|]. intros c v _. exists 1, (exp (c + 1)). split; [lra|].
  intros x Hx. split; [apply derivable_pt_lim_exp|]. rewrite Rabs_right by (left; apply exp_pos). assert (Q := Rle_abs (x - c)).
  destruct (Rle_lt_or_eq_dec x (c + 1) ltac:(lra)) as [L| ->]; [left; now apply exp_increasing|lra].
Qed.
Lemma soft_sin : soft (fun x => Some (sin x)).
Proof.
  apply (soft_smooth _ sin cos); [intros x v E; now injection E|]. intros c v _. exists 1, 1. split; [lra|].
  intros x _. split; [apply derivable_pt_lim_sin|]. apply Rabs_le. assert (Q := COS_bound x). lra.
Qed.
Lemma soft_cos : soft (fun x => Some (cos x)).
Proof.
  apply (soft_smooth _ cos (fun x => - sin x)); [intros x v E; now injection E|]. intros c v _. exists 1, 1. split; [lra|].
  intros x _. split; [apply derivable_pt_lim_cos|]. rewrite Rabs_Ropp. apply Rabs_le. assert (Q := SIN_bound x). lra.
Qed.
Lemma soft_ln : soft (fun x => if Rlt_dec 0 x then Some (ln x) else None).
Proof.
  apply (soft_smooth _ ln Rinv); [intros x v E; destruct (Rlt_dec 0 x); [now injection E|discriminate]|]. intros c v E. destruct (Rlt_dec 0 c) as [P|]; [|discriminate].
  exists (c / 2), (2 / c). split; [lra|]. intros x Hx. assert (Q : c / 2 <= x) by (assert (Z := Rle_abs (- (x - c))); rewrite Rabs_Ropp in Z; lra).
  split; [apply derivable_pt_lim_ln; lra|]. rewrite Rabs_right by (left; apply Rinv_0_lt_compat; lra).
  replace (2 / c) with (/ (c / 2)) by (field; lra). apply Rinv_le_contravar; lra.
Qed.
Lemma soft_pick mx : soft2 (fun x y => Some (pick mx x y)).
Proof.
  intros c1 c2 v _. exists 1, 1. split; [lra|]. split; [lra|]. intros a1 a2 b1 b2 _ _ _ _ u w Hu Hw. injection Hu as <-. injection Hw as <-. rewrite Rmult_1_l.
  unfold pick. destruct mx; unfold Rmax, Rmin; destruct (Rle_dec a1 a2), (Rle_dec b1 b2); apply Rabs_le;
    assert (X1 := Rle_abs (a1 - b1)); assert (X2 := Rle_abs (a2 - b2)); assert (X3 := Rle_abs (- (a1 - b1))); assert (X4 := Rle_abs (- (a2 - b2)));
    rewrite Rabs_Ropp in X3, X4; assert (X5 := Rabs_pos (a1 - b1)); assert (X6 := Rabs_pos (a2 - b2)); lra.
Qed.

(** ** Arithmetic *)
Lemma tame_arith ns o f g : o <> BPow -> tame ns f -> tame ns g -> tame ns (fun en => arith o (f en) (g en)).
Proof.
  intros No F G. destruct o.
  - apply (tame_ext ns (fun en => both (fun x y => Some (x + y)) (f en) (g en))); [intros; unfold both, arith; now destruct (f en), (g en)|now apply tame_both; [apply soft_add| |]].
  - apply (tame_ext ns (fun en => both (fun x y => Some (x - y)) (f en) (g en))); [intros; unfold both, arith; now destruct (f en), (g en)|now apply tame_both; [apply soft_sub| |]].
  - apply (tame_ext ns (fun en => both (fun x y => Some (x * y)) (f en) (g en))); [intros; unfold both, arith; now destruct (f en), (g en)|now apply tame_both; [apply soft_mul| |]].
  - apply (tame_ext ns (fun en => both (fun x y => Some (x * y)) (f en) (one inverse (g en)))).
    + intros; unfold both, one, inverse, arith. destruct (f en), (g en) as [y|]; try reflexivity. now destruct (Req_EM_T y 0).
    + apply tame_both; [apply soft_mul|exact F|]. apply tame_one; [apply soft_inv|exact G].
  - now destruct No.
Qed.

Lemma tame_pow_nat ns f n : tame ns f -> tame ns (fun en => option_map (fun x => x ^ n) (f en)).
Proof.
  intros F. induction n as [|n IH].
  - apply (tame_ext ns (fun en => one (fun _ => Some 1) (f en))); [intros; now destruct (f en)|]. apply tame_one; [|exact F].
    apply (soft_lip (fun _ => 1) 0); [lra|]. intros a b. rewrite less_self, Rabs_R0. lra.
  - apply (tame_ext ns (fun en => both (fun x y => Some (x * y)) (f en) (option_map (fun x => x ^ n) (f en)))); [intros; now destruct (f en)|].
    now apply tame_both; [apply soft_mul| |].
Qed.
Lemma int_part_IZR z : Int_part (IZR z) = z.
Proof. unfold Int_part. rewrite <- (tech_up (IZR z) (z + 1)); [lia| |]; rewrite plus_IZR; lra. Qed.
Lemma rpow_whole x z : rpow x (IZR z) = if Z_lt_dec z 0 then (if Req_EM_T x 0 then None else Some (/ (x ^ Z.to_nat (- z)))) else Some (x ^ Z.to_nat z).
Proof.
  assert (Q : powerRZ x z = if Z_lt_dec z 0 then / (x ^ Z.to_nat (- z)) else x ^ Z.to_nat z).
  { destruct z as [|p|p]; cbn [powerRZ]; match goal with |- context [Z_lt_dec ?u ?v] => destruct (Z_lt_dec u v) end; try lia; reflexivity. }
  unfold rpow. rewrite int_part_IZR. destruct (Rlt_dec 0 x) as [P|N].
  - destruct (Req_EM_T x 0) as [|_]; [lra|]. rewrite <- powerRZ_Rpower, Q by exact P. now destruct (Z_lt_dec z 0).
  - destruct (Req_EM_T (IZR z) (IZR z)) as [_|C]; [|now destruct C]. destruct (Req_EM_T x 0) as [E|Nz].
    + destruct (Z_lt_dec z 0); [reflexivity|now rewrite Q].
    + rewrite Q. now destruct (Z_lt_dec z 0).
Qed.
Lemma tame_whole ns f z : tame ns f -> tame ns (fun en => arith BPow (f en) (Some (IZR z))).
Proof.
  intros F. apply (tame_ext ns (fun en => if Z_lt_dec z 0 then one inverse (option_map (fun x => x ^ Z.to_nat (- z)) (f en)) else option_map (fun x => x ^ Z.to_nat z) (f en))).
  - intros en. unfold arith. destruct (f en) as [x|]; cbn [option_map one]; [|now destruct (Z_lt_dec z 0)]. rewrite rpow_whole. destruct (Z_lt_dec z 0) as [Lz|]; [|reflexivity].
    unfold inverse. destruct (Req_EM_T x 0) as [->|Nz].
    + rewrite pow_i by lia. now destruct (Req_EM_T 0 0) as [|C]; [|destruct C].
    + destruct (Req_EM_T (x ^ Z.to_nat (- z)) 0) as [C|]; [|reflexivity]. exfalso. revert C. now apply pow_nonzero.
  - destruct (Z_lt_dec z 0); [|now apply tame_pow_nat]. apply tame_one; [apply soft_inv|]. now apply tame_pow_nat.
Qed.
Lemma tame_base ns f k : 0 < k -> tame ns f -> tame ns (fun en => arith BPow (Some k) (f en)).
Proof.
  intros P F. apply (tame_ext ns (fun en => one (fun x => Some (exp x)) (both (fun x y => Some (x * y)) (f en) (Some (ln k))))).
  - intros en. unfold one, both, arith. destruct (f en) as [y|]; [|reflexivity]. unfold rpow. destruct (Rlt_dec 0 k); [reflexivity|contradiction].
  - apply tame_one; [apply soft_exp|]. apply tame_both; [apply soft_mul|exact F|apply tame_const].
Qed.
Lemma tame_fun ns f g : f <> FSqrt -> tame ns g -> tame ns (fun en => match g en with Some x => fn_value f x | None => None end).
Proof.
  intros Nf G. change (tame ns (fun en => one (fn_value f) (g en))). destruct f; cbn [fn_value].
  - exact (tame_one ns _ g soft_ln G).
  - apply (tame_ext ns (fun en => both (fun x y => Some (x * y)) (one (fun x => if Rlt_dec 0 x then Some (ln x) else None) (g en)) (Some (/ ln 10)))).
    + intros en. unfold both, one. destruct (g en) as [x|]; [|reflexivity]. cbn [fn_value]. now destruct (Rlt_dec 0 x).
    + apply tame_both; [apply soft_mul|now apply tame_one; [apply soft_ln|]|apply tame_const].
  - now destruct Nf.
  - exact (tame_one ns _ g soft_abs G).
  - exact (tame_one ns _ g soft_exp G).
  - exact (tame_one ns _ g soft_sin G).
  - exact (tame_one ns _ g soft_cos G).
  - apply (tame_ext ns (fun en => arith BDiv (one (fun x => Some (sin x)) (g en)) (one (fun x => Some (cos x)) (g en)))).
    + intros en. unfold arith, one. destruct (g en) as [x|]; [|reflexivity]. cbn [fn_value]. unfold tan. now destruct (Req_EM_T (cos x) 0).
    + apply tame_arith; [discriminate|now apply tame_one; [apply soft_sin|]|now apply tame_one; [apply soft_cos|]].
Qed.
(** Lists of values. *)
Lemma tame_extremum ns mx (l : list (env -> option R)) : Forall (tame ns) l -> tame ns (fun en => extremum mx (map (fun g => g en) l)).
Proof.
  induction 1 as [|g [|k l] G F IH]; [exact (tame_const ns None)|exact G|].
  apply (tame_ext ns (fun en => both (fun x y => Some (pick mx x y)) (g en) (extremum mx (map (fun g => g en) (k :: l))))); [intros; reflexivity|].
  now apply tame_both; [apply soft_pick| |].
Qed.

(** ** Written expressions *)
Lemma num_above k : above_zero k = true -> exists x, num_value k = Some x /\ 0 < x.
Proof. destruct k as [z|f]; [|discriminate]. cbn. intros H. exists (IZR z). split; [reflexivity|]. apply IZR_lt. lia. Qed.

Scheme uexpr_mut := Induction for uexpr Sort Prop with uargs_mut := Induction for uargs Sort Prop.

Lemma gentle_value D ns e : gentle (of_names D ns) e -> tame ns (fun en => expr_value D en e).
Proof.
  revert e. apply (uexpr_mut string (fun e => gentle (of_names D ns) e -> tame ns (fun en => expr_value D en e))
    (fun l => gentle_args (of_names D ns) l -> exists gs, Forall (tame ns) gs /\ forall en, args_values D en l = map (fun g => g en) gs)).
  - intros a H. cbn in H |- *. destruct (dget a D) as [x|] eqn:E; [|apply tame_const]. unfold thing_value. destruct (H x E) as [->|Hx]; [apply tame_const|].
    destruct (th_set x); [apply tame_const|now apply tame_sym].
  - intros o a IHa b IHb (No & Ha & Hb). cbn [expr_value]. now apply tame_arith; [|apply IHa|apply IHb].
  - intros o a IHa k (Hk & Ha). cbn [expr_value]. destruct o; try (apply tame_arith; [discriminate|now apply IHa|apply tame_const]).
    specialize (Hk eq_refl). destruct k as [z|]; [|discriminate]. cbn [num_value]. apply tame_whole. now apply IHa.
  - intros o k a IHa (Hk & Ha). cbn [expr_value]. destruct o; try (apply tame_arith; [discriminate|apply tame_const|now apply IHa]).
    destruct (num_above k (Hk eq_refl)) as (x & -> & Px). apply tame_base; [exact Px|now apply IHa].
  - intros f a IHa (Nf & Ha). cbn [expr_value]. now apply tame_fun; [|apply IHa].
  - intros f k _. cbn [expr_value]. apply tame_const.
  - intros a b [].
  - intros mx l IH H. destruct (IH H) as (gs & F & E). apply (tame_ext ns (fun en => extremum mx (map (fun g => g en) gs))); [intros en; cbn [expr_value]; now rewrite E|].
    now apply tame_extremum.
  - intros _. exists []. split; [constructor|reflexivity].
  - intros e IHe r IHr (He & Hr). destruct (IHr Hr) as (gs & F & E). exists ((fun en => expr_value D en e) :: gs). split; [constructor; [now apply IHe|exact F]|].
    intros en. cbn [args_values map]. now rewrite E.
  - intros k r IHr Hr. destruct (IHr Hr) as (gs & F & E). exists ((fun _ => num_value k) :: gs). split; [constructor; [apply tame_const|exact F]|].
    intros en. cbn [args_values map]. now rewrite E.
Qed.
Lemma gentle_at h ns e : gentle (of_names_at h ns) e -> tame ns (fun en => value_at h en e).
Proof.
  unfold value_at. revert e. apply (uexpr_mut loc (fun e => gentle (of_names_at h ns) e -> tame ns (fun en => meaning h (at_names h en) e))
    (fun l => gentle_args (of_names_at h ns) l -> exists gs, Forall (tame ns) gs /\ forall en, meanings h (at_names h en) l = map (fun g => g en) gs)).
  - intros l H. change (of_names_at h ns l) in H. change (tame ns (fun en => qty_meaning h (at_names h en) l)). unfold qty_meaning, at_names, named_in, of_names_at in *. cbn [v_q]. destruct (hget h l) as [q|] eqn:E; [|apply tame_const]. destruct (H q eq_refl) as [->|Hx]; [apply tame_const|].
    destruct (q_spec q); [apply tame_const|now apply tame_sym].
  - intros o a IHa b IHb (No & Ha & Hb). cbn [meaning]. now apply tame_arith; [|apply IHa|apply IHb].
  - intros o a IHa k (Hk & Ha). cbn [meaning]. destruct o; try (apply tame_arith; [discriminate|now apply IHa|apply tame_const]).
    specialize (Hk eq_refl). destruct k as [z|]; [|discriminate]. cbn [num_value]. apply tame_whole. now apply IHa.
  - intros o k a IHa (Hk & Ha). cbn [meaning]. destruct o; try (apply tame_arith; [discriminate|apply tame_const|now apply IHa]).
    destruct (num_above k (Hk eq_refl)) as (x & -> & Px). apply tame_base; [exact Px|now apply IHa].
  - intros f a IHa (Nf & Ha). cbn [meaning]. now apply tame_fun; [|apply IHa].
  - intros f k _. cbn [meaning]. apply tame_const.
  - intros a b [].
  - intros mx l IH H. destruct (IH H) as (gs & F & E). apply (tame_ext ns (fun en => extremum mx (map (fun g => g en) gs))); [intros en; cbn [meaning]; now rewrite E|].
    now apply tame_extremum.
  - intros _. exists []. split; [constructor|reflexivity].
  - intros e IHe r IHr (He & Hr). destruct (IHr Hr) as (gs & F & E). exists ((fun en => meaning h (at_names h en) e) :: gs). split; [constructor; [now apply IHe|exact F]|].
    intros en. cbn [meanings map]. now rewrite E.
  - intros k r IHr Hr. destruct (IHr Hr) as (gs & F & E). exists ((fun _ => num_value k) :: gs). split; [constructor; [apply tame_const|exact F]|].
    intros en. cbn [meanings map]. now rewrite E.
Qed.
Lemma gentle_steady D t names e : gentle (of_names D (t :: names)) e -> steady t names (fun en => expr_value D en e).
Proof. intros H. apply tame_steady. now apply gentle_value. Qed.
Lemma gentle_steady_at h t names e : gentle (of_names_at h (t :: names)) e -> steady t names (fun en => value_at h en e).
Proof. intros H. apply tame_steady. now apply gentle_at. Qed.
