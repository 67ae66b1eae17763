(** Proofs for C97 (SpecShift.v). *)
From Coq Require Import ZArith List Bool String Reals Lra Lia.
From Verif Require Import Base BaseFacts Num UnitModel Sympy Node Build EquationModel ModelModel ProblemModel SpecProblem ProblemFacts SessionFacts SolverModel SpecSolver SolverFacts
  SpecWritten WrittenFacts SpecExact ExactFacts SpecSaid SaidFacts SpecCompose SpecMatrix MatrixFacts SpecUnique UniqueFacts SimModel RunModel WholeModel SpecWhole WholeFacts
  SpecNearly NearlyFacts SpecDepend DependAnalysis UniqueAnalysis TameFacts DependFacts SpecShift.
Import ListNotations.
Local Open Scope list_scope.

Lemma conditioned_all P vars K here : conditioned P vars K -> conditioned_in here P vars K.
Proof. intros C en en' d _ _. apply C. Qed.

Lemma nearby here P P' vars K delta eps eps' en en' : conditioned_in here P vars K -> asks_alike here delta P P' -> (0 <= delta)%R -> (0 <= eps)%R -> (0 <= eps')%R ->
  here en -> here en' -> (forall y, P y -> nearly eps (demanded y en)) -> (forall y, P' y -> nearly eps' (demanded y en')) ->
  forall v, In v vars -> (Rabs (e_sym en v - e_sym en' v) <= K * (eps + eps' + delta))%R.
Proof.
  intros C A Hd He He' H H' N N' v Hv. apply (C en en' (eps + eps' + delta)%R H H'); [lra| |exact Hv]. intros y Hy.
  destruct (N y Hy) as (a & Ea & Ba). destruct (A y Hy) as (y' & Hy' & Q). destruct (N' y' Hy') as (c & Ec & Bc). destruct (Q en' c H' Ec) as (a' & Ea' & Ba').
  exists a, a'. split; [exact Ea|]. split; [exact Ea'|]. replace (a - a')%R with (a + (- c + - (a' - c)))%R by ring.
  assert (T1 := Rabs_triang a (- c + - (a' - c))). assert (T2 := Rabs_triang (- c) (- (a' - c))). rewrite !Rabs_Ropp in T2. lra.
Qed.

Lemma answers_shift acts s b P eps eng out acts' s' b' P' eps' eng' out' (here : env -> Prop) K delta v : sets_up acts s b P -> sets_up acts' s' b' P' ->
  honest_within eps eng -> answer eng b out -> honest_within eps' eng' -> answer eng' b' out' ->
  (0 <= delta)%R -> (0 <= eps)%R -> (0 <= eps')%R -> here (bind_env out) -> here (bind_env out') ->
  conditioned_in here P (b_varlist b) K -> asks_alike here delta P P' -> In v (b_varlist b) ->
  (Rabs (e_sym (bind_env out) v - e_sym (bind_env out') v) <= K * (eps + eps' + delta))%R.
Proof.
  intros S S' Hh A Hh' A' Hd He He' H H' C Q Hv. apply (nearby here P P' (b_varlist b) K delta eps eps'); try assumption.
  - intros y Hy. exact (answer_said_nearly _ _ _ _ _ _ _ _ S Hh A Hy).
  - intros y Hy. exact (answer_said_nearly _ _ _ _ _ _ _ _ S' Hh' A' Hy).
Qed.

Lemma simulations_shift acts s b P eps lib arrays pn ps st doms sm st1 doms1 out r acts' s' b' P' eps' lib' arrays' pn' ps' st' doms' sm' st1' doms1' out' r' (here : env -> Prop) K delta v :
  sets_up acts s b P -> sets_up acts' s' b' P' ->
  honest_within eps (lib_roots lib) -> proper_answers (lib_roots lib) -> honest_within eps' (lib_roots lib') -> proper_answers (lib_roots lib') ->
  sm_problem sm = Some (snd s) -> whole_run lib arrays pn ps (pw_heap (fst s)) st doms sm true = (st1, doms1, Ok out) -> whole_results doms1 sm out RDict = Ok (WByName r) ->
  sm_problem sm' = Some (snd s') -> whole_run lib' arrays' pn' ps' (pw_heap (fst s')) st' doms' sm' true = (st1', doms1', Ok out') -> whole_results doms1' sm' out' RDict = Ok (WByName r') ->
  (0 <= delta)%R -> (0 <= eps)%R -> (0 <= eps')%R -> here (bind_env r) -> here (bind_env r') ->
  conditioned_in here P (b_varlist b) K -> asks_alike here delta P P' -> In v (b_varlist b) ->
  (Rabs (e_sym (bind_env r) v - e_sym (bind_env r') v) <= K * (eps + eps' + delta))%R.
Proof.
  intros S S' Hh Pa Hh' Pa' Hp R W Hp' R' W' Hd He He' H H' C Q Hv. apply (nearby here P P' (b_varlist b) K delta eps eps'); try assumption.
  - exact (proj2 (run_nearly _ _ _ _ _ _ _ _ _ _ _ _ _ _ _ _ S Hh Pa Hp R W)).
  - exact (proj2 (run_nearly _ _ _ _ _ _ _ _ _ _ _ _ _ _ _ _ S' Hh' Pa' Hp' R' W')).
Qed.

Lemma linear_shift acts s b P eps eng out acts' s' b' P' eps' eng' out' rows B K delta v : sets_up acts s b P -> sets_up acts' s' b' P' ->
  honest_within eps eng -> answer eng b out -> honest_within eps' eng' -> answer eng' b' out' ->
  (0 <= delta)%R -> (0 <= eps)%R -> (0 <= eps')%R -> matrix_of (b_varlist b) (b_exprs b) rows ->
  left_inverse B rows (List.length (b_varlist b)) -> (forall r, In r B -> (abs_sum r <= K)%R) -> asks_alike (fun en => en = bind_env out') delta P P' -> In v (b_varlist b) ->
  (Rabs (e_sym (bind_env out) v - e_sym (bind_env out') v) <= K * (eps + eps' + delta))%R.
Proof.
  intros S S' Hh A Hh' A' Hd He He' Mx In_ Bd Q Hv. assert (C := inverse_conditions _ _ _ _ _ _ _ S Mx In_ Bd).
  apply (C (bind_env out) (bind_env out') (eps + eps' + delta)%R); [lra| |exact Hv]. intros y Hy.
  destruct (answer_said_nearly _ _ _ _ _ _ _ _ S Hh A Hy) as (a & Ea & Ba). destruct (Q y Hy) as (y' & Hy' & G).
  destruct (answer_said_nearly _ _ _ _ _ _ _ _ S' Hh' A' Hy') as (c & Ec & Bc). destruct (G _ c eq_refl Ec) as (a' & Ea' & Ba').
  exists a, a'. split; [exact Ea|]. split; [exact Ea'|]. replace (a - a')%R with (a + (- c + - (a' - c)))%R by ring.
  assert (T1 := Rabs_triang a (- c + - (a' - c))). assert (T2 := Rabs_triang (- c) (- (a' - c))). rewrite !Rabs_Ropp in T2. lra.
Qed.

Lemma gap_self names en : gap names en en = 0%R.
Proof. unfold gap. induction names as [|x l IH]; cbn [fold_right]; [reflexivity|]. rewrite IH, Rminus_eq_0, Rabs_R0. lra. Qed.
Lemma rewritten_alike D D' B delta P P' names : rewritten D D' B delta P P' names -> asks_alike (boxed B names) delta P P'.
Proof.
  intros H y Hy. destruct (H y Hy) as (n & n' & q & e & t & L & M & -> & Hp & Sh & Ht & Df & Sw). exists (read_eq D' n' q). split; [exact Hp|].
  assert (G : forall en c, boxed B names en -> expr_value D' en e = Some c -> exists a, expr_value D en e = Some a /\ (Rabs (a - c) <= delta)%R).
  { intros en c Bx Hc. destruct (expr_value D en e) as [a|] eqn:E; [|now apply Df in E]. exists a. split; [reflexivity|].
    assert (Bt : boxed B (t :: names) en) by (intros x [<-|Hx]; [now apply Bx|now apply Bx]).
    destruct (sways_near _ _ _ _ _ _ _ _ _ Sw en en Bt Bt eq_refl a c E Hc) as (_ & _ & Q). now rewrite gap_self, Rmult_0_r, Rplus_0_l in Q. }
  intros en c Bx Hc. destruct Sh as [->|(l & ->)]; cbn [read_eq demanded wr_sides wr_value] in *; now apply G.
Qed.

(** To show that two programs ask nearly the same: the expressions handed over. *)
Lemma alike_by_exprs acts s b P acts' s' b' P' (here : env -> Prop) delta : sets_up acts s b P -> sets_up acts' s' b' P' ->
  Forall2 (fun x x' => forall en c, here en -> den x' en = Some c -> exists a, den x en = Some a /\ (Rabs (a - c) <= delta)%R) (b_exprs b) (b_exprs b') ->
  asks_alike here delta P P'.
Proof.
  intros S S' F y Hy. destruct (handed_said _ _ _ _ S) as [H1 _]. destruct (handed_said _ _ _ _ S') as [_ H2]. destruct (H1 y Hy) as (x & Hx & E).
  assert (Z : exists x', In x' (b_exprs b') /\ forall en c, here en -> den x' en = Some c -> exists a, den x en = Some a /\ (Rabs (a - c) <= delta)%R).
  { clear - F Hx. induction F as [|x1 x1' l l' Q F IH]; [destruct Hx|]. destruct Hx as [->|Hx]; [exists x1'; split; [now left|exact Q]|].
    destruct (IH Hx) as (x' & Hx' & G). exists x'. split; [now right|exact G]. }
  destruct Z as (x' & Hx' & G). destruct (H2 x' Hx') as (y' & Hy' & E'). exists y'. split; [exact Hy'|]. intros en c He Hc. rewrite <- E' in Hc.
  destruct (G en c He Hc) as (a & Ea & Ba). exists a. split; [now rewrite <- E|exact Ba].
Qed.

(** ** Equations solved for their unknowns *)
Lemma gap_bound names en en' z : (forall x, In x names -> (Rabs (e_sym en x - e_sym en' x) <= z)%R) -> (gap names en en' <= INR (List.length names) * z)%R.
Proof.
  intros H. unfold gap. induction names as [|x l IH]; cbn [fold_right]; [cbn; lra|]. assert (A := H x (or_introl eq_refl)). assert (B := IH (fun y Hy => H y (or_intror Hy))).
  change (List.length (x :: l)) with (S (List.length l)). rewrite S_INR. lra.
Qed.
Lemma gap_each names en en' x : In x names -> (Rabs (e_sym en x - e_sym en' x) <= gap names en en')%R.
Proof.
  intros H. unfold gap. induction names as [|y l IH]; [destruct H|]. cbn [fold_right].
  assert (G : (0 <= fold_right (fun z r => Rabs (e_sym en z - e_sym en' z) + r) 0 l)%R) by exact (gap_nonneg l en en').
  destruct H as [->|H]; [lra|]. assert (A := Rabs_pos (e_sym en y - e_sym en' y)). assert (B := IH H). lra.
Qed.
Lemma fixed_conditioned here L P vars : (0 <= L)%R -> (L * INR (List.length vars) < 1)%R -> fixed_point here L P vars ->
  conditioned_in here P vars (INR (List.length vars) / (1 - L * INR (List.length vars)))%R.
Proof.
  intros L0 L1 F en en' d H H' Hd Q v Hv. set (n := INR (List.length vars)) in *. set (G := gap vars en en').
  assert (E : forall x, In x vars -> (Rabs (e_sym en x - e_sym en' x) <= d + L * G)%R).
  { intros x Hx. destruct (F x Hx) as (y & g & Py & Sh & Lip). destruct (Q y Py) as (a & c & Ea & Ec & B). rewrite Sh in Ea, Ec.
    destruct (g en) as [ga|] eqn:Ga; [|discriminate]. destruct (g en') as [gc|] eqn:Gc; [|discriminate]. injection Ea as <-. injection Ec as <-.
    assert (W := Lip en en' ga gc H H' Ga Gc). fold G in W. replace (e_sym en x - e_sym en' x)%R with ((e_sym en x - ga - (e_sym en' x - gc)) + (ga - gc))%R by ring.
    eapply Rle_trans; [apply Rabs_triang|]. lra. }
  assert (T := gap_bound vars en en' _ E). fold G n in T. assert (U := gap_each vars en en' v Hv). fold G in U. eapply Rle_trans; [exact U|].
  apply Rmult_le_reg_r with (1 - L * n)%R; [lra|]. replace (n / (1 - L * n) * d * (1 - L * n))%R with (n * d)%R by (field; lra). lra.
Qed.
