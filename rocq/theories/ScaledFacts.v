(** Proofs about derivatives with a factor (C80). *)
From Verif Require Import Base BaseFacts Num UnitModel Sympy Node Build EquationModel ModelModel ProblemModel SpecExpr SpecProblem SolverModel SpecSolver DofFacts StartFacts DaeFacts RunModel SpecRun SpecScaled.
From Verif Require DomainModel.
From Coq Require Import Reals.
Notation num := Verif.Num.num.

Lemma contains_mid w a s c : str_contains w s = true -> str_contains w (a ++ s ++ c)%string = true.
Proof.
  rewrite !contains_parts. intros (u & v & ->). exists (a ++ u)%string, (v ++ c)%string. now rewrite !append_assoc_s.
Qed.
Lemma call2_second w f a b : str_contains w b = true -> str_contains w (call2 f a b) = true.
Proof.
  intros H. unfold call2. apply contains_parts. apply contains_parts in H. destruct H as (u & v & ->).
  exists (f ++ "(" ++ a ++ ", " ++ u)%string, (v ++ ")")%string. now rewrite !append_assoc_s.
Qed.
Lemma call2_first w f a b : str_contains w a = true -> str_contains w (call2 f a b) = true.
Proof.
  intros H. unfold call2. apply contains_parts. apply contains_parts in H. destruct H as (u & v & ->).
  exists (f ++ "(" ++ u)%string, (v ++ ", " ++ b ++ ")")%string. now rewrite !append_assoc_s.
Qed.

(** A product with a number, that prints as a derivative. *)
Definition laden (pn : num -> string) (k : num) (u : sx) : Prop :=
  str_contains "Derivative" (srepr pn u) = true /\ flat_map coefficient (factors u) = [k] /\ is_raw u = false.
Lemma scaled_laden pn k u : scaled k u -> laden pn k u.
Proof.
  assert (C : forall k, k <> PInt 1 -> k <> PInt (-1) -> coefficient (SNum k) = [k]).
  { intros [[|[]|[]]|] A B; try reflexivity; congruence. }
  intros (x & t & A & B & [-> | ->]); (split; [cbn [srepr]|split]).
  - apply call2_second, (der_print pn x t).
  - cbn [factors app flat_map]. now rewrite (C k A B).
  - reflexivity.
  - apply call2_first, (der_print pn x t).
  - cbn [factors app flat_map]. now rewrite (C k A B).
  - reflexivity.
Qed.
Lemma laden_minus pn k u : laden pn k u -> laden pn k (SMul (SNum (PInt (-1))) u).
Proof. intros (A & B & C). split; [apply call2_second, A|]. split; [exact B|]. cbn [is_raw]. now rewrite C. Qed.
Lemma laden_terms pn k u e : term_of u e -> laden pn k u -> exists v, In v (terms e) /\ laden pn k v.
Proof.
  intros T L. induction T as [ |a b T (v & I & V)|a b T (v & I & V)|a b T (v & I & V)|a b T (v & I & V)]; cbn [terms].
  - exists u. split; [|exact L]. destruct L as (_ & L & _). destruct u; try (now left); discriminate L.
  - exists v. split; [apply in_or_app; now left|exact V].
  - exists v. split; [apply in_or_app; now right|exact V].
  - exists v. split; [apply in_or_app; now left|exact V].
  - exists (SMul (SNum (PInt (-1))) v). split; [apply in_or_app; right; now apply in_map|now apply laden_minus].
Qed.
Lemma term_raw u e : term_of u e -> is_raw u = false -> is_raw e = false.
Proof. intros T H. induction T as [|a b _ IH|a b _ IH|a b _ IH|a b _ IH]; cbn [is_raw]; rewrite ?IH; auto using Bool.andb_false_r. Qed.
Lemma laden_list pn es k : (exists e u, In e es /\ scaled_in k u e) -> forall ds, diff_list pn es = Ok ds -> In (SNum k) ds.
Proof.
  intros (e & u & He & n & En & (a & b & Sum) & T & Sc). induction es as [|e0 es IH]; [destruct He|]. intros ds. cbn [diff_list].
  destruct (get_symbolic e0 (Some false) SRhs) as [s|] eqn:G; [|discriminate]. cbn [rbind]. destruct (is_raw s) eqn:Raw; [discriminate|].
  destruct (diff_list pn es) as [l|] eqn:D; [|discriminate]. cbn [rbind]. intros H. injection H as <-.
  destruct He as [-> | He]; apply in_or_app; [left|right; now apply (IH He)].
  unfold get_symbolic in G. rewrite En in G. injection G as <-.
  destruct (laden_terms pn k u _ T (scaled_laden pn k u Sc)) as (v & I & (V & W & _)).
  apply in_map_iff. exists v. unfold abs_arg. rewrite W. split; [reflexivity|]. apply filter_In.
  split; [destruct Sum as [E|E]; rewrite E in I |- *; exact I|exact V].
Qed.
Lemma number_kept k : forall l seen, In (SNum k) l -> In (SNum k) (distinct_ders seen l).
Proof.
  induction l as [|a l IH]; intros seen H; [destruct H|]. cbn [distinct_ders]. destruct H as [-> | H].
  - assert (M : sx_mem (SNum k) seen = false) by (induction seen as [|c seen IHs]; [reflexivity|exact IHs]). rewrite M. now left.
  - destruct (sx_mem a seen); [now apply IH|right; now apply IH].
Qed.
Lemma number_refused ps k : forall l, In (SNum k) l -> forall r, map_res (first_member ps) l <> Ok r.
Proof.
  induction l as [|a l IH]; intros H r E; [destruct H|]. cbn [map_res] in E. destruct H as [-> | H]; [discriminate E|].
  destruct (first_member ps a); [|discriminate E]. cbn [rbind] in E. destruct (map_res (first_member ps) l) as [l0|] eqn:M; [|discriminate E]. exact (IH H l0 eq_refl).
Qed.
Lemma scaled_never pn ps p b k : (exists e u, In e (b_diff b) /\ scaled_in k u e) -> forall ida o d,
  exists x, dae_solve ida pn ps p b o d = (d, Raise x).
Proof.
  intros H ida o d. assert (N : forall init r, dae_initial ps pn b init <> Ok r).
  { intros init r E. unfold dae_initial in E. destruct (diff_list pn (b_diff b)) as [ds|] eqn:D; [|discriminate E]. cbn [rbind] in E.
    destruct (lookup_all init (b_varlist b)); [|discriminate E]. cbn [rbind] in E.
    assert (I := number_kept k ds [] (laden_list pn _ k H ds D)).
    destruct (map_res (first_member ps) (distinct_ders [] ds)) as [l0|] eqn:M; [|discriminate E]. exact (number_refused ps k _ I _ M). }
  unfold dae_solve. destruct (dae_points o) as [times|x]; cbn [rbind]; [|now exists x].
  destruct (dae_initial ps pn b (pr_init p)) as [r|x] eqn:E; cbn [rbind]; [exfalso; exact (N _ _ E)|now exists x].
Qed.
