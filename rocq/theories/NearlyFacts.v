(** * Proofs about answers within a tolerance *)
From Coq Require Import ZArith List Bool String Reals Lra Lia.
From Verif Require Import Base BaseFacts Num UnitModel Sympy Node Build EquationModel ModelModel ProblemModel SpecProblem ProblemFacts SessionFacts SolverModel SpecSolver SolverFacts
  SpecWritten WrittenFacts SpecExact ExactFacts SpecSaid SaidFacts SpecCompose SpecMatrix MatrixFacts SpecUnique UniqueFacts SimModel RunModel WholeModel SpecWhole WholeFacts SpecNearly.
From Verif Require SpecSim.
Import ListNotations.
Local Open Scope list_scope.

(** ** Solvers *)
Lemma symbolicsys_nearly eps eng ps guess b out one : honest_within eps eng -> NoDup (b_varlist b) -> symbolicsys one eng ps guess b = Ok out ->
  forall x, In x (b_exprs b) -> nearly eps (den x (bind_env out)).
Proof.
  intros (_ & _ & Hr) N H x Hx. unfold symbolicsys in H. destruct (first_guess one guess (b_varlist b)) as [g|]; [|discriminate]. cbn [rbind] in H.
  destruct (root_find eng (b_varlist b) (b_exprs b) _) as [[] v] eqn:E; [|discriminate]. injection H as <-.
  destruct (Hr _ _ _ _ E) as [L Z]. rewrite (by_name_combine _ _ N L). now apply Z.
Qed.
Lemma answer_nearly acts s b eps eng out : resolved acts s b -> honest_within eps eng -> answer eng b out ->
  forall x, In x (b_exprs b) -> nearly eps (den x (bind_env out)).
Proof.
  intros R Hh (one & name & guess & ps & [H|H]) x Hx; destruct (resolved_block _ _ _ R) as (_ & B & _); assert (N := bf_nodup _ _ B).
  - unfold la_solve in H. destruct (la_lookup name) as [[]|]; [| | |discriminate].
    + apply last_in in H. destruct Hh as (Hs & _). now apply (Hs _ _ _ H).
    + destruct (dense_solve eng (b_exprs b) (b_varlist b)) as [v|] eqn:E; [|discriminate]. cbn [rbind] in H. injection H as <-.
      destruct Hh as (_ & Hd & _). destruct (Hd _ _ _ E) as [L Z]. rewrite (by_name_combine _ _ N L). now apply Z.
    + now apply (symbolicsys_nearly eps eng None guess b out one).
  - unfold nla_solve in H. destruct (nla_lookup name) as [[]|]; [| | |discriminate]; cbn [rbind] in H.
    + apply last_in in H. destruct Hh as (Hs & _). now apply (Hs _ _ _ H).
    + now apply (symbolicsys_nearly eps eng ps guess b out one).
    + now apply (symbolicsys_nearly eps eng ps guess b out one).
Qed.

(** ** What is handed over and what is said *)
Lemma handed_eq acts s b e : resolved acts s b -> In e (b_eqs b) -> exists x, In x (b_exprs b) /\ get_symbolic e None SRhs = Ok x.
Proof.
  intros R He. assert (L := SolverFacts.map_res_in _ _ _ (bf_list _ _ (proj1 (proj2 (resolved_block _ _ _ R))))).
  induction L as [|e1 x1 es xs E L IH]; [destruct He|]. destruct He as [->|He]; [exists x1; split; [now left|exact E]|].
  destruct (IH He) as (x & Hx & G). exists x. split; [now right|exact G].
Qed.
Lemma eq_handed acts s b x : resolved acts s b -> In x (b_exprs b) -> exists e, In e (b_eqs b) /\ get_symbolic e None SRhs = Ok x.
Proof.
  intros R Hx. assert (L := SolverFacts.map_res_in _ _ _ (bf_list _ _ (proj1 (proj2 (resolved_block _ _ _ R))))).
  induction L as [|e1 x1 es xs E L IH]; [destruct Hx|]. destruct Hx as [->|Hx]; [exists e1; split; [now left|exact E]|].
  destruct (IH Hx) as (e & He & G). exists e. split; [now right|exact G].
Qed.
Lemma symbolic_said e x y : get_symbolic e None SRhs = Ok x -> says y e -> forall en, den x en = demanded y en.
Proof.
  intros G ((n & En & Dn) & Sd) en. unfold get_symbolic in G. unfold demanded. destruct (wr_sides y) as [[f g]|].
  - destruct Sd as (El & a & c & Ee & _ & Dc). rewrite El, Ee in G. injection G as <-. apply Dc.
  - rewrite Sd, En in G. injection G as <-. apply Dn.
Qed.
Lemma handed_said acts s b P : sets_up acts s b P ->
  (forall y, P y -> exists x, In x (b_exprs b) /\ forall en, den x en = demanded y en) /\
  (forall x, In x (b_exprs b) -> exists y, P y /\ forall en, den x en = demanded y en).
Proof.
  intros S. destruct (stated_set_up _ _ _ _ S) as [R [S1 S2]]. split.
  - intros y Hy. destruct (S1 y Hy) as (e & He & Se). destruct (handed_eq _ _ _ _ R He) as (x & Hx & G). exists x. split; [exact Hx|]. exact (symbolic_said _ _ _ G Se).
  - intros x Hx. destruct (eq_handed _ _ _ _ R Hx) as (e & He & G). destruct (S2 e He) as (y & Hy & Se). exists y. split; [exact Hy|]. exact (symbolic_said _ _ _ G Se).
Qed.

Lemma system_nearly acts s b P eps en : sets_up acts s b P ->
  ((forall x, In x (b_exprs b) -> nearly eps (den x en)) <-> forall y, P y -> nearly eps (demanded y en)).
Proof.
  intros S. destruct (handed_said _ _ _ _ S) as [H1 H2]. split.
  - intros H y Hy. destruct (H1 y Hy) as (x & Hx & E). rewrite <- E. now apply H.
  - intros H x Hx. destruct (H2 x Hx) as (y & Hy & E). rewrite E. now apply H.
Qed.
Lemma answer_said_nearly acts s b P eps eng out y : sets_up acts s b P -> honest_within eps eng -> answer eng b out -> P y -> nearly eps (demanded y (bind_env out)).
Proof.
  intros S Hh A Hy. assert (R := proj1 (stated_set_up _ _ _ _ S)).
  exact (proj1 (system_nearly _ _ _ _ eps (bind_env out) S) (answer_nearly _ _ _ _ _ _ R Hh A) y Hy).
Qed.

Lemma run_nearly acts s b P eps lib arrays pn ps st doms sm st' doms' out r : sets_up acts s b P -> honest_within eps (lib_roots lib) -> proper_answers (lib_roots lib) ->
  sm_problem sm = Some (snd s) -> whole_run lib arrays pn ps (pw_heap (fst s)) st doms sm true = (st', doms', Ok out) ->
  whole_results doms' sm out RDict = Ok (WByName r) ->
  NoDup (dkeys r) /\ forall y, P y -> nearly eps (demanded y (bind_env r)).
Proof.
  intros S Hh Pa Hp H W. assert (R := proj1 (stated_set_up _ _ _ _ S)). destruct out as [out|ts rows].
  2: { exfalso. cbn in W. destruct (sm_conf sm) as [c|]; [|discriminate]. destruct (opt c "domain"); [|discriminate]. cbn [rbind] in W.
       match type of W with (let* _ := ?e in _) = _ => destruct e as [[i d]|]; [|discriminate W] end. cbn [rbind snd] in W.
       destruct (DomainModel.d_values d); discriminate. }
  cbn in W. injection W as <-. destruct (whole_algebraic _ _ _ _ _ _ _ _ _ _ _ _ _ R Hp H) as (_ & _ & A & N).
  split; [exact (proj1 (SolverFacts.results_same out (N Pa)))|]. intros y Hy. rewrite (bind_results _ (N Pa)).
  exact (answer_said_nearly _ _ _ _ _ _ _ _ S Hh A Hy).
Qed.

(** ** Accuracy *)
Lemma accuracy acts s b P eps eng out K en v : sets_up acts s b P -> honest_within eps eng -> answer eng b out -> (0 <= eps)%R -> conditioned P (b_varlist b) K ->
  (forall y, P y -> asks y en) -> In v (b_varlist b) -> (Rabs (e_sym (bind_env out) v - e_sym en v) <= K * eps)%R.
Proof.
  intros S Hh A E C Hy Hv. apply (C (bind_env out) en eps E); [|exact Hv]. intros x Hx.
  destruct (answer_said_nearly _ _ _ _ _ _ _ _ S Hh A Hx) as (r & Er & B). exists r, 0%R. split; [exact Er|]. split; [exact (Hy x Hx)|]. now replace (r - 0)%R with r by lra.
Qed.
Lemma agreement acts s b P eps eng out eps' eng' out' K v : sets_up acts s b P -> honest_within eps eng -> answer eng b out -> honest_within eps' eng' -> answer eng' b out' ->
  (0 <= eps)%R -> (0 <= eps')%R -> conditioned P (b_varlist b) K ->
  In v (b_varlist b) -> (Rabs (e_sym (bind_env out) v - e_sym (bind_env out') v) <= K * (eps + eps'))%R.
Proof.
  intros S Hh A Hh' A' E E' C Hv. apply (C (bind_env out) (bind_env out') (eps + eps')%R); [lra| |exact Hv]. intros x Hx.
  destruct (answer_said_nearly _ _ _ _ _ _ _ _ S Hh A Hx) as (r & Er & B). destruct (answer_said_nearly _ _ _ _ _ _ _ _ S Hh' A' Hx) as (r' & Er' & B').
  exists r, r'. split; [exact Er|]. split; [exact Er'|]. unfold Rminus. eapply Rle_trans; [apply Rabs_triang|]. rewrite Rabs_Ropp. lra.
Qed.

(** ** Matrices *)
Lemma dot_add {A} (f g : A -> R) l : forall z, dot (map (fun j => (f j + g j)%R) l) z = (dot (map f l) z + dot (map g l) z)%R.
Proof. induction l as [|j l IH]; intros [|a z]; cbn [map dot]; try lra. rewrite IH. lra. Qed.
Lemma dot_scale {A} k (f : A -> R) l : forall z, dot (map (fun j => (k * f j)%R) l) z = (k * dot (map f l) z)%R.
Proof. induction l as [|j l IH]; intros [|a z]; cbn [map dot]; try lra. rewrite IH. lra. Qed.
Lemma dot_null {A} (l : list A) : forall z, dot (map (fun _ => 0%R) l) z = 0%R.
Proof. induction l as [|j l IH]; intros [|a z]; cbn [map dot]; try lra. rewrite IH. lra. Qed.
Lemma seq_nth_self (a : list R) : map (fun j => nth j a 0%R) (seq 0 (List.length a)) = a.
Proof. induction a as [|x a IH]; [reflexivity|]. cbn [List.length seq map nth]. f_equal. rewrite <- seq_shift, map_map. exact IH. Qed.
Lemma dot_assoc (rows : list (list R * R)) n z : (forall rc, In rc rows -> List.length (fst rc) = n) -> forall r,
  dot r (map (fun rc => dot (fst rc) z) rows) = dot (map (fun j => dot r (map (fun rc => nth j (fst rc) 0%R) rows)) (seq 0 n)) z.
Proof.
  induction rows as [|rc rows IH]; intros L [|b r]; cbn [map dot]; try (now rewrite dot_null).
  rewrite (dot_add (fun j => (b * nth j (fst rc) 0)%R) (fun j => dot r (map (fun rc0 => nth j (fst rc0) 0%R) rows))).
  rewrite (dot_scale b (fun j => nth j (fst rc) 0%R)). rewrite IH by (intros; apply L; now right). f_equal. f_equal.
  rewrite <- (L rc (or_introl eq_refl)). now rewrite seq_nth_self.
Qed.
Lemma dot_unit n : forall k i z, List.length z = n -> (i < n)%nat -> dot (map (fun j => if Nat.eqb (k + i) j then 1%R else 0%R) (seq k n)) z = nth i z 0%R.
Proof.
  induction n as [|n IH]; intros k i [|a z] L Hi; try discriminate; [lia|]. cbn [seq map dot]. injection L as L. destruct i as [|i].
  - rewrite Nat.add_0_r, Nat.eqb_refl. cbn [nth]. replace (map _ (seq (S k) n)) with (map (fun _ : nat => 0%R) (seq (S k) n)); [rewrite dot_null; lra|].
    apply map_ext_in. intros j Hj. apply in_seq in Hj. destruct (Nat.eqb_spec k j); [lia|reflexivity].
  - destruct (Nat.eqb_spec (k + S i) k); [lia|]. cbn [nth]. replace (k + S i)%nat with (S k + i)%nat by lia. rewrite (IH (S k) i z L) by lia. lra.
Qed.
Lemma dot_bound d : (0 <= d)%R -> forall r y, Forall (fun a => (Rabs a <= d)%R) y -> (Rabs (dot r y) <= abs_sum r * d)%R.
Proof.
  intros D. assert (Z : forall r, (0 <= abs_sum r)%R) by (induction r as [|a r IH]; cbn; [lra|]; assert (H := Rabs_pos a); lra).
  induction r as [|b r IH]; intros [|a y] F; cbn [dot]; try (rewrite Rabs_R0; apply Rmult_le_pos; [apply Z|exact D]).
  inversion F as [|? ? Fa Fy]; subst. eapply Rle_trans; [apply Rabs_triang|]. cbn [abs_sum]. rewrite Rmult_plus_distr_r. apply Rplus_le_compat; [|now apply IH].
  rewrite Rabs_mult. apply Rmult_le_compat_l; [apply Rabs_pos|exact Fa].
Qed.
Lemma dot_difference (f g : string -> R) vars : forall a, (dot a (map f vars) - dot a (map g vars) = dot a (map (fun v => (f v - g v)%R) vars))%R.
Proof. induction vars as [|v vars IH]; intros [|a r]; cbn [map dot]; try lra. rewrite <- IH. lra. Qed.

Lemma matrix_rows vars es rows : matrix_of vars es rows -> (forall rc, In rc rows -> List.length (fst rc) = List.length vars) /\
  (forall rc, In rc rows -> exists e, In e es /\ forall en, den e en = Some (dot (fst rc) (map (e_sym en) vars) - snd rc)%R).
Proof.
  intros M. induction M as [|e rc es rows [L D] M [IH1 IH2]]; [split; intros ? []|]. split.
  - intros x [<-|H]; [exact L|now apply IH1].
  - intros x [<-|H]; [exists e; split; [now left|exact D]|]. destruct (IH2 x H) as (e' & He & E). exists e'. split; [now right|exact E].
Qed.
Lemma inverse_conditions acts s b P rows B K : sets_up acts s b P -> matrix_of (b_varlist b) (b_exprs b) rows ->
  left_inverse B rows (List.length (b_varlist b)) -> (forall r, In r B -> (abs_sum r <= K)%R) -> conditioned P (b_varlist b) K.
Proof.
  intros S M Li Bk en en' d D H v Hv. destruct (matrix_rows _ _ _ M) as [Ml Me]. destruct (handed_said _ _ _ _ S) as [_ H2].
  destruct (In_nth_error _ _ Hv) as (i & Hi). assert (Ln : (i < List.length (b_varlist b))%nat) by (apply nth_error_Some; congruence).
  destruct (Li i Ln) as (r & Er & Hd). set (z := map (fun v => (e_sym en v - e_sym en' v)%R) (b_varlist b)).
  assert (Lz : List.length z = List.length (b_varlist b)) by (unfold z; apply map_length).
  assert (Nz : nth i z 0%R = (e_sym en v - e_sym en' v)%R).
  { apply nth_error_nth with (d := 0%R). unfold z. rewrite nth_error_map, Hi. reflexivity. }
  assert (E : dot r (map (fun rc => dot (fst rc) z) rows) = nth i z 0%R).
  { rewrite (dot_assoc rows (List.length (b_varlist b)) z Ml r). rewrite <- (dot_unit (List.length (b_varlist b)) 0 i z Lz Ln). f_equal.
    apply map_ext_in. intros j Hj. apply in_seq in Hj. rewrite (Hd j) by lia. reflexivity. }
  rewrite <- Nz, <- E. eapply Rle_trans; [apply (dot_bound d D)|].
  - apply Forall_forall. intros a Ha. apply in_map_iff in Ha. destruct Ha as (rc & <- & Hrc). destruct (Me rc Hrc) as (e & He & De).
    destruct (H2 e He) as (y & Hy & Ey). destruct (H y Hy) as (a & c & Ea & Ec & Bd). rewrite <- Ey, De in Ea, Ec. injection Ea as <-. injection Ec as <-.
    unfold z. rewrite <- dot_difference. eapply Rle_trans; [|exact Bd]. right. f_equal. lra.
  - apply Rmult_le_compat_r; [exact D|]. apply Bk. exact (nth_error_In _ _ Er).
Qed.

(** Exact routines are within every tolerance. *)
Lemma honest_nearly eng eps : (0 <= eps)%R -> honest eng -> honest_within eps eng.
Proof.
  intros E (A & B & C). assert (N : forall v, v = Some 0%R -> nearly eps v) by (intros v ->; exists 0%R; split; [reflexivity|]; now rewrite Rabs_R0).
  split; [|split].
  - intros es vars sol H e He. apply N. exact (A _ _ _ H e He).
  - intros es vars x H. destruct (B _ _ _ H) as [L Z]. split; [exact L|]. intros e He. apply N. exact (Z e He).
  - intros vars es g x H. destruct (C _ _ _ _ H) as [L Z]. split; [exact L|]. intros e He. apply N. exact (Z e He).
Qed.

Lemma run_accuracy acts s b P eps lib arrays pn ps st doms sm st' doms' out r K en v : sets_up acts s b P -> honest_within eps (lib_roots lib) -> proper_answers (lib_roots lib) ->
  sm_problem sm = Some (snd s) -> whole_run lib arrays pn ps (pw_heap (fst s)) st doms sm true = (st', doms', Ok out) ->
  whole_results doms' sm out RDict = Ok (WByName r) -> (0 <= eps)%R -> conditioned P (b_varlist b) K -> (forall y, P y -> asks y en) ->
  In v (b_varlist b) -> (Rabs (e_sym (bind_env r) v - e_sym en v) <= K * eps)%R.
Proof.
  intros S Hh Pa Hp H W E C Hy Hv. destruct (run_nearly _ _ _ _ _ _ _ _ _ _ _ _ _ _ _ _ S Hh Pa Hp H W) as [_ N].
  apply (C (bind_env r) en eps E); [|exact Hv]. intros x Hx. destruct (N x Hx) as (a & Ea & B). exists a, 0%R. split; [exact Ea|]. split; [exact (Hy x Hx)|].
  now replace (a - 0)%R with a by lra.
Qed.
