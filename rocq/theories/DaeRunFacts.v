(** Proofs about whole runs of differential-algebraic problems (C80). *)
From Verif Require Import Base BaseFacts Num NumFacts UnitModel UnitFacts Sympy Node Build EquationModel ModelModel ProblemModel SolverModel DomainModel
  SpecUnits SpecExpr SpecModel SpecInc SpecCall SpecProblem SpecSolver SpecWritten SpecExact SpecSession SpecSaid SpecInit ModelFacts ProblemFacts SessionFacts
  SolverFacts OdeFacts DaeFacts DomainFacts SaidFacts InitFacts RunModel SpecRun RunFacts.
From Coq Require Import Reals Lra.
Notation num := Verif.Num.num.

Definition dnames (dae : list (string * string * sx)) : list string := map (fun xtr => fst (fst xtr)) dae.
Definition part (vars : list string) (Y : R -> list R) (x : string) (tau : R) : R :=
  match index_of x vars with Some j => nth j (Y tau) 0%R | None => 0%R end.
Lemma part_nth vars Y j x tau : NoDup vars -> nth_error vars j = Some x -> part vars Y x tau = nth j (Y tau) 0%R.
Proof. intros N H. unfold part. now rewrite (index_of_nth x vars j N H). Qed.

Section Run.
Variables (acts : list act) (s : session) (b : block) (t : string) (pn : num -> string) (ps : sx -> string) (dae : list (string * string * sx)) (P : written -> Prop).
Hypotheses (Re : resolved acts s b) (Sta : stated b P) (Dc : dictionaries acts)
  (Fe : Forall2 (residual_ode pn) (b_diff b) dae) (Ne : dae <> []) (Cl : closed_dae b dae) (Sf : states_first (b_varlist b) dae)
  (Df : exists rest, b_eqs b = b_diff b ++ rest) (Tn : forall x u r, In (x, u, r) dae -> u = t) (Nt : ~ In t (b_varlist b)).

Lemma marked k x u r : nth_error dae k = Some (x, u, r) -> nth_error (diff_flags b) k = Some true /\ nth_error (b_varlist b) k = Some x /\ u = t.
Proof.
  intros H. split; [|split].
  - destruct Df as (rest & E). assert (L : List.length (b_diff b) = List.length dae) by exact (forall2_length _ _ _ Fe).
    assert (K : (k < List.length (b_diff b))%nat) by (rewrite L; apply nth_error_Some; congruence).
    destruct (nth_error (b_diff b) k) as [e|] eqn:Ek; [|apply nth_error_None in Ek; lia].
    unfold diff_flags. rewrite nth_error_map, E, nth_error_app1, Ek by exact K. cbn. f_equal.
    destruct (resolved_block _ _ _ Re) as (_ & B & _). destruct (bf_groups _ _ B) as (_ & _ & G).
    apply nth_error_In in Ek. rewrite G in Ek. apply filter_In in Ek. exact (proj2 Ek).
  - destruct Sf as (rest & E). rewrite E, nth_error_app1; [|rewrite map_length; apply nth_error_Some; congruence].
    now rewrite nth_error_map, H.
  - apply nth_error_In in H. exact (Tn _ _ _ H).
Qed.
Lemma in_dnames x : In x (dnames dae) -> exists k u r, nth_error dae k = Some (x, u, r).
Proof. intros H. apply in_map_iff in H. destruct H as ([[y u] r] & <- & H). apply In_nth_error in H. destruct H as [k H]. exists k, u, r. exact H. Qed.
Lemma dae_short : (List.length dae <= List.length (b_varlist b))%nat.
Proof. destruct Sf as (rest & ->). rewrite app_length, map_length. lia. Qed.

Lemma dae_flow y0 t0 times rows eps : dae_integrated (dae_function pn b) y0 (diff_flags b) t0 times rows eps ->
  List.length y0 = List.length (b_varlist b) ->
  exists Y, (forall i, nth_error (diff_flags b) i = Some true -> nth_error (Y t0) i = nth_error y0 i) /\
    dae_obeys_all P t (b_varlist b) (dnames dae) t0 times (part (b_varlist b) Y) /\
    (forall tk, In tk times -> List.length (Y tk) = List.length (b_varlist b)) /\
    Forall2 (fun tk row => Forall2 (fun y v => Rabs (v - y) <= eps)%R (Y tk) row) times rows.
Proof.
  intros (Y & Yd & Y0 & F & Rw) Ly. exists Y. split; [exact Y0|].
  split; [|split; [intros tk Hk; rewrite <- Ly; apply (proj1 (F tk ltac:(exists tk; split; [exact Hk|lra])))|exact Rw]]. intros tau D.
  destruct (F tau D) as (L & Ld & (vs & Ef & Zs) & Dv). rewrite Ly in L, Ld. assert (Nv := proj1 Cl).
  assert (Dr : forall k x u r, nth_error dae k = Some (x, u, r) -> derivable_pt_lim (part (b_varlist b) Y x) tau (nth k (Yd tau) 0%R)).
  { intros k x u r Hk. destruct (marked k x u r Hk) as (M & V & _). specialize (Dv k M).
    intros e He. destruct (Dv e He) as (d & Hd). exists d. intros h H0 H1. rewrite !(part_nth _ Y k x _ Nv V). exact (Hd h H0 H1). }
  split.
  - exists (mkEnv (fun x => if String.eqb x t then tau else part (b_varlist b) Y x tau) (fun x _ => part (b_varlist b) Yd x tau)).
    split; [cbn; now rewrite String.eqb_refl|]. split.
    + intros x Hx. cbn. destruct (String.eqb_spec x t) as [->|]; [now elim Nt|reflexivity].
    + intros x Hx. destruct (in_dnames x Hx) as (k & u & r & Hk). destruct (marked k x u r Hk) as (_ & V & _). cbn [e_der].
      rewrite (part_nth _ Yd k x tau Nv V). exact (Dr k x u r Hk).
  - intros en (T & Hs & Hd) w Hw. destruct Sta as [B1 _]. destruct (B1 w Hw) as (e & He & (n & En & Dn) & _).
    assert (By : by_equation (b_varlist b) dae (Y tau) (Yd tau) en).
    { split; [exact L|]. split; [rewrite Ld; exact dae_short|]. split.
      - intros i x Hi. rewrite (Hs x (nth_error_In _ _ Hi)), (part_nth _ Y i x tau Nv Hi). apply nth_error_nth'. rewrite L. apply nth_error_Some. congruence.
      - intros k x u r Hk. destruct (marked k x u r Hk) as (_ & V & ->).
        assert (Hx : In x (dnames dae)) by (apply nth_error_In in Hk; exact (in_map (fun xtr => fst (fst xtr)) _ _ Hk)).
        rewrite (uniqueness_limite _ _ _ _ (Hd x Hx) (Dr k x t r Hk)). apply nth_error_nth'. rewrite Ld. apply nth_error_Some. congruence. }
    destruct (dae_exact pn b dae (Y tau) (Yd tau) en Fe Ne Cl By) as (vs' & Ev & Rv). rewrite Ef in Ev. injection Ev as <-.
    destruct (In_nth_error _ _ He) as (i & Hi). destruct (forall2_nth _ _ _ Rv i e Hi) as (v & Hv & n' & En' & Ev).
    assert (n' = n) by congruence. subst n'. rewrite <- Dn, <- Ev. apply Zs. exact (nth_error_In _ _ Hv).
Qed.

Lemma dae_run_stated ida o d d' ts rows eps :
  ida_solves ida (dae_function pn b) eps ->
  cleared d -> d_ind d = [t] -> d_dep d = b_varlist b -> NoDup (map (header (oo_names o)) (d_ind d ++ d_dep d)) ->
  dae_solve ida pn ps (snd s) b o d = (d', Ok (ts, rows)) ->
  exists times sol, dae_points o = Ok times /\ starts_right acts (dnames dae) (oo_initial o) sol /\
    dae_obeys_all P t (b_varlist b) (dnames dae) (oo_initial o) times sol /\
    recorded_as d' t (oo_names o) (b_varlist b) times sol eps.
Proof.
  intros Hi Cd Id Dd Nd S. unfold dae_solve in S. destruct (resolve_keeps _ _ _ Re) as (Ki & _).
  destruct (dae_points o) as [times|] eqn:Et; [|discriminate]. cbn [rbind] in S.
  destruct (dae_initial ps pn b (pr_init (snd s))) as [[k kd]|] eqn:Ek; [|discriminate]. cbn [rbind fst snd] in S.
  destruct (map_res real_of k) as [y0|] eqn:Ey; [|discriminate]. cbn [rbind] in S.
  destruct (map_res real_of kd) as [yd0|]; [|discriminate]. cbn [rbind] in S.
  match type of S with (match ?m with _ => _ end = _) => destruct m as [[[times' y'] [ts' rows']]|] eqn:Ei; [|discriminate] end.
  assert (Q : times' = times /\ y' = y0 /\ exists e, ida (dae_function pn b) y0 yd0 (diff_flags b) (oo_initial o) e times = Ok (ts', rows')).
  { assert (G : forall x : res (list (option R)),
      (let* _ := x in match oo_end o with None => Raise EType
        | Some e => let* out := ida (dae_function pn b) y0 yd0 (diff_flags b) (oo_initial o) e times in Ok (times, y0, out) end) = Ok (times', y', (ts', rows')) ->
      times' = times /\ y' = y0 /\ exists e, ida (dae_function pn b) y0 yd0 (diff_flags b) (oo_initial o) e times = Ok (ts', rows')).
    { intros [x|]; [|discriminate]. cbn [rbind]. destruct (oo_end o) as [e|]; [|discriminate].
      destruct (ida _ _ _ _ _ _ _) as [out|] eqn:Eo; [|discriminate]. cbn [rbind]. intros H. injection H as <- <- ->. eauto. }
    destruct (oo_solver o) as [m|]; [|exact (G _ Ei)].
    repeat match type of Ei with (match ?x with _ => _ end = _) => destruct x; try discriminate Ei end; exact (G _ Ei). }
  destruct Q as (-> & -> & e & Eo). clear Ei.
  destruct (record_run d times (mkM (List.length y0) rows') (oo_names o)) as [d1 [u|]] eqn:Er; [|discriminate]. injection S as <- <- <-. destruct u.
  assert (Fl := Hi _ _ _ _ _ _ _ _ Eo).
  destruct (dae_initial_lengths ps pn b _ dae k kd Fe (proj1 (proj2 Cl)) Ek) as (Io & _ & _).
  destruct (reals_in_order _ _ _ Io _ Ey) as (Ly & Hy).
  destruct (dae_flow y0 (oo_initial o) times rows' eps Fl Ly) as (Y & Y0 & Ob & Ln & Rw). assert (Nv := proj1 Cl).
  exists times, (part (b_varlist b) Y). split; [reflexivity|]. split; [|split; [exact Ob|]].
  - intros x Hx. destruct (in_dnames x Hx) as (i & u & r & Hk). destruct (marked i x u r Hk) as (M & V & _).
    destruct (Hy i x V) as (n & v & Hn & Hv & Ev). exists n, v. split; [apply (init_exact acts Dc); now rewrite <- Ki|]. split; [exact Hv|].
    rewrite (part_nth _ Y i x _ Nv V). apply nth_error_nth. now rewrite (Y0 i M).
  - assert (Mo : mx_ok (mkM (List.length y0) rows')).
    { intros row Hr. cbn [mx_rows mx_width] in *. rewrite Ly. clear -Rw Ln Hr. induction Rw as [|tk row' ts rs H F IH]; [destruct Hr|]. destruct Hr as [->|Hr].
      - rewrite <- (forall2_length _ _ _ H). apply Ln. now left.
      - apply IH; [|exact Hr]. intros tk' Hk. apply Ln. now right. }
    destruct (record_exact d t times _ (oo_names o) d1 Cd Id Mo Er Nd) as (_ & _ & _ & _ & Ct & Cx). split; [exact Ct|].
    intros x Hx. destruct (In_nth_error _ _ Hx) as (j & Hj). rewrite Dd in Cx. destruct (Cx j x Hj) as (col & Hc & Tr). exists col. split; [exact Hc|].
    assert (J : (j < List.length (b_varlist b))%nat) by (apply nth_error_Some; congruence).
    assert (Z := recorded_rows Y j rows' times col eps _ Rw Ln J Tr). clear -Z Hj Nv.
    induction Z; constructor; [|assumption]. rewrite (part_nth _ Y j x _ Nv Hj). assumption.
Qed.
End Run.

Lemma dae_run acts s b t pn ps dae :
  resolved acts s b -> all_ok start_session acts -> distinct_models acts -> readable_program acts ->
  forallb tidy_act acts = true -> plain_origins acts -> known_statements acts -> dictionaries acts ->
  Forall2 (residual_ode pn) (b_diff b) dae -> dae <> [] -> closed_dae b dae -> states_first (b_varlist b) dae ->
  (exists rest, b_eqs b = b_diff b ++ rest) -> (forall x u r, In (x, u, r) dae -> u = t) -> ~ In t (b_varlist b) -> forall ida o d d' ts rows eps,
  ida_solves ida (dae_function pn b) eps ->
  cleared d -> d_ind d = [t] -> d_dep d = b_varlist b -> NoDup (map (header (oo_names o)) (d_ind d ++ d_dep d)) ->
  dae_solve ida pn ps (snd s) b o d = (d', Ok (ts, rows)) ->
  exists times sol, dae_points o = Ok times /\ starts_right acts (dnames dae) (oo_initial o) sol /\
    dae_obeys acts t (b_varlist b) (dnames dae) (oo_initial o) times sol /\
    recorded_as d' t (oo_names o) (b_varlist b) times sol eps.
Proof. intros Re O D Rd Ti Pl Kn. exact (dae_run_stated acts s b t pn ps dae (program_says acts) Re (block_says _ _ _ Re O D Rd Ti Pl Kn)). Qed.
