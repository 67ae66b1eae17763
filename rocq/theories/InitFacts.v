(** Initial values and time variables of sessions (C31). *)
From Verif Require Import Base BaseFacts Num UnitModel Sympy Node Build EquationModel ModelModel ProblemModel SpecProblem ProblemFacts SessionFacts SpecInit.

Lemma act_keeps s a : (forall c, a <> AInit c) -> pr_init (snd (fst (do_act s a))) = pr_init (snd s).
Proof.
  intros H. destruct s as [w p]. destruct a as [nm d|i c|i|i j f|i|m1 m2 o n e|m1 m2 out inp|names|c|]; cbn [do_act snd fst].
  - reflexivity.
  - now destruct (on_model w i _).
  - now destruct (on_model w i _).
  - destruct (get_model w j) as [[]|]; [|reflexivity]. now destruct (on_model w i _).
  - unfold add_model. destruct (get_model w i) as [[]|] eqn:G; [|reflexivity]. cbn [fst snd pr_init]. reflexivity.
  - destruct (match e with None => _ | Some q => _ end) as [x|]; [|reflexivity]. unfold connect_vars.
    destruct (get_model w m2) as [[s2 d2]|]; [|reflexivity]. destruct (match m1 with CMName _ => _ | CMModel i => _ end) as [s1|]; [|reflexivity].
    destruct (_ && _); [|destruct n, o; reflexivity].
    destruct (match x with Some a => _ | None => _ end) as [a|]; [|reflexivity].
    destruct (let* o0 := _ in _) as [[o' i']|]; [|reflexivity].
    destruct (on_model w m2 _) as [w' [e'|]]; reflexivity.
  - destruct (let* o := _ in _) as [[o i]|]; [|reflexivity]. unfold connect_nodes. destruct (get_model w m2) as [[s2 d2]|]; [|reflexivity].
    destruct (match m1 with CMName _ => _ | CMModel i => _ end) as [pu [n1|]]; [|reflexivity].
    destruct (node_sub i (ONode o)) as [d|]; [|reflexivity]. destruct (on_model _ m2 _) as [w' [e'|]]; reflexivity.
  - reflexivity.
  - now destruct (H c).
  - unfold presolve. destruct (reload w (dvals (pr_models p))) as [w' [[]|]]; [|reflexivity].
    destruct (build_block w' p) as [b|]; [|reflexivity]. now destruct (block_call b).
Qed.
Lemma act_keeps_time s a : (forall n, a <> ATime n) -> pr_time (snd (fst (do_act s a))) = pr_time (snd s).
Proof.
  intros H. destruct s as [w p]. destruct a as [nm d|i c|i|i j f|i|m1 m2 o n e|m1 m2 out inp|names|c|]; cbn [do_act snd fst].
  - reflexivity.
  - now destruct (on_model w i _).
  - now destruct (on_model w i _).
  - destruct (get_model w j) as [[]|]; [|reflexivity]. now destruct (on_model w i _).
  - unfold add_model. destruct (get_model w i) as [[]|] eqn:G; [|reflexivity]. cbn [fst snd pr_init]. reflexivity.
  - destruct (match e with None => _ | Some q => _ end) as [x|]; [|reflexivity]. unfold connect_vars.
    destruct (get_model w m2) as [[s2 d2]|]; [|reflexivity]. destruct (match m1 with CMName _ => _ | CMModel i => _ end) as [s1|]; [|reflexivity].
    destruct (_ && _); [|destruct n, o; reflexivity].
    destruct (match x with Some a => _ | None => _ end) as [a|]; [|reflexivity].
    destruct (let* o0 := _ in _) as [[o' i']|]; [|reflexivity].
    destruct (on_model w m2 _) as [w' [e'|]]; reflexivity.
  - destruct (let* o := _ in _) as [[o i]|]; [|reflexivity]. unfold connect_nodes. destruct (get_model w m2) as [[s2 d2]|]; [|reflexivity].
    destruct (match m1 with CMName _ => _ | CMModel i => _ end) as [pu [n1|]]; [|reflexivity].
    destruct (node_sub i (ONode o)) as [d|]; [|reflexivity]. destruct (on_model _ m2 _) as [w' [e'|]]; reflexivity.
  - now destruct (H names).
  - reflexivity.
  - unfold presolve. destruct (reload w (dvals (pr_models p))) as [w' [[]|]]; [|reflexivity].
    destruct (build_block w' p) as [b|]; [|reflexivity]. now destruct (block_call b).
Qed.

Lemma split_last {A} (l before after : list A) a b : l ++ [a] = before ++ b :: after ->
  (after = [] /\ before = l /\ b = a) \/ exists after', after = after' ++ [a] /\ l = before ++ b :: after'.
Proof.
  destruct after as [|x r] using rev_ind; intros H.
  - left. apply app_inj_tail in H. destruct H as [-> ->]. auto.
  - right. clear IHr. exists r. rewrite app_comm_cons, app_assoc in H. apply app_inj_tail in H. destruct H as [-> ->]. auto.
Qed.

Lemma starts_snoc acts a x v : starts_at (acts ++ [a]) x v <->
  match a with AInit c => dget x c = Some v \/ dget x c = None /\ starts_at acts x v | _ => starts_at acts x v end.
Proof.
  assert (K : (forall c, a = AInit c -> dget x c = None) -> starts_at acts x v -> starts_at (acts ++ [a]) x v).
  { intros Ha (b & c & af & -> & G & N). exists b, c, (af ++ [a]). split; [now rewrite <- app_assoc|]. split; [exact G|].
    intros c' H. apply in_app_or in H. destruct H as [H|[H|[]]]; [now apply N|now apply Ha]. }
  assert (J : starts_at (acts ++ [a]) x v -> (exists c, a = AInit c /\ dget x c = Some v) \/ starts_at acts x v /\ forall c, a = AInit c -> dget x c = None).
  { intros (b & c & af & E & G & N). apply split_last in E. destruct E as [(-> & -> & <-)|(af' & -> & ->)]; [left; eauto|right].
    split; [exists b, c, af'; split; [reflexivity|]; split; [exact G|]; intros c' H; apply N; apply in_or_app; now left|].
    intros c' ->. apply N. apply in_or_app. right. now left. }
  destruct a; try (split; [intros H; apply J in H; destruct H as [(c' & H & _)|[H _]]; [discriminate H|exact H]|apply K; discriminate]).
  split.
  - intros H. apply J in H. destruct H as [(c' & H & G)|[H G]]; [injection H as <-; now left|right; split; [now apply G|exact H]].
  - intros [H|[H1 H2]]; [|apply K; [intros c' E; injection E as <-; exact H1|exact H2]].
    exists acts, c, []. split; [reflexivity|]. split; [exact H|intros ? []].
Qed.

Lemma init_exact acts : dictionaries acts -> forall x v, dget x (pr_init (snd (run_acts start_session acts))) = Some v <-> starts_at acts x v.
Proof.
  induction acts as [|a acts IH] using rev_ind; intros D x v.
  - cbn. split; [discriminate|]. intros (b & c & af & H & _). destruct b; discriminate H.
  - assert (D' : dictionaries acts) by (intros c H; apply D, in_or_app; now left). specialize (IH D' x v).
    rewrite run_acts_app, starts_snoc. cbn [run_acts]. set (s := run_acts start_session acts) in *.
    destruct a; try (rewrite act_keeps by discriminate; exact IH).
    destruct s as [w p] eqn:Es. cbn [do_act fst snd set_init pr_init]. rewrite dget_dupdate by (apply D, in_or_app; right; now left).
    cbn [snd] in IH. destruct (dget x c) as [v'|]; [|rewrite IH; split; [auto|intros [H|[_ H]]; [discriminate H|exact H]]].
    split; [auto|intros [H|[H _]]; [exact H|discriminate H]].
Qed.

Lemma time_exact acts names : pr_time (snd (run_acts start_session acts)) = Some names <-> times_by acts names.
Proof.
  induction acts as [|a acts IH] using rev_ind.
  - cbn. split; [discriminate|]. intros (b & af & H & _). destruct b; discriminate H.
  - rewrite run_acts_app. cbn [run_acts]. set (s := run_acts start_session acts) in *.
    assert (Q : (forall n, a <> ATime n) -> times_by (acts ++ [a]) names <-> times_by acts names).
    { intros Ha. split.
      - intros (b & af & E & N). apply split_last in E. destruct E as [(_ & _ & E)|(af' & -> & ->)]; [destruct (Ha names); now symmetry|].
        exists b, af'. split; [reflexivity|]. intros n H. apply (N n), in_or_app. now left.
      - intros (b & af & -> & N). exists b, (af ++ [a]). split; [now rewrite <- app_assoc|]. intros n H. apply in_app_or in H.
        destruct H as [H|[H|[]]]; [exact (N n H)|exact (Ha n H)]. }
    destruct a; try (rewrite act_keeps_time, Q by discriminate; exact IH).
    destruct s as [w p]. cbn [do_act fst snd set_time pr_time]. split.
    + intros H. injection H as ->. exists acts, []. split; [reflexivity|intros n []].
    + intros (b & af & E & N). apply split_last in E. destruct E as [(_ & _ & E)|(af' & -> & _)]; [now injection E as ->|].
      exfalso. apply (N names0), in_or_app. right. now left.
Qed.
