(** Proofs about the configuration a study simulates with. *)
From Verif Require Import Base BaseFacts Num SolverModel SimModel OptimModel SpecOptim OptimFacts SpecStudySim.

Lemma meant_read own a c : sim_configuration a own = Ok c <-> meant own a c.
Proof.
  split.
  - destruct a as [|r|d|]; cbn [sim_configuration].
    + destruct own as [d|]; [|discriminate]. intros H. injection H as <-. now constructor.
    + intros ->. constructor.
    + intros H. injection H as <-. constructor.
    + discriminate.
  - intros [d|d|d ->]; reflexivity.
Qed.

Lemma step_simconf s a : st_simconf (fst (ostep s a)) = st_simconf s.
Proof.
  destruct a as [c|p|evolve after]; try reflexivity. cbn [ostep]. unfold run_study. destruct (sane s) as [[]|]; try reflexivity.
  destruct (st_mech s) as [m|]; [|reflexivity]. destruct (rbind _ _) as [b|]; [|reflexivity]. destruct after; reflexivity.
Qed.

Lemma history_simconf l : forall s, st_simconf (ohist s l) = st_simconf s.
Proof. induction l as [|a r IH]; intros s; [reflexivity|]. cbn [ohist]. rewrite IH. apply step_simconf. Qed.

Lemma run_simconf evolve after s s' : run_study evolve after s = (s', Ok tt) -> op_simconf (st_problem s') = Some (st_simconf s).
Proof.
  unfold run_study. destruct (sane s) as [[]|]; try discriminate. destruct (st_mech s) as [m|]; [|discriminate].
  destruct (rbind _ _) as [b|]; [|discriminate]. destruct after; [|discriminate]. intros H. injection H as <-. reflexivity.
Qed.

Lemma study_simulates accepts own a s l evolve after s' : new_study accepts own a = Ok s ->
  run_study evolve after (ohist s l) = (s', Ok tt) ->
  exists c, meant own (sa_simconf a) c /\ op_simconf (st_problem s') = Some c.
Proof.
  intros H R. exists (st_simconf s). split.
  - apply meant_read. unfold new_study in H. binv2. injection H as <-. reflexivity.
  - rewrite (run_simconf _ _ _ _ R). now rewrite history_simconf.
Qed.

Lemma study_unmeant accepts own a : (forall c, ~ meant own (sa_simconf a) c) -> exists e, new_study accepts own a = Raise e.
Proof.
  intros H. unfold new_study. destruct (sim_configuration (sa_simconf a) own) as [c|e] eqn:E.
  - apply meant_read in E. now contradiction (H c).
  - now exists e.
Qed.
