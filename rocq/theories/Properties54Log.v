(** C96: the log of an optimisation and the graph of its progress. *)
From Verif Require Import Base BaseFacts Num Node SolverModel SimModel OptimModel SpecUnits SpecOptim OptimFacts LogModel SpecLog LogFacts Properties10Optimisation.
Notation num := Verif.Num.num.

(** ** C96 *)
(** What a run does to the study itself is what run_study of C38, C49 and C50 does. *)
Theorem C96_same : forall evolve log keep graph s, exists after, forall s' r, run_logged evolve log keep graph s = (s', r) ->
  run_study evolve after (ls_study s) = (ls_study s', r).
Proof. exact logged_study. Qed.
Print Assumptions C96_same.

(** A run that is not asked to keep the log leaves the one there is, one that is
    not asked for a graph draws none, and one that does not get to the best
    individual touches neither. *)
Theorem C96_untouched : forall evolve log keep graph s s' r, run_logged evolve log keep graph s = (s', r) ->
  (keep = false -> ls_log s' = ls_log s) /\ (graph = false -> ls_graphs s' = ls_graphs s) /\
  (~ evolves evolve (ls_study s) -> ls_log s' = ls_log s /\ ls_graphs s' = ls_graphs s).
Proof. exact log_untouched. Qed.
Print Assumptions C96_untouched.

(** The log is that of the run, each column under the name of pygmo's documentation.
    Missing here and below: the mechanism 'de', refuted below. *)
Theorem C96_log_partial : forall evolve log graph s m s' r, evolves evolve (ls_study s) -> st_mech (ls_study s) = Some m -> me_algo m <> DE ->
  as_documented (me_algo m) log -> run_logged evolve log true graph s = (s', r) -> ls_log s' = Some (LFrame (documented (me_algo m)) log).
Proof. exact log_kept. Qed.
Print Assumptions C96_log_partial.

(** Without a graph the run ends well. *)
Theorem C96_finishes_partial : forall evolve log keep s m, evolves evolve (ls_study s) -> st_mech (ls_study s) = Some m -> me_algo m <> DE ->
  as_documented (me_algo m) log -> exists s', run_logged evolve log keep false s = (s', Ok tt) /\ st_success (ls_study s') = true.
Proof. exact log_finishes. Qed.
Print Assumptions C96_finishes_partial.

(** The graph shows the best objective of this run over its evaluations.
    Missing: an empty log, and runs whose log is not kept; refuted below. *)
Theorem C96_graph_partial : forall evolve log s m, used_study s -> evolves evolve (ls_study s) -> st_mech (ls_study s) = Some m -> me_algo m <> DE ->
  as_documented (me_algo m) log -> log <> [] ->
  exists s' g, run_logged evolve log true true s = (s', Ok tt) /\ st_success (ls_study s') = true /\ ls_graphs s' = ls_graphs s ++ [g] /\ draws (me_algo m) log g.
Proof. exact log_drawn. Qed.
Print Assumptions C96_graph_partial.

Definition by_swarm : study := the_study (with_optimizer maximise_x (OName "pso") CNone).
Definition swarm_log : list (list num) :=
  [[PInt 1; PInt 10; PInt 7; PInt 0; PInt 8; PInt 2]; [PInt 2; PInt 20; PInt 5; PInt 0; PInt 6; PInt 1]].
Definition swarm : lstudy := mkLS by_swarm None [].
Lemma swarm_used : used_study swarm.
Proof. exists any_algorithm, sim_conf, (with_optimizer maximise_x (OName "pso") CNone), by_swarm, []. split; reflexivity. Qed.
Example C96_case : used_study swarm /\ evolves corners (ls_study swarm) /\ option_map me_algo (st_mech (ls_study swarm)) = Some PSO /\
  as_documented PSO swarm_log /\ swarm_log <> [] /\
  snd (run_logged corners swarm_log true true swarm) = Ok tt /\
  ls_log (fst (run_logged corners swarm_log true true swarm)) = Some (LFrame (documented PSO) swarm_log) /\
  ls_graphs (fst (run_logged corners swarm_log true true swarm)) = [[(PInt 10, PInt 7); (PInt 20, PInt 5)]].
Proof.
  split; [exact swarm_used|]. split; [reflexivity|]. split; [reflexivity|].
  split; [intros r [<-|[<-|[]]]; reflexivity|]. split; [discriminate|]. repeat split; reflexivity.
Qed.

(** ** Where it fails *)
(** Every run of 'de' whose log has entries as documented ends in ValueError,
    after the best individual is stored. *)
Theorem C96_de_refuted : forall evolve log graph s m, evolves evolve (ls_study s) -> st_mech (ls_study s) = Some m -> me_algo m = DE -> as_documented DE log -> log <> [] ->
  exists s', run_logged evolve log true graph s = (s', Raise EValue) /\ ls_log s' = Some (LRaw log) /\ st_success (ls_study s') = st_success (ls_study s) /\
    exists best, st_best (ls_study s') = Some best.
Proof. exact de_fails. Qed.
Print Assumptions C96_de_refuted.
Definition evolved : lstudy := mkLS (the_study maximise_x) None [].
Definition evolved_log : list (list num) := [[PInt 1; PInt 10; PInt 7; PInt 1; PInt 1]].
Example C96_de_case : evolves corners (ls_study evolved) /\ option_map me_algo (st_mech (ls_study evolved)) = Some DE /\
  as_documented DE evolved_log /\ evolved_log <> [] /\ snd (run_logged corners evolved_log true false evolved) = Raise EValue.
Proof. split; [reflexivity|]. split; [reflexivity|]. split; [intros r [<-|[]]; reflexivity|]. split; [discriminate|reflexivity]. Qed.

(** A graph of an empty log, which pygmo gives with the default
    report_frequency=0, cannot be drawn. *)
Theorem C96_empty_refuted : forall evolve s, used_study s -> evolves evolve (ls_study s) -> exists s', run_logged evolve [] true true s = (s', Raise EValue) /\
  st_success (ls_study s') = st_success (ls_study s) /\ ls_graphs s' = ls_graphs s /\ exists best, st_best (ls_study s') = Some best.
Proof. exact empty_fails. Qed.
Print Assumptions C96_empty_refuted.
(** [C96_case] meets its hypotheses. *)
Example C96_empty_case : snd (run_logged corners [] true true swarm) = Raise EValue.
Proof. reflexivity. Qed.

(** With optimization_log=False the graph is that of an earlier run. *)
Definition later_log : list (list num) := [[PInt 1; PInt 10; PInt 3; PInt 0; PInt 4; PInt 2]].
Definition earlier : lstudy := lhist swarm [LRun corners swarm_log true false].
(** An evolution that raises. *)
Example C96_untouched_case : ~ evolves (fun _ _ _ _ => Raise EValue) (ls_study earlier) /\
  ls_log (fst (run_logged (fun _ _ _ _ => Raise EValue) later_log true true earlier)) = Some (LFrame (documented PSO) swarm_log) /\
  ls_log (fst (run_logged corners later_log false false earlier)) = Some (LFrame (documented PSO) swarm_log).
Proof. split; [vm_compute; discriminate|]. split; vm_compute; reflexivity. Qed.
Theorem C96_stale_refuted : exists evolve log s s' g, used_study s /\ evolves evolve (ls_study s) /\ option_map me_algo (st_mech (ls_study s)) = Some PSO /\
  as_documented PSO log /\ log <> [] /\ run_logged evolve log false true s = (s', Ok tt) /\ ls_graphs s' = ls_graphs s ++ [g] /\ ~ draws PSO log g.
Proof.
  exists corners, later_log, earlier, (fst (run_logged corners later_log false true earlier)), [(PInt 10, PInt 7); (PInt 20, PInt 5)].
  split; [exists any_algorithm, sim_conf, (with_optimizer maximise_x (OName "pso") CNone), by_swarm, [LRun corners swarm_log true false]; split; reflexivity|].
  split; [reflexivity|]. split; [reflexivity|]. split; [intros r [<-|[]]; reflexivity|]. split; [discriminate|]. split; [reflexivity|]. split; [reflexivity|].
  intros D. inversion D as [|? ? ? ? _ D']. inversion D'.
Qed.
Print Assumptions C96_stale_refuted.

(** Before the first run there is no log to ask for. *)
Theorem C96_before_refuted : exists s, used_study s /\ study_log (ls_log s) = Raise EAttribute.
Proof. exists swarm. split; [exact swarm_used|reflexivity]. Qed.
Print Assumptions C96_before_refuted.
