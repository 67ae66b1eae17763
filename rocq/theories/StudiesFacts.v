(** * Proofs about new studies and called problems (C38, C49) *)
From Verif Require Import Base Num Node SolverModel SimModel OptimModel SpecUnits SpecOptim BaseFacts OptimFacts.
From Coq Require Import Reals Lra.
Notation num := Verif.Num.num.

Lemma study_new accepts simconf a s : new_study accepts simconf a = Ok s ->
  st_success s = false /\ study_results s = Raise EException /\ st_max s = sa_max a /\ st_problem s = sa_problem a.
Proof.
  unfold new_study. destruct (sim_configuration _ _); [|discriminate]. cbn [rbind]. destruct (opt_configuration _); [|discriminate]. cbn [rbind].
  destruct (set_optimizer _ _ _); [|discriminate]. cbn [rbind]. intros E. injection E as <-. repeat split.
Qed.

Lemma flag_sense p m f1 f2 r1 r2 : fit f1 r1 -> fit f2 r2 ->
  exists b, compare_fitness (op_set_max p m) f1 f2 = Ok b /\ (b = true <-> if m then (r1 > r2)%R else (r1 < r2)%R).
Proof. exact (comparison_sense (op_set_max p m) f1 f2 r1 r2). Qed.

Lemma called_bounds p x y : get_bounds (op_call (op_set_bounds p (VList [VNum x; VNum y]))) = Ok [BVec [VNum x]; BVec [VNum y]] /\
  (op_ready p = false -> exists b, get_bounds (op_set_bounds p (VList [VNum x; VNum y])) = Ok b /\ pg_box b = Raise EValue).
Proof. split; [reflexivity|]. intros R. unfold get_bounds. cbn [op_ready op_set_bounds op_bounds]. rewrite R. eexists. split; reflexivity. Qed.

Lemma uncalled evolve after s l dim name b m f : st_constraints s = VList l -> st_problem s = new_oproblem dim name b m f ->
  run_study evolve after s = (s, Raise EAbsentRequired).
Proof. intros C P. unfold run_study. rewrite (sane_list s l C), P. reflexivity. Qed.
