(** Property theorems: new studies and called problems (C38, C49). *)
From Verif Require Import Base Num Node SolverModel SimModel OptimModel SpecUnits SpecOptim BaseFacts OptimFacts StudiesFacts Properties10Optimisation.
From Coq Require Import Reals Lra.
Notation num := Verif.Num.num.

(** ** C38 *)
(** A study that was not run has no results and no success to tell of, and keeps the sense it
    was made with. *)
Theorem C38_new : forall accepts simconf a s, new_study accepts simconf a = Ok s ->
  st_success s = false /\ study_results s = Raise EException /\ st_max s = sa_max a /\ st_problem s = sa_problem a.
Proof. exact study_new. Qed.
Print Assumptions C38_new.
Example C38_new_case : exists s, new_study any_algorithm sim_conf maximise_x = Ok s /\ sa_max maximise_x = true.
Proof. eexists. split; vm_compute; reflexivity. Qed.

(** The flag the user assigns to a problem decides what is better, whatever it was before. *)
Theorem C38_flag : forall p m f1 f2 r1 r2, fit f1 r1 -> fit f2 r2 ->
  exists b, compare_fitness (op_set_max p m) f1 f2 = Ok b /\ (b = true <-> if m then (r1 > r2)%R else (r1 < r2)%R).
Proof. exact flag_sense. Qed.
Print Assumptions C38_flag.
Example C38_flag_case : compare_fitness (op_set_max (new_oproblem 1 "P" VNone false identity) true) [PInt 3] [PInt 2] = Ok true /\
  compare_fitness (op_set_max (new_oproblem 1 "P" VNone true identity) false) [PInt 3] [PInt 2] = Ok false.
Proof. split; vm_compute; reflexivity. Qed.

(** ** C49 *)
(** Two numbers bound a problem of one dimension once it is called, and are refused before. *)
Theorem C49_called : forall p x y, get_bounds (op_call (op_set_bounds p (VList [VNum x; VNum y]))) = Ok [BVec [VNum x]; BVec [VNum y]] /\
  (op_ready p = false -> exists b, get_bounds (op_set_bounds p (VList [VNum x; VNum y])) = Ok b /\ pg_box b = Raise EValue).
Proof. exact called_bounds. Qed.
Print Assumptions C49_called.
Example C49_called_case : op_ready (new_oproblem 1 "P" VNone true identity) = false.
Proof. reflexivity. Qed.

(** A study of a problem that was not called is refused and left as it was. *)
Theorem C49_uncalled : forall evolve after s l dim name b m f, st_constraints s = VList l -> st_problem s = new_oproblem dim name b m f ->
  run_study evolve after s = (s, Raise EAbsentRequired).
Proof. exact uncalled. Qed.
Print Assumptions C49_uncalled.
Example C49_uncalled_case : exists s l, new_study any_algorithm sim_conf (mkSA (new_oproblem 1 "P" VNone true identity) [SParam "x_M"] CNone
    (VList [VNum (PInt 0); VNum (PInt 1)]) true (OName "de") CNone) = Ok s /\ st_constraints s = VList l /\ st_problem s = new_oproblem 1 "P" VNone true identity.
Proof. eexists _, _. split; [vm_compute; reflexivity|split; reflexivity]. Qed.
