(** Property theorems C38, C39, C49 and C50 (optimisation studies). *)
From Verif Require Import Base Num Node SolverModel SimModel OptimModel SpecUnits SpecOptim BaseFacts OptimFacts.
From Coq Require Import Reals Lra.
Notation num := Verif.Num.num.

(** Cases used below. *)
Definition any_algorithm : algo -> dict cval -> bool := fun _ _ => true.
Definition identity (x : list num) : res (list num) := Ok x.
Definition sim_conf : option (dict cval) := Some [("end_time", VNum (PInt 16))].
(** Maximise x over 0 <= x <= 1, with both flags saying so. *)
Definition maximise_x : sargs :=
  mkSA (op_call (new_oproblem 1 "P" VNone true identity)) [SParam "x_M"] CNone (VList [VNum (PInt 0); VNum (PInt 1)]) true
       (OName "de") (CDict [("number_of_individuals", VNum (PInt 10)); ("scale_factor", VNum (PInt 1))]).
Definition the_study (a : sargs) : study :=
  match new_study any_algorithm sim_conf a with
  | Ok s => s
  | Raise _ => mkSt (sa_problem a) [] [] VNone false [] None None None false
  end.
Definition with_constraints (a : sargs) (c : cval) (ps : list oparam) : sargs :=
  mkSA (sa_problem a) ps (sa_simconf a) c (sa_max a) (sa_optimizer a) (sa_conf a).
Definition with_optimizer (a : sargs) (o : optarg) (c : confarg) : sargs :=
  mkSA (sa_problem a) (sa_params a) (sa_simconf a) (sa_constraints a) (sa_max a) o c.

(** ** C38 *)
(** The comparison of a problem follows its flag. *)
Theorem C38_comparison : forall p f1 f2 r1 r2, fit f1 r1 -> fit f2 r2 ->
  exists b, compare_fitness p f1 f2 = Ok b /\ (b = true <-> if op_max p then (r1 > r2)%R else (r1 < r2)%R).
Proof. exact comparison_sense. Qed.
Print Assumptions C38_comparison.

Example C38_comparison_case : fit [PInt 3] 3 /\ fit [fdec 25 1; PInt 7] 2.5 /\
  (let p := new_oproblem 1 "P" VNone false identity in
   compare_fitness (op_set_max p true) [PInt 3] [fdec 25 1; PInt 7] = Ok true /\
   compare_fitness p [PInt 3] [fdec 25 1; PInt 7] = Ok false).
Proof.
  split; [exists (PInt 3), []; split; reflexivity|]. split; [|vm_compute; auto].
  exists (fdec 25 1), [PInt 7]. split; [reflexivity|]. cbn [fdec nvalue].
  exists (Flocq.IEEE754.BinarySingleNaN.B754_finite (prec:=53) (emax:=1024) false 5629499534213120 (-51) eq_refl).
  split; [vm_compute; reflexivity|]. split; [reflexivity|]. cbn. unfold Flocq.Core.Defs.F2R. cbn. lra.
Qed.

(** A minimisation finds the best of the points its algorithm looked at. *)
Theorem C38_minimisation_partial : forall (explored : mechanism -> list num * list num -> cval -> list (list num)) (evolve : evolution) after s s',
  (forall m g box n x f, evolve m g box n = Ok (x, f) -> best_of false g (explored m box n) x) ->
  run_study evolve after s = (s', Ok tt) ->
  exists m lo hi n x f, st_mech s = Some m /\ box_of (st_constraints s) lo hi /\ dget "number_of_individuals" (st_conf s) = Some n /\
    study_results s' = Ok (x, f) /\ best_of false (op_fitness (st_problem s)) (explored m (lo, hi) n) x.
Proof. exact run_minimises. Qed.
Print Assumptions C38_minimisation_partial.

(** Neither flag has any effect on a run. *)
Theorem C38_sense_ignored : forall evolve after s t s' o t' q, same_but_sense s t ->
  run_study evolve after s = (s', o) -> run_study evolve after t = (t', q) ->
  o = q /\ st_best s' = st_best t' /\ same_but_sense s' t'.
Proof. exact run_ignores_sense. Qed.
Print Assumptions C38_sense_ignored.

Example C38_run_case : (exists s, new_study any_algorithm sim_conf maximise_x = Ok s) /\
  snd (run_study corners (Ok tt) (the_study maximise_x)) = Ok tt /\
  study_results (fst (run_study corners (Ok tt) (the_study maximise_x))) = Ok ([PInt 0], [PInt 0]) /\
  same_but_sense (the_study maximise_x)
    (the_study (mkSA (op_set_max (sa_problem maximise_x) true) (sa_params maximise_x) CNone (sa_constraints maximise_x) false
                     (sa_optimizer maximise_x) (sa_conf maximise_x))).
Proof.
  split; [eexists; reflexivity|]. split; [reflexivity|]. split; [reflexivity|].
  split; [exists true; reflexivity|]. repeat split.
Qed.

(** A problem declared as maximisation compares like a minimisation. *)
Theorem C38_declared_refuted : exists dim name bounds f f1 f2 r1 r2, fit f1 r1 /\ fit f2 r2 /\ (r1 < r2)%R /\
  compare_fitness (new_oproblem dim name bounds true f) f1 f2 = Ok true.
Proof.
  exists 1%nat, "P", VNone, identity, [PInt 1], [PInt 2], 1%R, 2%R.
  split; [exists (PInt 1), []; split; reflexivity|]. split; [exists (PInt 2), []; split; reflexivity|].
  split; [lra|reflexivity].
Qed.
Print Assumptions C38_declared_refuted.

(** Declared as maximisation in both places, a study run with a correct minimiser
    returns the smallest value. *)
Theorem C38_refuted : exists (evolve : evolution) a s s' x f lo hi,
  (forall m g box n y fy, evolve m g box n = Ok (y, fy) -> best_of false g [fst box; snd box] y) /\
  new_study any_algorithm sim_conf a = Ok s /\ sa_max a = true /\ sa_problem a = op_call (new_oproblem 1 "P" VNone true identity) /\
  run_study evolve (Ok tt) s = (s', Ok tt) /\ box_of (st_constraints s) lo hi /\ study_results s' = Ok (x, f) /\
  ~ best_of true identity [lo; hi] x.
Proof.
  exists corners, maximise_x, (the_study maximise_x). eexists. exists [PInt 0], [PInt 0], [PInt 0], [PInt 1].
  split; [exact corners_minimise|]. split; [reflexivity|]. split; [reflexivity|]. split; [reflexivity|].
  split; [reflexivity|]. split; [|split; [reflexivity|]].
  - split; [right; exists (PInt 0), (PInt 1); auto|]. split; [discriminate|]. split; [reflexivity|].
    intros [|[|i]] u v Hu Hv; try discriminate. injection Hu as <-. injection Hv as <-. reflexivity.
  - intros [_ H]. specialize (H [PInt 1] [PInt 0] [PInt 1] 0%R 1%R). cbn in H.
    assert (1 <= 0)%R; [|lra]. apply H; auto; unfold fit; eexists; eexists; split; reflexivity.
Qed.
Print Assumptions C38_refuted.

(** ** C39 *)
(** Options of the user, then defaults. *)
Theorem C39_override : forall accepts simconf a s d, new_study accepts simconf a = Ok s -> sa_conf a = CDict d -> NoDup (dkeys d) ->
  forall k, (forall v, dget k d = Some v -> dget k (st_conf s) = Some v) /\
            (dget k d = None -> dget k (st_conf s) = usual k).
Proof. exact options_override. Qed.
Print Assumptions C39_override.

Theorem C39_default : forall accepts simconf a s, new_study accepts simconf a = Ok s -> sa_conf a = CNone ->
  forall k, dget k (st_conf s) = usual k.
Proof. exact options_default. Qed.
Print Assumptions C39_default.

(** The algorithm of a known mechanism gets the options under its own keywords,
    all but the neighbourhood of particle swarms. *)
Theorem C39_used_partial : forall accepts simconf a s m, new_study accepts simconf a = Ok s -> sa_optimizer a = OName m -> known m ->
  exists mech, st_mech s = Some mech /\ forall k al w, role m k al w ->
    me_algo mech = al /\ exists v, dget k (st_conf s) = Some v /\ dget w (me_args mech) = Some v.
Proof. exact study_options. Qed.
Print Assumptions C39_used_partial.

(** A study with an unknown mechanism never has results. *)
Theorem C39_unknown_partial : forall accepts simconf a s l m, new_study accepts simconf a = Ok s -> sa_optimizer a = OName m -> ~ known m ->
  study_results (ohist s l) = Raise EException.
Proof. exact unknown_never. Qed.
Print Assumptions C39_unknown_partial.

Example C39_case :
  (exists s, new_study any_algorithm sim_conf maximise_x = Ok s /\
     dget "scale_factor" (st_conf s) = Some (VNum (PInt 1)) /\ dget "variant_de" (st_conf s) = Some (VNum (PInt 10)) /\
     exists mech, st_mech s = Some mech /\ me_algo mech = DE /\ dget "F" (me_args mech) = Some (VNum (PInt 1))) /\
  known "de" /\ role "de" "scale_factor" DE "F" /\
  (exists s, new_study any_algorithm sim_conf (with_optimizer maximise_x (OName "ga") CNone) = Ok s /\
     exists mech, st_mech s = Some mech /\ dget "crossover" (me_args mech) = Some (VStr "exponential")) /\
  NoDup (dkeys [("number_of_individuals", VNum (PInt 10)); ("scale_factor", VNum (PInt 1))]).
Proof.
  split; [eexists; split; [reflexivity|]; split; [reflexivity|]; split; [reflexivity|]; eexists; split; [reflexivity|]; split; reflexivity|].
  split; [unfold known; cbn; auto|]. split; [constructor; cbn; auto|].
  split; [eexists; split; [reflexivity|]; eexists; split; reflexivity|].
  repeat constructor; cbn; intuition discriminate.
Qed.

(** An unknown mechanism is accepted. *)
Theorem C39_unknown_refuted : exists a s m, sa_optimizer a = OName m /\ ~ known m /\ new_study any_algorithm sim_conf a = Ok s.
Proof.
  exists (with_optimizer maximise_x (OName "genetic") CNone). eexists. exists "genetic". split; [reflexivity|].
  split; [|reflexivity]. unfold known. cbn. intuition discriminate.
Qed.
Print Assumptions C39_unknown_refuted.

(** The neighbourhood options of the particle swarm are not passed on. *)
Theorem C39_used_refuted : exists accepts simconf a s m mech k al w v,
  new_study accepts simconf a = Ok s /\ sa_optimizer a = OName m /\ offered m k al w /\
  st_mech s = Some mech /\ dget k (st_conf s) = Some v /\ dget w (me_args mech) = None.
Proof.
  exists any_algorithm, sim_conf, (with_optimizer maximise_x (OName "pso") (CDict [("neighborhood_type_pso", VNum (PInt 1))])).
  eexists. exists "pso". eexists. exists "neighborhood_type_pso", PSO, "neighb_type". eexists.
  split; [reflexivity|]. split; [reflexivity|]. split; [exact o_type|]. split; [reflexivity|]. split; reflexivity.
Qed.
Print Assumptions C39_used_refuted.

(** ** C49 *)
(** In a successful run every parameter is kept to the interval the constraints
    give for it. *)
Theorem C49_intervals : forall evolve after s s', keeps_box evolve -> run_study evolve after s = (s', Ok tt) ->
  exists x f, study_results s' = Ok (x, f) /\
    forall i lo hi, interval (st_params s) (st_constraints s) i lo hi -> exists c, nth_error x i = Some c /\ within_limits lo hi c.
Proof. exact run_intervals. Qed.
Print Assumptions C49_intervals.

(** The constraints of a successful run are a pair of limits. *)
Theorem C49_pairs_only : forall evolve after s s', run_study evolve after s = (s', Ok tt) ->
  exists lo hi, box_of (st_constraints s) lo hi.
Proof. exact run_needs_pairs. Qed.
Print Assumptions C49_pairs_only.

(** A dictionary that lacks a studied parameter is refused and nothing changes. *)
Theorem C49_missing : forall evolve after s d, st_constraints s = VDict d ->
  ((forall x, In x (st_params s) -> exists n, x = QParam n) \/ (forall x, In x (st_params s) -> exists n, x = SParam n)) ->
  (exists x n, In x (st_params s) /\ param_name x = Some n /\ dget n d = None) ->
  run_study evolve after s = (s, Raise EAbsentRequired).
Proof. exact missing_refused. Qed.
Print Assumptions C49_missing.

(** But complete dictionaries fail as well: no dictionary can ever be used. *)
Theorem C49_dictionary_never : forall evolve after s d, st_constraints s = VDict d -> exists e, snd (run_study evolve after s) = Raise e.
Proof. exact dictionary_never. Qed.
Print Assumptions C49_dictionary_never.

Definition two_limits : cval := VList [VList [VNum (PInt 0); VNum (PInt 2)]; VList [VNum (PInt 1); VNum (PInt 5)]].
(** An evolution that keeps to its box: the lower corner. *)
Definition low_corner : evolution := fun m g box n =>
  if forallb is_pint (fst box) && forallb is_pint (snd box) && all_ordered (fst box) (snd box) then let* f := g (fst box) in Ok (fst box, f)
  else Raise EValue.
Lemma low_corner_keeps : keeps_box low_corner.
Proof.
  intros m g lo hi n x f H. unfold low_corner in H. cbn [fst snd] in H.
  destruct (forallb is_pint lo && forallb is_pint hi && all_ordered lo hi)%bool eqn:E; [|discriminate].
  apply andb_prop in E. destruct E as [E1 E3]. apply andb_prop in E1. destruct E1 as [E1 E2].
  destruct (g lo) as [fl|]; [|discriminate]. cbn in H. injection H as <- <-. split; [reflexivity|].
  intros i a b c Ha Hb Hc. rewrite Ha in Hc. injection Hc as <-.
  apply all_ordered_spec in E3. destruct E3 as [_ E3]. specialize (E3 i a b Ha Hb).
  rewrite forallb_forall in E1, E2. apply nth_error_In in Ha, Hb. specialize (E1 a Ha). specialize (E2 b Hb).
  destruct a as [za|], b as [zb|]; try discriminate. exists (IZR za), (IZR zb), (IZR za).
  repeat (split; [reflexivity|]). split; [lra|]. apply (ordered_value (PInt za) (PInt zb) (IZR za) (IZR zb)); auto; reflexivity.
Qed.
Example C49_case : let s := the_study (with_constraints maximise_x two_limits [SParam "x_M"; SParam "y_M"]) in
  keeps_box low_corner /\ snd (run_study low_corner (Ok tt) s) = Ok tt /\
  study_results (fst (run_study low_corner (Ok tt) s)) = Ok ([PInt 0; PInt 2], [PInt 0; PInt 2]) /\
  interval (st_params s) (st_constraints s) 1 (PInt 2) (PInt 5).
Proof.
  split; [exact low_corner_keeps|]. split; [reflexivity|]. split; [reflexivity|]. now constructor.
Qed.
Example C49_missing_case : let s := the_study (with_constraints maximise_x (VDict [("x_M", VList [VNum (PInt 0); VNum (PInt 1)])]) [SParam "x_M"; SParam "y_M"]) in
  run_study corners (Ok tt) s = (s, Raise EAbsentRequired) /\ exists x n, In x (st_params s) /\ param_name x = Some n /\
  dget n [("x_M", VList [VNum (PInt 0); VNum (PInt 1)])] = None.
Proof. split; [reflexivity|]. exists (SParam "y_M"), "y_M". cbn. auto. Qed.

(** The documented form of constraints, one interval per name, cannot be run. *)
Theorem C49_dictionary_refuted : exists a s, new_study any_algorithm sim_conf a = Ok s /\ op_ready (st_problem s) = true /\
  (forall i, (i < List.length (st_params s))%nat -> exists lo hi, interval (st_params s) (st_constraints s) i lo hi) /\
  forall evolve after, exists e, snd (run_study evolve after s) = Raise e.
Proof.
  exists (with_constraints maximise_x (VDict [("x_M", VList [VNum (PInt 0); VNum (PInt 1)])]) [SParam "x_M"]). eexists.
  split; [reflexivity|]. split; [reflexivity|]. split.
  - intros [|i] Hi; [|cbn in Hi; lia]. exists (PInt 0), (PInt 1). eapply i_dict; reflexivity.
  - intros evolve after. eapply dictionary_never. reflexivity.
Qed.
Print Assumptions C49_dictionary_refuted.

(** ** C50 *)
(** getResults returns the champion of the latest evolution that ended. *)
Theorem C50_latest : forall accepts simconf a s l b, new_study accepts simconf a = Ok s ->
  (study_results (ohist s l) = Ok b <-> last_champion s l b).
Proof.
  exact (fun accepts simconf a s l b H =>
    match study_mechanism accepts simconf a s H with ex_intro _ c (conj _ (conj _ (conj _ (conj _ (conj Hb _))))) => results_latest s l b Hb end).
Qed.
Print Assumptions C50_latest.
(** Before there is one it raises. *)
Theorem C50_raises : forall accepts simconf a s l, new_study accepts simconf a = Ok s -> (forall b, ~ last_champion s l b) ->
  study_results (ohist s l) = Raise EException.
Proof.
  exact (fun accepts simconf a s l H =>
    match study_mechanism accepts simconf a s H with ex_intro _ c (conj _ (conj _ (conj _ (conj _ (conj Hb _))))) => results_raise s l Hb end).
Qed.
Print Assumptions C50_raises.

Example C50_case : let s := the_study maximise_x in
  new_study any_algorithm sim_conf maximise_x = Ok s /\
  study_results s = Raise EException /\
  study_results (ohist s [ORun corners (Ok tt); OConstraints (VList [VNum (PInt 7); VNum (PInt 8)]); ORun corners (Ok tt);
                          OConstraints VNone; ORun corners (Ok tt)]) = Ok ([PInt 7], [PInt 7]).
Proof. vm_compute. auto. Qed.
