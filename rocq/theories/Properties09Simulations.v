(** Property theorems C35-C37 and C48 (configurations and simulations). *)
From Verif Require Import Base Num UnitModel Node Build EquationModel ModelModel ProblemModel SolverModel DomainModel SimModel
  SpecProblem SpecSim SessionFacts SimFacts Demo Properties07Problems Properties08Solvers.
Notation num := Verif.Num.num.

(** Reading one option off a world. *)
Definition shown (w : sworld) (j : nat) (k : string) : option cval :=
  match nth_error (sw_sims w) j with
  | Some s => match option_of s k with Some v => Some (contents (sw_store w) v) | None => None end
  | None => None
  end.
Lemma shown_sees w j k v : shown w j k = Some v -> sees w j k v.
Proof.
  unfold shown, sees. destruct (nth_error (sw_sims w) j) as [s|]; [|discriminate].
  destruct (option_of s k) as [v0|] eqn:E; [|discriminate]. intros [= <-]. exists s, v0. auto.
Qed.
Lemma sees_shown w j k v : sees w j k v -> shown w j k = Some v.
Proof. intros (s & v0 & Hs & Ho & ->). unfold shown. now rewrite Hs, Ho. Qed.

(** ** C35 *)
(** With a definition dictionary every option in it has its value and the others
    keep what was written. *)
Theorem C35_dictionary_partial : forall s a s' d,
  set_configurations s a = Ok s' -> ca_file a = None -> ca_dict a = VDict d -> NoDup (dkeys d) ->
  forall k, k <> "number_parameters_to_optimize" ->
  (forall v, dget k d = Some v -> option_of s' k = Some v) /\
  (forall v, dget k d = None -> written (ca_kwargs a) k v -> documented k -> option_of s' k = Some v) /\
  (dget k d = None -> ~ documented k -> option_of s' k = None).
Proof. exact conf_dictionary. Qed.
Print Assumptions C35_dictionary_partial.

(** The remaining option: a keyword other than 0 wins over the dictionary. *)
Theorem C35_number : forall s a s' d,
  set_configurations s a = Ok s' -> ca_file a = None -> ca_dict a = VDict d -> NoDup (dkeys d) ->
  (forall n, number_given (ca_kwargs a) n ->
     exists m, option_of s' "number_parameters_to_optimize" = Some m /\ (m = n \/ cval_eqb m n = true)) /\
  ((forall n, ~ number_given (ca_kwargs a) n) ->
     (forall v, dget "number_parameters_to_optimize" d = Some v -> option_of s' "number_parameters_to_optimize" = Some v) /\
     (forall v, dget "number_parameters_to_optimize" d = None ->
        written (ca_kwargs a) "number_parameters_to_optimize" v -> option_of s' "number_parameters_to_optimize" = Some v)).
Proof. exact conf_number. Qed.
Print Assumptions C35_number.

(** Without dictionary and file: keywords, then defaults; the time variable of a
    dynamic simulation comes from its problem unless given. *)
Theorem C35_keywords : forall s a s', set_configurations s a = Ok s' -> ca_file a = None -> ca_dict a = VNone ->
  (forall k v, k <> "time_variable_name" -> documented k -> written (ca_kwargs a) k v -> option_of s' k = Some v) /\
  (forall v, written (ca_kwargs a) "time_variable_name" v -> v <> VNone -> option_of s' "time_variable_name" = Some v) /\
  (written (ca_kwargs a) "time_variable_name" VNone -> ~ written (ca_kwargs a) "is_dynamic" (VBool true) ->
     option_of s' "time_variable_name" = Some VNone) /\
  (written (ca_kwargs a) "time_variable_name" VNone -> written (ca_kwargs a) "is_dynamic" (VBool true) ->
     exists p, sm_problem s = Some p /\ option_of s' "time_variable_name" = Some (time_value p)).
Proof. exact conf_keywords. Qed.
Print Assumptions C35_keywords.

(** No option disappears unless a file is used. *)
Theorem C35_complete_partial : forall s a s', set_configurations s a = Ok s' -> ca_file a = None ->
  (forall d, ca_dict a = VDict d -> NoDup (dkeys d)) ->
  forall k, documented k -> exists v, option_of s' k = Some v.
Proof. exact conf_complete. Qed.
Print Assumptions C35_complete_partial.

(** With a file the options are those of the file. *)
Theorem C35_file : forall s a s' c, set_configurations s a = Ok s' -> ca_file a = Some (Ok c) ->
  forall k, k <> "number_parameters_to_optimize" -> option_of s' k = dget k c.
Proof. exact conf_file. Qed.
Print Assumptions C35_file.

Definition demo_conf : confargs :=
  mkConf [("end_time", VNum (PInt 9)); ("is_dynamic", VBool true); ("number_parameters_to_optimize", VNum (PInt 2))]
         (VDict [("end_time", VNum (PInt 16)); ("my_option", VBool true)]) None.
Definition conf_value (r : res sim) (k : string) : option cval :=
  match r with Ok s => option_of s k | Raise _ => None end.
Example C35_case : (exists s', set_configurations new_sim demo_conf = Ok s') /\
  map (conf_value (set_configurations new_sim demo_conf))
      ["end_time"; "is_dynamic"; "linear_solver"; "my_option"; "number_parameters_to_optimize"; "time_variable_name"] =
  [Some (VNum (PInt 16)); Some (VBool true); Some (VStr "symbolicsys"); Some (VBool true); Some (VNum (PInt 2)); Some VNone] /\
  number_given (ca_kwargs demo_conf) (VNum (PInt 2)) /\
  (let a := mkConf [("is_dynamic", VBool true)] VNone None in
   let s := with_problem new_sim (set_time new_problem ["t_M"]) in
   set_configurations new_sim a = Raise EAttribute /\
   conf_value (set_configurations s a) "time_variable_name" = Some (VList [VStr "t_M"])).
Proof. split; [vm_compute; eauto|]. vm_compute. auto 10. Qed.

(** The keyword overrules the dictionary although the dictionary is said to
    override every argument. *)
Theorem C35_dictionary_refuted : exists s a s' d v,
  set_configurations s a = Ok s' /\ ca_file a = None /\ ca_dict a = VDict d /\ NoDup (dkeys d) /\
  dget "number_parameters_to_optimize" d = Some v /\ option_of s' "number_parameters_to_optimize" <> Some v.
Proof.
  exists new_sim, (mkConf [("number_parameters_to_optimize", VNum (PInt 2))] (VDict [("number_parameters_to_optimize", VNum (PInt 1))]) None).
  eexists. eexists. exists (VNum (PInt 1)). split; [reflexivity|]. split; [reflexivity|]. split; [reflexivity|].
  split; [repeat constructor; intros []|]. split; [reflexivity|]. discriminate.
Qed.
Print Assumptions C35_dictionary_refuted.

(** A file that holds one option leaves a configuration without the others;
    running it fails. *)
Theorem C35_complete_refuted : exists s a s' k, set_configurations s a = Ok s' /\ documented k /\ option_of s' k = None /\
  forall tables st sanity show dof out, snd (run_sim tables st s' sanity show dof out) = Raise EKey.
Proof.
  exists new_sim, (mkConf [] VNone (Some (Ok [("end_time", VNum (PInt 16))]))). eexists. exists "linear_solver".
  split; [reflexivity|]. split; [unfold documented; cbn; tauto|]. split; [reflexivity|]. reflexivity.
Qed.
Print Assumptions C35_complete_refuted.

(** ** C36 *)
(** A run changes nothing but the list used for [arg_names], at whose end it puts
    the name of its time variable. *)
Theorem C36_effect : forall tables w i sanity show dof out w' o,
  sstep tables w (ARun i sanity show dof out) = (w', o) ->
  sw_store w' = sw_store w \/
  exists s r l t, nth_error (sw_sims w) i = Some s /\ option_of s "arg_names" = Some (VRef r) /\
    option_of s "time_variable_name" = Some t /\ nth_error (sw_store w) r = Some l /\
    existsb (same_name t) l = false /\ sw_store w' = set_nth (sw_store w) r (l ++ [t]).
Proof. exact run_store. Qed.
Print Assumptions C36_effect.

(** In its own configuration too: the other options of a simulation that was
    configured by keywords stay as they are. *)
Theorem C36_own : forall tables w i sanity show dof out w' o k v s a s', set_configurations s a = Ok s' -> ca_file a = None -> ca_dict a = VNone ->
  dget "arg_names" (ca_kwargs a) = None -> documented k -> k <> "arg_names" -> (forall r, dget k (ca_kwargs a) <> Some (VRef r)) ->
  nth_error (sw_sims w) i = Some s' -> sees w i k v -> sstep tables w (ARun i sanity show dof out) = (w', o) -> sees w' i k v.
Proof. exact run_own. Qed.
Print Assumptions C36_own.

(** Configuring, setting problems and creating simulations leave all other
    configurations alone, and so does running one that uses its own list. *)
Theorem C36_step_partial : forall tables w a w' o j k v r0 s0,
  sstep tables w a = (w', o) -> target a <> Some j -> sees w j k v ->
  nth_error (sw_sims w) j = Some s0 -> option_of s0 k = Some r0 ->
  (forall r, r0 = VRef r -> (r < List.length (sw_store w))%nat /\ forall i, target a = Some i -> ~ appends_to w i r) ->
  sees w' j k v.
Proof. exact step_sees. Qed.
Print Assumptions C36_step_partial.

(** Over whole histories: an option of [j] stays as it is as long as nobody else
    uses the same list object for [arg_names]. *)
Theorem C36_history_partial : forall tables l w j k v, (forall a, In a l -> target a <> Some j) ->
  (forall s r, nth_error (sw_sims w) j = Some s -> option_of s k = Some (VRef r) ->
     (r < List.length (sw_store w))%nat /\ (forall i, i <> j -> ~ appends_to w i r) /\ forall a, In a l -> keeps_off r a) ->
  sees w j k v -> sees (shist tables w l) j k v.
Proof. exact history_sees. Qed.
Print Assumptions C36_history_partial.

Definition no_tables : nat -> option (dict (frame num)) := fun _ => None.
Definition dynamic_problem : problem := set_init (snd (final oscillator)) oscillator_init.
Definition dynamic_conf (args : list (string * cval)) : confargs :=
  mkConf (("is_dynamic", VBool true) :: ("time_variable_name", VStr "t_M") :: args) VNone None.
Definition go (i : nat) : saction := ARun i false false (Ok true) (Ok (OutRun [PInt 0] [[PInt 4; PInt 5]])).
(** Two simulations; each has its own list for [arg_names]. *)
Definition separate : list saction :=
  [ANewSim; ANewSim; ANewList []; ANewList []; AProblem 0 dynamic_problem; AProblem 1 dynamic_problem;
   AConf 0 (dynamic_conf [("arg_names", VRef 2)]); AConf 1 (dynamic_conf [("arg_names", VRef 3)])].
(** Two simulations with defaults. *)
Definition with_defaults : list saction :=
  [ANewSim; ANewSim; AProblem 0 dynamic_problem; AProblem 1 dynamic_problem;
   AConf 0 (dynamic_conf []); AConf 1 (mkConf [] VNone None)].
Definition world (l : list saction) : sworld := shist no_tables sworld0 l.

Example C36_own_case : ca_dict (dynamic_conf []) = VNone /\ dget "arg_names" (ca_kwargs (dynamic_conf [])) = None /\
  shown (world with_defaults) 0 "args" = Some (VList []) /\ shown (shist no_tables (world with_defaults) [go 0]) 0 "args" = Some (VList []) /\
  shown (shist no_tables (world with_defaults) [go 0]) 0 "arg_names" = Some (VList [VStr "t_M"]).
Proof. split; [reflexivity|]. split; [reflexivity|]. repeat split; vm_compute; reflexivity. Qed.

Lemma appends_shown w i r : appends_to w i r <->
  match nth_error (sw_sims w) i with Some s => option_of s "arg_names" = Some (VRef r) | None => False end.
Proof.
  unfold appends_to. destruct (nth_error (sw_sims w) i) as [s|].
  - split; [intros (s' & [= <-] & H); exact H|intros H; exists s; auto].
  - split; [intros (s' & H & _); discriminate|tauto].
Qed.
Definition arg_list (w : sworld) (i : nat) : option cval :=
  match nth_error (sw_sims w) i with Some s => option_of s "arg_names" | None => None end.
Lemma appends_arg_list w i r : appends_to w i r -> arg_list w i = Some (VRef r).
Proof. unfold arg_list. rewrite appends_shown. destruct (nth_error (sw_sims w) i); [auto|tauto]. Qed.

Example C36_case :
  sees (world separate) 1 "arg_names" (VList []) /\
  (forall i, i <> 1%nat -> ~ appends_to (world separate) i 3) /\ appends_to (world separate) 1 3 /\
  (3 < List.length (sw_store (world separate)))%nat /\
  (forall a, In a [go 0; AConf 0 (dynamic_conf [])] -> target a <> Some 1%nat /\ keeps_off 3 a) /\
  shown (shist no_tables (world separate) [go 0; AConf 0 (dynamic_conf [])]) 1 "arg_names" = Some (VList []) /\
  shown (shist no_tables (world separate) [go 0]) 0 "arg_names" = Some (VList [VStr "t_M"]) /\
  snd (sstep no_tables (world separate) (go 0)) = Ok tt.
Proof.
  assert (L0 : arg_list (world separate) 0 = Some (VRef 2)) by (vm_compute; reflexivity).
  assert (L1 : arg_list (world separate) 1 = Some (VRef 3)) by (vm_compute; reflexivity).
  assert (L2 : List.length (sw_sims (world separate)) = 2%nat) by (vm_compute; reflexivity).
  split; [apply shown_sees; vm_compute; reflexivity|]. split.
  { intros i Hi Ha. apply appends_arg_list in Ha. destruct i as [|[|i]]; [congruence|congruence|].
    unfold arg_list in Ha. destruct (nth_error (sw_sims (world separate)) (S (S i))) eqn:E; [|discriminate].
    assert (Hlt : (S (S i) < List.length (sw_sims (world separate)))%nat) by (apply nth_error_Some; congruence). lia. }
  split; [apply appends_shown; unfold arg_list in L1; destruct (nth_error _ 1); [exact L1|discriminate]|].
  split; [assert (E : List.length (sw_store (world separate)) = 4%nat) by (vm_compute; reflexivity); rewrite E; lia|].
  split; [|split; [vm_compute; reflexivity|split; vm_compute; reflexivity]].
  intros a [<-|[<-|[]]]; (split; [discriminate|]); [exact I|]. cbn.
  split; [discriminate|]. split; [discriminate|]. split; intros d Hd; discriminate Hd.
Qed.

(** Running the first simulation puts its time variable into the configuration of
    the second one. *)
Theorem C36_refuted : exists tables l i j sanity show dof out w' v v', i <> j /\
  sstep tables (shist tables sworld0 l) (ARun i sanity show dof out) = (w', Ok tt) /\
  sees (shist tables sworld0 l) j "arg_names" v /\ sees w' j "arg_names" v' /\ v <> v'.
Proof.
  exists no_tables, with_defaults, 0%nat, 1%nat, false, false, (Ok true), (Ok (OutRun [PInt 0] [[PInt 4; PInt 5]])).
  exists (fst (sstep no_tables (world with_defaults) (go 0))), (VList []), (VList [VStr "t_M"]).
  split; [discriminate|]. split; [|split; [|split; [|discriminate]]].
  - assert (E : snd (sstep no_tables (world with_defaults) (go 0)) = Ok tt) by (vm_compute; reflexivity).
    change (shist no_tables sworld0 with_defaults) with (world with_defaults). revert E. unfold go.
    generalize (world with_defaults). intros w E.
    destruct (sstep no_tables w (ARun 0 false false (Ok true) (Ok (OutRun [PInt 0] [[PInt 4; PInt 5]])))). cbn in *. now subst.
  - apply shown_sees. vm_compute. reflexivity.
  - apply shown_sees. vm_compute. reflexivity.
Qed.
Print Assumptions C36_refuted.

(** ** C37 *)
(** The status is 0 or there is none: getStatus raises what getResults raises. *)
Theorem C37_only_zero : forall tables s n, get_status tables s = Ok n -> n = 0%nat.
Proof. exact status_zero. Qed.
Print Assumptions C37_only_zero.

(** Algebraic problems: 0 exactly when a solution is stored. *)
Theorem C37_algebraic_partial : forall tables s, algebraic_problem s ->
  (get_status tables s = Ok 0%nat <-> exists d, sm_output s = Some (OutDict d)).
Proof. exact status_algebraic. Qed.
Print Assumptions C37_algebraic_partial.

(** A stored solution comes from a run. *)
Theorem C37_solved_partial : forall tables l i s, nth_error (sw_sims (shist tables sworld0 l)) i = Some s ->
  algebraic_problem s -> get_status tables s = Ok 0%nat -> once_solved l i.
Proof. exact status_solved. Qed.
Print Assumptions C37_solved_partial.

(** A run whose solver fails raises and leaves the simulation as it was. *)
Theorem C37_failed_keeps : forall tables st s sanity show dof e st' s' r, run_sim tables st s sanity show dof (Raise e) = (st', s', r) ->
  s' = s /\ exists x, r = Raise x.
Proof. exact run_failed. Qed.
Print Assumptions C37_failed_keeps.

(** After a successful run the status is 0. *)
Theorem C37_after_run : forall tables st s sanity show dof d st' s',
  run_sim tables st s sanity show dof (Ok (OutDict d)) = (st', s', Ok tt) -> algebraic_problem s ->
  get_status tables s' = Ok 0%nat.
Proof. exact status_after_run. Qed.
Print Assumptions C37_after_run.

Definition static_problem : problem := snd (final algebraic).
Definition solve_static (r : res sout) : saction := ARun 0 true true (Ok true) r.
Definition static_history : list saction := [ANewSim; AProblem 0 static_problem; AConf 0 (mkConf [] VNone None)].
Definition status_of (w : sworld) (i : nat) : option (res nat) := option_map (get_status no_tables) (nth_error (sw_sims w) i).
Definition the_type (w : sworld) (i : nat) : option ptype :=
  match nth_error (sw_sims w) i with
  | Some s => match sm_problem s with Some p => match pr_block p with Some b => problem_type b | None => None end | None => None end
  | None => None
  end.
Lemma typed_algebraic w i s : nth_error (sw_sims w) i = Some s ->
  the_type w i = Some PTLinear \/ the_type w i = Some PTNonlinear -> algebraic_problem s.
Proof.
  unfold the_type, algebraic_problem. intros ->. destruct (sm_problem s) as [p|]; [|intros [H|H]; discriminate H].
  destruct (pr_block p) as [b|] eqn:E; [|intros [H|H]; discriminate H]. intros H. exists p, b. auto.
Qed.
Example C37_case :
  (exists s, nth_error (sw_sims (world static_history)) 0 = Some s /\ algebraic_problem s) /\
  status_of (world static_history) 0 = Some (Raise EType) /\
  status_of (world (static_history ++ [solve_static (Ok (OutDict [("y_M", PInt 1)]))])) 0 = Some (Ok 0%nat) /\
  status_of (world (static_history ++ [solve_static (Raise ENumerical)])) 0 = Some (Raise EType).
Proof.
  assert (T : the_type (world static_history) 0 = Some PTLinear) by (vm_compute; reflexivity).
  split; [|vm_compute; auto].
  destruct (nth_error (sw_sims (world static_history)) 0) as [s|] eqn:E.
  - exists s. split; [reflexivity|]. eapply typed_algebraic; eauto.
  - unfold the_type in T. rewrite E in T. discriminate T.
Qed.

(** A dynamic simulation that was never run reports success. *)
Definition some_tables : nat -> option (dict (frame num)) := fun _ => Some [("t_M", mkF [LName "t_M"; LName "x_M"] [])].
Definition never_run : list saction :=
  [ANewSim; AProblem 0 dynamic_problem; AConf 0 (dynamic_conf [("domain", VObj 0)])].
Theorem C37_never_run_refuted : exists tables l i s, nth_error (sw_sims (shist tables sworld0 l)) i = Some s /\
  last_run tables sworld0 l i None = None /\ get_status tables s = Ok 0%nat.
Proof.
  exists some_tables, never_run, 0%nat.
  assert (S : option_map (get_status some_tables) (nth_error (sw_sims (shist some_tables sworld0 never_run)) 0) = Some (Ok 0%nat))
    by (vm_compute; reflexivity).
  assert (R : last_run some_tables sworld0 never_run 0 None = None) by (vm_compute; reflexivity).
  revert S R. generalize (shist some_tables sworld0 never_run), (last_run some_tables sworld0 never_run 0 None). intros w o S R.
  destruct (nth_error (sw_sims w) 0) as [s|]; [|discriminate]. exists s. cbn in S. injection S as S. auto.
Qed.
Print Assumptions C37_never_run_refuted.

(** After a failed run the status is still that of the run before. *)
Theorem C37_failed_refuted : exists tables l i s e, nth_error (sw_sims (shist tables sworld0 l)) i = Some s /\
  last_run tables sworld0 l i None = Some (Raise e) /\ get_status tables s = Ok 0%nat /\ algebraic_problem s.
Proof.
  pose (l := static_history ++ [solve_static (Ok (OutDict [("y_M", PInt 1)])); solve_static (Raise ENumerical)]).
  exists no_tables, l, 0%nat.
  assert (S : status_of (shist no_tables sworld0 l) 0 = Some (Ok 0%nat)) by (vm_compute; reflexivity).
  assert (R : last_run no_tables sworld0 l 0 None = Some (Raise ENumerical)) by (vm_compute; reflexivity).
  assert (T : the_type (shist no_tables sworld0 l) 0 = Some PTLinear) by (vm_compute; reflexivity).
  revert S R T. generalize (shist no_tables sworld0 l), (last_run no_tables sworld0 l 0 None). intros w o S R T.
  destruct (nth_error (sw_sims w) 0) as [s|] eqn:E; [|unfold status_of in S; rewrite E in S; discriminate].
  exists s, ENumerical. split; [reflexivity|]. split; [exact R|]. split.
  - unfold status_of in S. rewrite E in S. cbn in S. now injection S as S.
  - eapply typed_algebraic; eauto.
Qed.
Print Assumptions C37_failed_refuted.

(** ** C48 *)
(** A configuration of plain data survives being saved and loaded. *)
Theorem C48_restored_partial : forall st c s, (forall k v, In (k, v) c -> plain_data (contents st v)) ->
  exists c' s', dump st c = Ok c' /\ set_configurations s (mkConf [] VNone (Some (Ok c'))) = Ok s' /\
    forall k v, dget k c = Some v -> option_of s' k = Some (contents st v).
Proof. exact dump_restored. Qed.
Print Assumptions C48_restored_partial.

Example C48_case : forall k v, In (k, v) conf_defaults -> plain_data (contents [[VStr "t_M"]; []] v).
Proof.
  intros k v H. cbn in H.
  repeat (destruct H as [H|H]; [injection H as <- <-; cbn; repeat constructor; cbn; intuition; subst; repeat constructor|]). destruct H.
Qed.

(** A configuration with a domain, as every dynamic simulation needs, cannot be
    saved. *)
Theorem C48_restored_refuted : exists s a s' c st, set_configurations s a = Ok s' /\ sm_conf s' = Some c /\
  dget "domain" c = Some (VObj 0) /\ exists e, dump st c = Raise e.
Proof.
  exists new_sim, (dynamic_conf [("domain", VObj 0)]). eexists. eexists. exists store0.
  split; [reflexivity|]. split; [reflexivity|]. split; [reflexivity|]. exists EType. reflexivity.
Qed.
Print Assumptions C48_restored_refuted.
