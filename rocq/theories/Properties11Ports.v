(** Properties of ports and property packages. *)
From Verif Require Import Base Num PackageModel SpecPackage PackageFacts PortsModel SpecPorts PortsFacts.

(** ** C40: Setting the inlets of one model or unit operation never changes the
    ports of another one. *)

(** Missing: objects that refer to the same ports dictionary, which includes all
    models created without giving one, all library models among them. *)
Theorem C40_frame_partial : forall l out i name a k, let s := portrun l in ~ share_ports s i k ->
  same_ports s (fst (set_port out s i name a)) k.
Proof. exact set_port_frame. Qed.
Print Assumptions C40_frame_partial.

(** Every port shows what its own object was given, whatever else happened.
    Missing: as above. *)
Theorem C40_history_partial : forall l i u, own_ports l -> valid 0 l ->
  nth_error (creations l) i = Some (u, PortsNew) ->
  forall out name, port_of (portrun l) i out name = meant u out (puts l out i name).
Proof. exact own_ports_shown. Qed.
Print Assumptions C40_history_partial.

(** What happens instead with the default ports: all models show the streams
    given to any of them. *)
Theorem C40_default_models : forall l i, default_models l -> valid 0 l -> (i < List.length (creations l))%nat ->
  forall name, port_of (portrun l) i false name = meant false false (puts_anywhere l name).
Proof. exact default_shown. Qed.
Print Assumptions C40_default_models.

(** The only objects that share ports are models made without giving ports among
    themselves, and unit operations made without giving ports among themselves. *)
Theorem C40_sharing : forall l i k u p v q, usual_ports l ->
  nth_error (creations l) i = Some (u, p) -> nth_error (creations l) k = Some (v, q) -> i <> k ->
  (share_ports (portrun l) i k <-> p = PortsDefault /\ q = PortsDefault /\ u = v).
Proof. exact sharing. Qed.
Print Assumptions C40_sharing.
Theorem C40_kinds : forall l i k u p v q out name x, usual_ports l ->
  nth_error (creations l) i = Some (u, p) -> nth_error (creations l) k = Some (v, q) -> i <> k ->
  ~ (p = PortsDefault /\ q = PortsDefault /\ u = v) -> same_ports (portrun l) (fst (set_port out (portrun l) i name x)) k.
Proof. exact default_kinds. Qed.
Print Assumptions C40_kinds.

(** A model and a unit operation, both without ports given. *)
Definition two_kinds : list portaction :=
  [PortNew false 0 0 PortsDefault; PortNew true 0 0 PortsDefault; PortSet false 0 "in" (InOne 1)]%nat.
Example C40_kinds_case : usual_ports two_kinds /\ nth_error (creations two_kinds) 0 = Some (false, PortsDefault) /\
  nth_error (creations two_kinds) 1 = Some (true, PortsDefault) /\ port_of (portrun two_kinds) 1 false "in" = None.
Proof. split; [intros u p [[= <- <-]|[[= <- <-]|[]]]; auto|]. repeat split; reflexivity. Qed.

(** A mixer model, a tank and a unit operation with ports of their own. *)
Definition three_objects : list portaction :=
  [PortNew false 0 0 PortsNew; PortNew true 0 0 PortsNew; PortSet false 0 "in" (InOne 7);
   PortSet false 1 "in" (InList [8; 9]%nat); PortSet false 0 "in" (InList [5; 6]%nat); PortSet true 1 "out" (InOne 4);
   PortSet false 1 "in" (InOne 3)].
Example C40_case : own_ports three_objects /\ valid 0 three_objects /\
  port_of (portrun three_objects) 0 false "in" = Some [7; 5; 6]%nat /\
  port_of (portrun three_objects) 1 false "in" = Some [3]%nat /\
  port_of (portrun three_objects) 1 true "out" = Some [4]%nat /\
  ~ share_ports (portrun three_objects) 0 1.
Proof.
  split; [intros u p [[= <- <-]|[[= <- <-]|[]]]; reflexivity|].
  split; [simpl; lia|]. split; [reflexivity|]. split; [reflexivity|]. split; [reflexivity|].
  intros [o [q [Ho [Hq E]]]]. vm_compute in Ho, Hq. injection Ho as <-. injection Hq as <-. discriminate.
Qed.

Example C40_default_case : let l := [PortNew false 0 0 PortsDefault; PortSet false 0 "in" (InOne 1);
    PortNew false 0 0 PortsDefault; PortSet false 1 "in" (InOne 2)]%nat in
  default_models l /\ valid 0 l /\ port_of (portrun l) 0 false "in" = Some [1; 2]%nat.
Proof.
  split; [intros u p [[= <- <-]|[[= <- <-]|[]]]; auto|]. split; [simpl; lia|reflexivity].
Qed.

(** Two models, or two unit operations, made without giving ports: the inlet of
    the second changes the ports of the first. *)
Theorem C40_refuted : exists u, forall v : bool, exists l : list portaction,
  creations l = [(v, PortsDefault); (v, PortsDefault)] /\
  port_of (portrun l) 0 false "in" = Some [1]%nat /\
  port_of (fst (set_port false (portrun l) 1 "in" u)) 0 false "in" <> Some [1]%nat.
Proof.
  exists (InOne 2%nat). intros v. exists [PortNew v 0 0 PortsDefault; PortNew v 0 0 PortsDefault; PortSet false 0 "in" (InOne 1)]%nat.
  split; [reflexivity|]. destruct v; (split; [reflexivity|vm_compute; discriminate]).
Qed.
Print Assumptions C40_refuted.

(** ** C51: The inlets a model or unit operation works with are the streams set
    on its inlet ports, each as often as it was set. *)

(** Missing: how often.  The streams are the right ones, and after a single call
    they are those given, in order. *)
Theorem C51_model_partial : forall l i, own_ports l -> valid 0 l ->
  nth_error (creations l) i = Some (false, PortsNew) ->
  (forall x, In x (inlets_of (portrun l) i) <-> In x (streams_in l i)) /\
  (forall c, calls_in l i = [c] -> inlets_of (portrun l) i = c) /\
  (calls_in l i = [] -> inlets_of (portrun l) i = []).
Proof. exact own_model_inlets. Qed.
Print Assumptions C51_model_partial.

(** A unit operation works with the streams of the last call only.  Missing: the
    streams of the other ports. *)
Theorem C51_unit_partial : forall l i, own_ports l -> valid 0 l ->
  nth_error (creations l) i = Some (true, PortsNew) ->
  inlets_of (portrun l) i = last (calls_in l i) [].
Proof. exact own_unit_inlets. Qed.
Print Assumptions C51_unit_partial.

(** [n_inputs] and [n_outputs] of a unit operation grow by the number of streams
    in every call. *)
Theorem C51_count : forall l out i o name a, nth_error (v_objs (portrun l)) i = Some o -> o_unit o = true ->
  let s := portrun l in let s' := fst (set_port out s i name a) in
  n_inputs_of s' i = (n_inputs_of s i + (if out then 0 else List.length (handed a)))%nat /\
  n_outputs_of s' i = (n_outputs_of s i + (if out then List.length (handed a) else 0))%nat /\
  forall k, k <> i -> n_inputs_of s' k = n_inputs_of s k /\ n_outputs_of s' k = n_outputs_of s k.
Proof. exact counts_call. Qed.
Print Assumptions C51_count.

Example C51_case : nth_error (creations three_objects) 0 = Some (false, PortsNew) /\
  nth_error (creations three_objects) 1 = Some (true, PortsNew) /\
  calls_in three_objects 1 = [[8; 9]; [3]]%nat /\ inlets_of (portrun three_objects) 1 = [3]%nat /\
  n_inputs_of (portrun three_objects) 1 = 3%nat /\
  (let l := [PortNew false 0 0 PortsNew; PortSet false 0 "in" (InList [5; 6])]%nat in
   calls_in l 0 = [[5; 6]]%nat /\ inlets_of (portrun l) 0 = [5; 6]%nat).
Proof. repeat split; reflexivity. Qed.

(** A model with two inlet ports counts the streams of the first one twice. *)
Theorem C51_model_refuted : exists l, own_ports l /\ valid 0 l /\ creations l = [(false, PortsNew)] /\
  streams_in l 0 = [1; 2]%nat /\ inlets_of (portrun l) 0 = [1; 1; 2]%nat.
Proof.
  exists [PortNew false 0 0 PortsNew; PortSet false 0 "left" (InOne 1); PortSet false 0 "right" (InOne 2)]%nat.
  split; [intros u p [[= <- <-]|[]]; reflexivity|]. split; [simpl; lia|]. repeat split; reflexivity.
Qed.
Print Assumptions C51_model_refuted.

(** A unit operation with two inlet ports forgets the streams of the first one. *)
Theorem C51_unit_refuted : exists l, own_ports l /\ valid 0 l /\ creations l = [(true, PortsNew)] /\
  port_of (portrun l) 0 false "left" = Some [1]%nat /\ port_of (portrun l) 0 false "right" = Some [2]%nat /\
  inlets_of (portrun l) 0 = [2]%nat.
Proof.
  exists [PortNew true 0 0 PortsNew; PortSet false 0 "left" (InOne 1); PortSet false 0 "right" (InOne 2)]%nat.
  split; [intros u p [[= <- <-]|[]]; reflexivity|]. split; [simpl; lia|]. repeat split; reflexivity.
Qed.
Print Assumptions C51_unit_refuted.

(** A model made without giving ports takes the streams set on other models. *)
Theorem C51_default_refuted : exists l, default_models l /\ valid 0 l /\ streams_in l 1 = [2]%nat /\
  inlets_of (portrun l) 1 = [1; 2]%nat.
Proof.
  exists [PortNew false 0 0 PortsDefault; PortNew false 0 0 PortsDefault; PortSet false 0 "in" (InOne 1);
          PortSet false 1 "in" (InOne 2)]%nat.
  split; [intros u p [[= <- <-]|[[= <- <-]|[]]]; auto|]. split; [simpl; lia|]. split; reflexivity.
Qed.
Print Assumptions C51_default_refuted.

(** ** C41: p1 + p2 has every phase of p1 and p2 once, leaves p2 unchanged,
    reports the right number of phases, and does not affect packages created
    elsewhere. *)

(** Missing: the number of phases, which stays that of p1; programs in which
    packages share their list of names, as all do that are made without one. *)
Theorem C41_union_partial : forall known l i j, careful l ->
  let s := prun known l in exists_pkg s i -> exists_pkg s j ->
  exists s', add_package s i (AddPkg j) = (s', Ok i) /\ union_of s s' i j /\
    number_of s' i = number_of s i /\ forall k, k <> i -> exists_pkg s k -> unchanged s s' k.
Proof. exact careful_union. Qed.
Print Assumptions C41_union_partial.

(** In any program, for packages whose names and chemicals agree.  Missing: the
    number of phases. *)
Theorem C41_any_program_partial : forall known l i j, let s := prun known l in
  exists_pkg s i -> exists_pkg s j -> consistent s i -> consistent s j ->
  exists s', add_package s i (AddPkg j) = (s', Ok i) /\ union_of s s' i j /\ number_of s' i = number_of s i.
Proof. exact any_union. Qed.
Print Assumptions C41_any_program_partial.

(** In any program: another package is affected exactly if it has the same list
    of names and a name is new to it; its chemicals never follow. *)
Theorem C41_affected : forall known l i j k, let s := prun known l in
  exists_pkg s i -> exists_pkg s j -> i <> k -> exists_pkg s k ->
  let s' := fst (add_package s i (AddPkg j)) in
  nth_error (s_pkgs s') k = nth_error (s_pkgs s) k /\ (forall n, chem_of s' k n = chem_of s k n) /\
  (names_of s' k = names_of s k <->
   ~ (share_list s i k /\ exists n, In n (names_of s j) /\ ~ In n (names_of s i))).
Proof. exact any_others. Qed.
Print Assumptions C41_affected.

(** Packages with the same list show the same names whatever happens later. *)
Theorem C41_shared : forall known l r i k, share_list (prun known l) i k ->
  share_list (prun known (l ++ r)) i k /\
  names_of (prun known (l ++ r)) i = names_of (prun known (l ++ r)) k.
Proof. exact shared_for_ever. Qed.
Print Assumptions C41_shared.

(** The number of phases never changes after creation. *)
Theorem C41_number : forall known l r i n, number_of (prun known l) i = Some n ->
  number_of (prun known (l ++ r)) i = Some n.
Proof. exact number_run. Qed.
Print Assumptions C41_number.

Definition all_known (n : string) : bool := true.
Definition two_packages : list paction :=
  [PNew 2 (LNew [Some "water"; Some "ethanol"]); PNew 2 (LNew [Some "ethanol"; Some "toluene"])].
Example C41_case : careful two_packages /\ let s := prun all_known two_packages in
  exists_pkg s 0 /\ exists_pkg s 1 /\ consistent s 0 /\ consistent s 1 /\
  names_of (fst (add_package s 0 (AddPkg 1))) 0 = [Some "water"; Some "ethanol"; Some "toluene"].
Proof.
  assert (Hc : careful two_packages).
  { repeat constructor; simpl; intuition discriminate. }
  split; [exact Hc|]. destruct (good_run all_known two_packages Hc) as [_ [_ [G _]]].
  assert (E0 : exists_pkg (prun all_known two_packages) 0) by (vm_compute; lia).
  assert (E1 : exists_pkg (prun all_known two_packages) 1) by (vm_compute; lia).
  split; [exact E0|]. split; [exact E1|]. split; [now apply G|]. split; [now apply G|]. reflexivity.
Qed.

Definition with_defaults : list paction :=
  [PNew 1 LDefault; PNew 1 (LNew [Some "toluene"]); PNew 1 LDefault].
Example C41_shared_case : share_list (prun all_known with_defaults) 0 2.
Proof. do 2 eexists. split; [reflexivity|]. split; reflexivity. Qed.

(** p1 + p2 also changes a third package, which can no longer be calculated. *)
Theorem C41_elsewhere_refuted : exists l, let s := prun all_known l in
  let s' := fst (add_package s 0 (AddPkg 1)) in
  names_of s 2 = [Some "water"] /\ snd (calculate s 2 T_default P_default) = Ok tt /\
  names_of s' 2 = [Some "water"; Some "toluene"] /\ snd (calculate s' 2 T_default P_default) = Raise EKey.
Proof. exists with_defaults. repeat split; reflexivity. Qed.
Print Assumptions C41_elsewhere_refuted.

(** The sum of two packages with one phase each reports one phase. *)
Theorem C41_number_refuted : exists l, let s := prun all_known l in
  let s' := fst (add_package s 0 (AddPkg 1)) in
  careful l /\ number_of s 0 = Some 1%Z /\ number_of s 1 = Some 1%Z /\
  List.length (names_of s' 0) = 2%nat /\ number_of s' 0 = Some 1%Z.
Proof.
  exists [PNew 1 (LNew [Some "water"]); PNew 1 (LNew [Some "toluene"])].
  split; [repeat constructor; simpl; intuition discriminate|]. repeat split; reflexivity.
Qed.
Print Assumptions C41_number_refuted.

(** The packages share chemicals afterwards: calculating the sum at another
    temperature changes p2. *)
Theorem C41_chemicals_refuted : exists l T, let s := prun all_known l in
  let s' := fst (add_package s 0 (AddPkg 1)) in
  let s'' := fst (calculate s' 0 T P_default) in
  careful l /\ chem_of s 1 "toluene" = Some (mkChem "toluene" T_default P_default) /\
  chem_of s'' 1 "toluene" = Some (mkChem "toluene" T P_default) /\ T <> T_default.
Proof.
  exists [PNew 1 (LNew [Some "water"]); PNew 1 (LNew [Some "toluene"])], (PInt 350).
  split; [repeat constructor; simpl; intuition discriminate|]. repeat split; (reflexivity || discriminate).
Qed.
Print Assumptions C41_chemicals_refuted.
