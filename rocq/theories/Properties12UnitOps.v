(** Properties of the library of unit operations, of material streams and of
    inlets. *)
From Verif Require Import Base Num UnitModel Sympy Node Build EquationModel ModelModel PackageModel SpecPackage PackageFacts UnitOpModel
  SpecUnits SpecExpr SpecUnitOps UnitOpFacts UnitLibFacts StreamFacts.
From Coq Require Import Reals Lra.
Notation num := Verif.Num.num.

(** ** C43: Any assignment satisfying the equations of a pump, valve or heater
    conserves mass and molar flow and satisfies outlet pressure = inlet pressure
    plus (pump) or minus (valve, heater) the pressure change, and conversely
    every such assignment satisfies the equations. *)

(** The user makes the unit operation, sets whatever values, and its equations
    are declared: the solutions are the assignments with the intended meaning. *)
Theorem C43_pump : forall h u name k,
  exists w1, run_script (mkW h u (new_model name)) (pump_init (Some k)) = (w1, Ok tt) /\
  forall l, Forall is_setting l -> exists w3, run_script (settle w1 l) (pump_equations (Some k)) = (w3, Ok tt) /\
    forall en v, agrees w3 en v ->
      (solution (w_mod w3) en <-> pump_means v /\ ((2 <= k_number k)%Z -> same_fractions (k_names k) v)).
Proof. exact pump_works. Qed.
Print Assumptions C43_pump.

(** Missing: packages of several phases. *)
Theorem C43_valve_partial : forall lib h u name k c rho r,
  (k_number k < 2)%Z -> k_star k = Ok c -> l_rho lib c = Some rho -> num_value rho = Some r ->
  exists w1, run_script (mkW h u (new_model name)) (valve_init (Some k)) = (w1, Ok tt) /\
  forall l, Forall is_setting l -> exists w3, run_script (settle w1 l) (valve_equations lib (Some k)) = (w3, Ok tt) /\
    forall en v, agrees w3 en v -> (solution (w_mod w3) en <-> valve_means r v).
Proof. exact valve_works. Qed.
Print Assumptions C43_valve_partial.

(** Missing: packages of several phases. *)
Theorem C43_heater_partial : forall lib h u name k c cp,
  (k_number k < 2)%Z -> k_star k = Ok c -> l_Cp lib c = Some cp ->
  exists w1, run_script (mkW h u (new_model name)) (heater_init lib (Some k)) = (w1, Ok tt) /\
  forall l, Forall is_setting l -> exists w3, run_script (settle w1 l) (heater_equations (Some k)) = (w3, Ok tt) /\
    forall en v, agrees w3 en v -> (solution (w_mod w3) en <-> heater_means v) /\
      ((forall s, In s l -> target s <> "cp_mix") -> num_value cp = Some (v "cp_mix")).
Proof. exact heater_works. Qed.
Print Assumptions C43_heater_partial.

(** Mixers have their equations from the start. *)
Theorem C43_mixer : forall h u name k, (k_number k < 2)%Z -> (List.length (k_names k) <= 1)%nat ->
  exists w1, run_script (mkW h u (new_model name)) (mixer_init (Some k)) = (w1, Ok tt) /\
  forall l, Forall is_setting l -> forall en v, agrees (settle w1 l) en v ->
    (solution (w_mod (settle w1 l)) en <-> mixer_means v).
Proof. exact mixer_single. Qed.
Print Assumptions C43_mixer.

Theorem C43_mixer_phases : forall h u name k, (2 <= k_number k)%Z -> (2 <= List.length (k_names k))%nat ->
  exists w1, run_script (mkW h u (new_model name)) (mixer_init (Some k)) = (w1, Ok tt) /\
  forall l, Forall is_setting l -> forall en v, agrees (settle w1 l) en v ->
    (solution (w_mod (settle w1 l)) en <-> mixer_means v /\ whole_fractions (k_names k) v /\ same_fractions (k_names k) v).
Proof. exact mixer_several. Qed.
Print Assumptions C43_mixer_phases.

(** Water and 1000 kg/m3, 4180 J/(kg K); a stream through a valve that loses
    10 Pa, and one heated by one degree. *)
Definition water : chem := mkChem "water" (PInt 298) (PInt 101325).
Definition water_pack : pack := mkPack 1 ["water"] (Ok water).
Definition water_lib : chemlib := mkLib (fun _ => PInt 18) (fun _ => Some (PInt 1000)) (fun _ => Some (PInt 4180)).
Definition emulsion : pack := mkPack 2 ["water"; "oil"] (Ok water).

Example C43_case : (k_number water_pack < 2)%Z /\ k_star water_pack = Ok water /\ l_rho water_lib water = Some (PInt 1000) /\
  num_value (PInt 1000) = Some 1000%R /\ l_Cp water_lib water = Some (PInt 4180) /\ (2 <= k_number emulsion)%Z /\
  Forall is_setting [CSet "Delta_P" (SANum (PInt 10)) None; CSet "perc_open" (SANum (PInt 1)) None; CSet "T_in" (SAAttr "P_in") None].
Proof. split; [reflexivity|]. repeat (split; [reflexivity|]). repeat constructor. Qed.

Definition through_valve (a : string) : R :=
  match dget a [("ndot_in", 56%R); ("ndot_out", 56%R); ("mdot_in", 1%R); ("mdot_out", 1%R); ("P_in", 30%R); ("P_out", 20%R);
                ("Delta_P", 10%R); ("T_in", 300%R); ("T_out", 300%R); ("H_in", 7%R); ("H_out", 7%R); ("perc_open", 1%R);
                ("Qdot_out", (/ 1000)%R)] with Some x => x | None => 0%R end.
Definition through_heater (a : string) : R :=
  match dget a [("ndot_in", 56%R); ("ndot_out", 56%R); ("mdot_in", 1%R); ("mdot_out", 1%R); ("P_in", 30%R); ("P_out", 20%R);
                ("Delta_P", 10%R); ("T_in", 300%R); ("T_out", 301%R); ("H_in", 7%R); ("H_out", (7 + 4180 / 56)%R); ("Q", 4180%R);
                ("cp_mix", 4180%R)] with Some x => x | None => 0%R end.
Example C43_meanings : valve_means 1000 through_valve /\ heater_means through_heater /\ mixer_means (fun _ => 1%R) /\
  ~ pump_means through_valve.
Proof.
  unfold valve_means, heater_means, mixer_means, pump_means, conserves, through_valve, through_heater. cbn.
  repeat split; try lra.
Qed.

(** A mixer for a package that names more phases than its number says, as p1 + p2
    does (C41): the fractions of the last phase are not conserved. *)
Theorem C43_mixer_refuted : exists k w1 en v, k_number k = 1%Z /\ k_names k = ["water"; "oil"] /\
  run_script (mkW [] (fun _ => 0%nat) (new_model "M")) (mixer_init (Some k)) = (w1, Ok tt) /\
  agrees w1 en v /\ solution (w_mod w1) en /\ v "z_oil_out" <> v "z_oil_in" /\ v "w_oil_out" <> v "w_oil_in".
Proof. exact mixer_free_last. Qed.
Print Assumptions C43_mixer_refuted.

(** ** C52: Every unit operation of the library can be made and its equations
    declared, with any property package or none. *)

(** Missing: packages of several phases for valves and heaters, other unit
    operations, no package. *)
Theorem C52_works_partial : forall lib k c rho r cp,
  usable (pump_init (Some k)) (pump_equations (Some k)) /\
  ((k_number k < 2)%Z \/ (2 <= List.length (k_names k))%nat -> usable (mixer_init (Some k)) ([], None)) /\
  ((k_number k < 2)%Z -> k_star k = Ok c -> l_rho lib c = Some rho -> num_value rho = Some r ->
     usable (valve_init (Some k)) (valve_equations lib (Some k))) /\
  ((k_number k < 2)%Z -> k_star k = Ok c -> l_Cp lib c = Some cp ->
     usable (heater_init lib (Some k)) (heater_equations (Some k))).
Proof. exact usable_units. Qed.
Print Assumptions C52_works_partial.

(** Without a package nothing can be made, although None is the
    documented default. *)
Theorem C52_no_package_refuted : forall lib w,
  snd (run_script w (mixer_init None)) <> Ok tt /\ snd (run_script w (valve_init None)) <> Ok tt /\
  snd (run_script w (pump_init None)) <> Ok tt /\ snd (run_script w (heater_init lib None)) <> Ok tt /\
  snd (run_script w (tank_init None)) <> Ok tt /\ snd (run_script w (multi_stream_init None)) <> Ok tt.
Proof. exact no_package. Qed.
Print Assumptions C52_no_package_refuted.

(** Nor do its equations get declared. *)
Theorem C52_equations_no_package_refuted : forall lib w, snd (run_script w (valve_equations lib None)) <> Ok tt /\
  snd (run_script w (pump_equations None)) <> Ok tt /\ snd (run_script w (heater_equations None)) <> Ok tt /\
  snd (run_script w (flash_dynamic_equations None)) <> Ok tt /\ snd (run_script w (flash_steady_equations None)) <> Ok tt.
Proof. exact no_package_equations. Qed.
Print Assumptions C52_equations_no_package_refuted.

(** Valves and heaters never work with several phases. *)
Theorem C52_valve_phases_refuted : forall lib w k, (2 <= k_number k)%Z -> k_names k <> [] ->
  snd (run_script w (valve_equations lib (Some k))) <> Ok tt.
Proof. exact valve_multi. Qed.
Print Assumptions C52_valve_phases_refuted.

Theorem C52_heater_phases_refuted : forall lib w k, (2 <= k_number k)%Z ->
  snd (run_script w (heater_init lib (Some k))) <> Ok tt.
Proof. exact heater_multi. Qed.
Print Assumptions C52_heater_phases_refuted.

(** Tanks and flash drums never work. *)
Theorem C52_tank_flash_refuted : forall w k,
  snd (run_script w tank_equations) <> Ok tt /\ snd (run_script w (flash_dynamic_equations k)) <> Ok tt /\
  snd (run_script w (flash_steady_equations k)) <> Ok tt.
Proof. exact tank_flash. Qed.
Print Assumptions C52_tank_flash_refuted.

Example C52_case : (2 <= k_number emulsion)%Z /\ k_names emulsion <> [] /\
  snd (run_script (mkW [] (fun _ => 0%nat) (new_model "M")) (pump_init (Some emulsion))) = Ok tt /\
  snd (run_script (mkW [] (fun _ => 0%nat) (new_model "M")) (tank_init (Some emulsion))) = Ok tt /\
  snd (run_script (fst (run_script (mkW [] (fun _ => 0%nat) (new_model "M")) (pump_init (Some emulsion)))) (pump_equations (Some emulsion))) = Ok tt.
Proof. split; [discriminate|]. split; [discriminate|]. repeat split; vm_compute; reflexivity. Qed.

(** ** C53: A model with inlets can be called; its inlet pressure and temperature
    are the least of its inlets. *)

(** Never, whatever the model and its inlets: the least of several expressions
    cannot be formed (C16). *)
Theorem C53_refuted : forall d w ss, ss <> [] -> snd (model_call_inlets d ss w) <> Ok tt.
Proof. exact call_inlets_raises. Qed.
Print Assumptions C53_refuted.

(** A stream and a model that would take it: everything but the least pressure
    works. *)
Definition a_stream : mworld := fst (run_cmds (mkW [] (fun _ => 0%nat) (new_model "S")) stream_vars).
Example C53_case : let w := mkW (w_heap a_stream) (w_uids a_stream) (new_model "M") in
  snd (model_call_inlets (mkDecls [] [] [] []) [] w) = Ok tt /\
  snd (model_call_inlets (mkDecls [] [] [] []) [w_mod a_stream] w) = Raise EUnexpectedValue /\
  dkeys (m_eqs (w_mod (fst (model_call_inlets (mkDecls [] [] [] []) [w_mod a_stream] w)))) = ["eq_P_P_S_M"; "eq_T_T_S_M"].
Proof. vm_compute. repeat split. Qed.

(** ** C42: After declaration, whenever exactly one of molar and mass flow was
    specified, both are, and mass flow equals molar flow times molecular weight
    (g/mol) times 1e-3. *)

(** For all three kinds of streams with a package.  Missing: the equation holds
    up to rounding of the doubles only; nothing is done without a package. *)
Theorem C42_mass_partial : forall lib s i c h u name ps w0 l qn qm n mw,
  run_cmds (mkW h u (new_model name)) (stream_vars ++ flat_map phase_pars ps) = (w0, Ok tt) -> Forall is_setting l ->
  get_phase s i "*" = Ok c -> quantity (settle w0 l) "ndot" = Some qn -> quantity (settle w0 l) "mdot" = Some qm ->
  q_spec qn = true -> q_spec qm = false -> ordinary (q_value qn) n -> ordinary (l_MW lib (PackageModel.c_name c)) mw ->
  exists qm' m, quantity (snd (fst (stream_declare lib s (Some i) (settle w0 l)))) "ndot" = Some qn /\
    quantity (snd (fst (stream_declare lib s (Some i) (settle w0 l)))) "mdot" = Some qm' /\
    q_spec qm' = true /\ num_value (q_value qm') = Some m /\ flows_agree m n mw.
Proof. exact flows_from_molar. Qed.
Print Assumptions C42_mass_partial.

Theorem C42_molar_partial : forall lib s i c h u name ps w0 l qn qm m mw,
  run_cmds (mkW h u (new_model name)) (stream_vars ++ flat_map phase_pars ps) = (w0, Ok tt) -> Forall is_setting l ->
  get_phase s i "*" = Ok c -> quantity (settle w0 l) "ndot" = Some qn -> quantity (settle w0 l) "mdot" = Some qm ->
  q_spec qn = false -> q_spec qm = true -> ordinary (q_value qm) m -> ordinary (l_MW lib (PackageModel.c_name c)) mw ->
  exists qn' n, quantity (snd (fst (stream_declare lib s (Some i) (settle w0 l)))) "mdot" = Some qm /\
    quantity (snd (fst (stream_declare lib s (Some i) (settle w0 l)))) "ndot" = Some qn' /\
    q_spec qn' = true /\ num_value (q_value qn') = Some n /\ flows_agree m n mw.
Proof. exact flows_from_mass. Qed.
Print Assumptions C42_molar_partial.

(** Nothing changes if both or none of the flows are specified. *)
Theorem C42_untouched : forall lib s i w qn qm,
  quantity w "ndot" = Some qn -> quantity w "mdot" = Some qm -> q_spec qn = q_spec qm ->
  snd (fst (stream_declare lib s (Some i) w)) = w.
Proof. exact stream_both. Qed.
Print Assumptions C42_untouched.

(** The molecular weight is that of the last phase listed by the package; any
    other name gives the chemical stored under it. *)
Theorem C42_package : forall known l i n front, careful l -> let s := prun known l in exists_pkg s i ->
  names_of s i = front ++ [Some n] -> exists c, chem_of s i n = Some c /\ get_phase s i "*" = Ok c.
Proof. exact phase_last. Qed.
Print Assumptions C42_package.

Theorem C42_phase : forall s i n, n <> "*" -> exists_pkg s i ->
  get_phase s i n = match chem_of s i n with Some c => Ok c | None => Raise EKey end.
Proof. exact phase_named. Qed.
Print Assumptions C42_phase.

(** Water and ethanol, with toluene added. *)
Definition three_phases : list paction :=
  [PNew 2 (LNew [Some "water"; Some "ethanol"]); PNew 1 (LNew [Some "toluene"]); PAdd 0 (AddPkg 1)].
Example C42_package_case : careful three_phases /\ let s := prun (fun _ => true) three_phases in
  exists_pkg s 0 /\ names_of s 0 = [Some "water"; Some "ethanol"] ++ [Some "toluene"] /\
  chem_of s 0 "ethanol" = Some (mkChem "ethanol" T_default P_default) /\ chem_of s 0 "hexane" = None.
Proof.
  split; [repeat constructor; simpl; intuition discriminate|].
  split; [vm_compute; lia|]. repeat split; vm_compute; reflexivity.
Qed.

(** Molar flow 2 of water. *)
Definition water_store : pstore := fst (new_package (fun _ => true) (mkStore [[]] [] []) 1 (LNew [Some "water"])).
Definition two_moles : list cmd := [CSet "ndot" (SANum (PInt 2)) None].
Example C42_case : get_phase water_store 0 "*" = Ok (mkChem "water" T_default P_default) /\ Forall is_setting two_moles /\
  exists qn qm, quantity (settle a_stream two_moles) "ndot" = Some qn /\ quantity (settle a_stream two_moles) "mdot" = Some qm /\
    q_spec qn = true /\ q_spec qm = false /\ ordinary (q_value qn) 2%R /\ ordinary (l_MW water_lib "water") 18%R.
Proof.
  split; [reflexivity|]. split; [repeat constructor|]. do 2 eexists. split; [vm_compute; reflexivity|]. split; [vm_compute; reflexivity|].
  split; [reflexivity|]. split; [reflexivity|].
  assert (B : (1 < 2 ^ 300 /\ 18 <= 2 ^ 300 /\ / 2 ^ 300 <= 1)%R).
  { rewrite (pow_IZR 2 300). assert (H : (18 <= IZR (2 ^ Z.of_nat 300))%R) by (apply IZR_le; discriminate).
    split; [lra|]. split; [exact H|]. rewrite <- Rinv_1. apply Rinv_le_contravar; lra. }
  unfold ordinary. cbn [q_value num_value l_MW water_lib]. rewrite !Rabs_pos_eq by lra. repeat split; lra.
Qed.

(** The equation need not hold between the doubles: 3 kg/s and 18.01528 g/mol. *)
Theorem C42_exact_refuted : exists lib l qn qm, Forall is_setting l /\
  let w := snd (fst (stream_declare lib water_store (Some 0%nat) (settle a_stream l))) in
  quantity w "ndot" = Some qn /\ quantity w "mdot" = Some qm /\ q_spec qn = true /\ q_spec qm = true /\
  neqb (q_value qm) (nmul (nmul (q_value qn) (l_MW lib "water")) milli) = false.
Proof.
  exists (mkLib (fun _ => fdec 1801528 5) (fun _ => None) (fun _ => None)), [CSet "mdot" (SANum (fdec 3 0)) None].
  do 2 eexists. split; [repeat constructor|]. cbv zeta. split; [vm_compute; reflexivity|]. split; [vm_compute; reflexivity|].
  vm_compute. repeat split.
Qed.
Print Assumptions C42_exact_refuted.

(** Without a package the other flow stays as it was. *)
Theorem C42_no_package_refuted : forall lib s w, snd (fst (stream_declare lib s None w)) = w.
Proof. exact stream_nothing. Qed.
Print Assumptions C42_no_package_refuted.
