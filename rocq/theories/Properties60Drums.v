(** Properties of tanks and steady flashes of the library. *)
From Verif Require Import Base Num UnitModel Sympy Node Build EquationModel ModelModel PackageModel UnitOpModel SpecUnits SpecExpr SpecUnitOps
  DrumFacts Properties12UnitOps.
From Coq Require Import Reals Lra.
Notation num := Verif.Num.num.

(** ** C43: Any assignment satisfying the equations of a unit operation conserves
    what flows through it, and conversely. *)

(** Of the equations of a steady flash the molar balance is the only one made
    before an undefined name is called: moles in are moles out, in the liquid and
    in the vapour.  Missing: mass, energy and pressure, which the flash never
    gets to write, and packages of several phases (C52_flash_phases_refuted). *)
Theorem C43_flash_partial : forall h u name k, (k_number k < 2)%Z ->
  exists w1, run_script (mkW h u (new_model name)) (flash_steady_init (Some k)) = (w1, Ok tt) /\
  forall l, Forall is_setting l -> exists w3, run_script (settle w1 l) (flash_steady_equations (Some k)) = (w3, Raise EName) /\
    forall en v, agrees w3 en v -> (solution (w_mod w3) en <-> v "ndot_in" = (v "ndot_L_out" + v "ndot_V_out")%R).
Proof. exact flash_balance. Qed.
Print Assumptions C43_flash_partial.

(** ** C52: Every unit operation of the library can be made. *)

(** A tank can be made with any package; what it holds (moles, mass, energy and
    level) and nothing else changes over its time. *)
Theorem C52_tank_made : forall h u name k, exists w1, run_script (mkW h u (new_model name)) (tank_init (Some k)) = (w1, Ok tt) /\
  (forall a, In a ["N"; "M"; "E"; "level"] -> exists q, quantity w1 a = Some q /\ q_kind q = KVariable /\ q_domain q = true) /\
  (forall a q, quantity w1 a = Some q -> q_domain q = true -> In a ["N"; "M"; "E"; "level"]).
Proof. exact tank_made. Qed.
Print Assumptions C52_tank_made.

(** Water alone; a tank of water has a level and an area. *)
Example C43_flash_case : (k_number water_pack < 2)%Z /\ Forall is_setting [CSet "ndot_in" (SANum (PInt 3)) None; CSet "ndot_V_out" (SANum (PInt 1)) None] /\
  exists q r, quantity (fst (run_script (mkW [] (fun _ => 0%nat) (new_model "T")) (tank_init (Some water_pack)))) "level" = Some q /\ q_domain q = true /\
    quantity (fst (run_script (mkW [] (fun _ => 0%nat) (new_model "T")) (tank_init (Some water_pack)))) "area_sec" = Some r /\ q_domain r = false.
Proof.
  split; [reflexivity|]. split; [repeat constructor|].
  exists (mkQty KVariable "level_T" u_m (PFloat (S754_zero false)) false "T" false "" true),
    (mkQty KParameter "area_sec_T" (unit_pow_num u_m (PInt 2)) (PInt 0) false "T" false "" false).
  repeat split; vm_compute; reflexivity.
Qed.
