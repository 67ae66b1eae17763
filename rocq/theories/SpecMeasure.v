(** What the names of the quantities of the library's unit operations say about
    them: their unit, and the side of the unit operation they belong to. *)
From Verif Require Import Base Num UnitModel Node Build ModelModel UnitOpModel SpecUnits SpecSi SpecUnitOps.
From Coq Require Import Reals.
Notation num := Verif.Num.num.

(** Powers of the base units. *)
Definition pressure : list (string * Z) := [("kg", 1); ("m", -1); ("s", -2)].
Definition energy : list (string * Z) := [("kg", 1); ("m", 2); ("s", -2)].
Definition energy_per (k : string) : list (string * Z) := energy ++ [(k, -1)].
(** Names of quantities. *)
Definition name_says : list (string * list (string * Z)) :=
  [("t", [("s", 1)]); ("N", [("mol", 1)]); ("M", [("kg", 1)]); ("E", energy); ("Q", [("kg", 1); ("m", 2); ("s", -3)]);
   ("level", [("m", 1)]); ("area_sec", [("m", 2)]); ("Delta_P", pressure); ("perc_open", []);
   ("cp_mix", [("m", 2); ("s", -2); ("K", -1)]); ("mix_rho", [("kg", 1); ("m", -3)]); ("Qdot_out", [("m", 3); ("s", -1)]);
   ("ndot", [("mol", 1); ("s", -1)]); ("mdot", [("kg", 1); ("s", -1)]); ("P", pressure); ("T", [("K", 1)]); ("H", energy_per "mol")].
Fixpoint begins_with (s a : string) {struct s} : bool :=
  match s, a with
  | EmptyString, _ => true
  | String c s', String d a' => Ascii.eqb c d && begins_with s' a'
  | _, _ => false
  end.
(** Beginnings of names: flows, pressures, temperatures, enthalpies, fractions. *)
Definition beginning_says : list (string * list (string * Z)) :=
  [("ndot_", [("mol", 1); ("s", -1)]); ("mdot_", [("kg", 1); ("s", -1)]); ("P_", pressure); ("T_", [("K", 1)]); ("H_", energy_per "mol");
   ("z_", []); ("w_", [])].
Definition name_tells (a : string) : option (list (string * Z)) :=
  match dget a name_says with
  | Some e => Some e
  | None => option_map snd (find (fun x => begins_with (fst x) a) beginning_says)
  end.

(** The unit has these powers of the base units, and is made of nothing else. *)
Definition of_powers (u : unit) (e : list (string * Z)) : Prop :=
  (forall k, In k si_base -> exists x, exponent u k = Some x /\ nvalue x (IZR (power_of k e))) /\
  (forall k, exponent u k <> None -> In k si_base).

(** How names end. *)
Definition ends_in (suffix a : string) : bool :=
  String.eqb (substring (String.length a - String.length suffix) (String.length suffix) a) suffix.
Definition fraction (a : string) : bool := begins_with "z_" a || begins_with "w_" a.

(** Classes of the library with the scripts of their __init__ and DeclareEquations
    (Mixer and the streams have none of the latter). *)
Definition unit_operations (lib : chemlib) (k : option pack) : list (string * script * script) :=
  [("Mixer", mixer_init k, ([], None)); ("Valve", valve_init k, valve_equations lib k); ("SimplePump", pump_init k, pump_equations k);
   ("Heater", heater_init lib k, heater_equations k); ("Tank", tank_init k, tank_equations);
   ("Flash_Dynamic", flash_dynamic_init lib k, flash_dynamic_equations k); ("Flash_SteadyState", flash_steady_init k, flash_steady_equations k);
   ("MaterialStream", (stream_vars, None), ([], None)); ("MultiphasicMaterialStream", multi_stream_init k, ([], None))].

(** The object after __init__, after values were given to quantities, and after
    its equations were declared; what raises is as far as it got. *)
Definition operated (init equations : script) (start : mworld) (l : list cmd) (w : mworld) : Prop :=
  let w1 := fst (run_script start init) in
  w = w1 \/ w = settle w1 l \/ w = fst (run_script (settle w1 l) equations).
