(** The fractions a unit operation should have with a property package. *)
From Verif Require Import Base Num UnitModel Node Build ModelModel PackageModel UnitOpModel SpecPackage SpecUnitOps SpecMeasure.
Notation num := Verif.Num.num.

(** A phase in the name of a variable: None is written out. *)
Definition phase_said (n : phase) : string := match n with Some x => x | None => "None" end.

(** Names of molar and mass fractions of the phase [p], by class. *)
Definition fraction_names (class p : string) : list string :=
  let places := if String.eqb class "MultiphasicMaterialStream" then [""]
                else if String.eqb class "Flash_SteadyState" then ["_in"; "_L_out"; "_V_out"]
                else ["_in"; "_out"] in
  map (fun x => ("z_" ++ p ++ x)%string) places ++ map (fun x => ("w_" ++ p ++ x)%string) places.

(** When a class has fractions at all: the mixer goes by the names of the phases,
    the other unit operations by number_of_phases. *)
Definition has_fractions (class : string) (number : Z) (names : list phase) : Prop :=
  if String.eqb class "MultiphasicMaterialStream" then True
  else if String.eqb class "MaterialStream" then False
  else if String.eqb class "Mixer" then (1 < List.length names)%nat
  else (2 <= number)%Z.
