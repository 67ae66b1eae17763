(** What the ready-made units of the package and the units of its unit operations
    are, as powers of the seven SI base units. *)
From Verif Require Import Base Num UnitModel UnitOpModel.

Definition si_base : list string := ["m"; "kg"; "s"; "A"; "K"; "mol"; "cd"].

(** Powers by base unit; a base unit not listed has power zero. *)
Definition si_units : list (unit * list (string * Z)) :=
  [ (* core/template_units.py lines 10-24 *)
    (u_dimless, []); (u_m, [("m", 1)]); (u_kg, [("kg", 1)]); (u_s, [("s", 1)]); (u_A, [("A", 1)]);
    (u_K, [("K", 1)]); (u_mol, [("mol", 1)]); (u_cd, [("cd", 1)]);
    (u__s, [("s", -1)]); (u__m2, [("m", -2)]); (u__m3, [("m", -3)]);
    (u_m_s, [("m", 1); ("s", -1)]); (u_m_s2, [("m", 1); ("s", -2)]);
    (u_kg_s, [("kg", 1); ("s", -1)]); (u_mol_s, [("mol", 1); ("s", -1)]);
    (* lines 28-34 *)
    (u_Force, [("kg", 1); ("m", 1); ("s", -2)]);
    (u_Pa, [("kg", 1); ("m", -1); ("s", -2)]);
    (u_atm, [("kg", 1); ("m", -1); ("s", -2)]);
    (u_J, [("kg", 1); ("m", 2); ("s", -2)]);
    (u_R, [("kg", 1); ("m", 2); ("s", -2); ("K", -1); ("mol", -1)]);
    (* unit_op_library.py and stream.py *)
    (u_molar_flow, [("mol", 1); ("s", -1)]); (u_mass_flow, [("kg", 1); ("s", -1)]);
    (u_molar_energy, [("kg", 1); ("m", 2); ("s", -2); ("mol", -1)]);
    (u_volume_flow, [("m", 3); ("s", -1)]); (u_density, [("kg", 1); ("m", -3)]);
    (u_heat_rate, [("kg", 1); ("m", 2); ("s", -3)]);
    (u_heat_capacity, [("m", 2); ("s", -2); ("K", -1)]) ].

Definition power_of (k : string) (e : list (string * Z)) : Z := match dget k e with Some z => z | None => 0 end.

(** ** What the name of a unit says *)
(** Symbols: the base units, 1, and those with a name of their own. *)
Definition symbol_powers (x : string) : option (list (string * Z)) :=
  if existsb (String.eqb x) si_base then Some [(x, 1)]
  else dget x [("1", []); ("None", []); ("Force", [("kg", 1); ("m", 1); ("s", -2)]); ("Pa", [("kg", 1); ("m", -1); ("s", -2)]); ("atm", [("kg", 1); ("m", -1); ("s", -2)]);
               ("Joule", [("kg", 1); ("m", 2); ("s", -2)]); ("R", [("kg", 1); ("m", 2); ("s", -2); ("K", -1); ("mol", -1)])].
(** The text before and after the first [c]. *)
Fixpoint cut (c : Ascii.ascii) (x : string) : string * option string :=
  match x with
  | EmptyString => (EmptyString, None)
  | String a r => if Ascii.eqb a c then (EmptyString, Some r) else let '(p, q) := cut c r in (String a p, q)
  end.
Definition digit (x : string) : option Z := dget x [("1", 1); ("2", 2); ("3", 3)].
(** symbol or symbol^digit, or two of them with a slash between them. *)
Definition factor_powers (x : string) : option (list (string * Z)) :=
  match cut "^"%char x with
  | (y, None) => symbol_powers y
  | (y, Some d) => match symbol_powers y, digit d with Some p, Some k => Some (map (fun kz => (fst kz, snd kz * k)) p) | _, _ => None end
  end.
Definition name_powers (x : string) : option (list (string * Z)) :=
  match cut "/"%char x with
  | (y, None) => factor_powers y
  | (y, Some z) => match factor_powers y, factor_powers z with Some p, Some q => Some (p ++ map (fun kz => (fst kz, - snd kz)) q)%list | _, _ => None end
  end.
(** core/template_units.py lines 10-34. *)
Definition ready_made : list unit :=
  [u_dimless; u_m; u_kg; u_s; u_A; u_K; u_mol; u_cd; u__s; u__m2; u__m3; u_m_s; u_m_s2; u_kg_s; u_mol_s; u_Force; u_Pa; u_atm; u_J; u_R].
