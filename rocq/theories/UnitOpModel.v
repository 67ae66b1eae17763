(** Model of /repo/src/sloth/unit_op_library.py and of the totalization of inlets
    in /repo/src/sloth/model.py.  Simplifications: phase names are taken to be
    parts of Python identifiers (the source pastes them into exec and eval), a
    None among them becomes the text "None" as format() makes it; the attribute
    of a quantity has the name of the quantity, also for the local variable
    mix_rho of Valve; equations are kept under an attribute of their name, too. *)
From Verif Require Export ModelModel PackageModel.
Notation num := Verif.Num.num.
Open Scope string_scope.
Open Scope list_scope.

(** Properties of thermo.chemical.Chemical objects the library reads: MW depends
    on the chemical only; rho and Cp on its state, and may be None. *)
Record chemlib := mkLib {
  l_MW : string -> num;
  l_rho : chem -> option num;
  l_Cp : chem -> option num
}.

(** What a model sees of its property package: number_of_phases, phase_names and
    the chemical ["*"] (property_package.py lines 24-30 and 104-113). *)
Record pack := mkPack { k_number : Z; k_names : list string; k_star : res chem }.
Definition phase_text (p : phase) : string := match p with Some n => n | None => "None" end.
Definition pack_of (s : pstore) (i : nat) : option pack :=
  match nth_error (s_pkgs s) i with
  | None => None
  | Some p => Some (mkPack (pk_number p) (map phase_text (the_list s (pk_names p))) (get_phase s i "*"))
  end.

(** Statements, ended by an exception if there is one. *)
Definition script := (list cmd * option exn)%type.
Definition run_script (w : mworld) (s : script) : mworld * res Datatypes.unit :=
  match run_cmds w (fst s) with
  | (w', Ok _) => (w', match snd s with None => Ok tt | Some x => Raise x end)
  | bad => bad
  end.

(** Units in the library. *)
Definition u_molar_flow := unit_div u_mol u_s.           (* mol/s *)
Definition u_mass_flow := unit_div u_kg u_s.             (* kg/s *)
Definition u_molar_energy := unit_div u_J u_mol.         (* J/mol *)
Definition u_volume_flow := unit_div (unit_pow_num u_m (PInt 3)) u_s.    (* (m**3)/s *)
Definition u_density := unit_div u_kg (unit_pow_num u_m (PInt 3)).       (* kg/(m**3) *)
Definition u_heat_rate := unit_div u_J u_s.              (* J/s *)
Definition u_heat_capacity := unit_div u_J (unit_mul u_kg u_K).          (* J/(kg*K) *)

(** [self.a = self.createVariable("a", u, ..., is_exposed=True, type=ty)]; values
    default to 0. (model.py line 667). *)
Definition var (a : string) (u : unit) (ty : string) : cmd := CVar a a u true ty (PFloat (S754_zero false)).
(** The fractions are created with is_exposed='True', a string, which is not
    equal to True (model.py line 713): not exposed. *)
Definition hidden (a : string) : cmd := CVar a a u_dimless false "output" (PFloat (S754_zero false)).
(** [self.a = self.createParameter("a", u, ...)]; values default to 0 (model.py
    line 755). *)
Definition par (a : string) (u : unit) : cmd := CPar a a u (PInt 0).
(** [self.createEquation(name, "...", e)] with the check on. *)
Definition eqc (name : string) (e : uexpr string) : cmd := CEq name name (UResid e) true.
Local Notation "[[ a ]]" := (UQty a) (at level 0).
Definition minus (a b : uexpr string) := UBin BSub a b.
Definition plus (a b : uexpr string) := UBin BAdd a b.
Definition times (a b : uexpr string) := UBin BMul a b.
Definition over (a b : uexpr string) := UBin BDiv a b.

(** Variables of one phase, lines 210-213, 440-443, 550-553, 620-623. *)
Definition z_in (p : string) := ("z_" ++ p ++ "_in")%string.
Definition w_in (p : string) := ("w_" ++ p ++ "_in")%string.
Definition z_out (p : string) := ("z_" ++ p ++ "_out")%string.
Definition w_out (p : string) := ("w_" ++ p ++ "_out")%string.
Definition fraction_vars (p : string) : list cmd := [hidden (z_in p); hidden (w_in p); hidden (z_out p); hidden (w_out p)].
Definition fractions (ps : list string) : list cmd := flat_map fraction_vars ps.

(** Fraction equations of Valve, SimplePump and Heater, lines 491-501, 580-590,
    666-676. *)
Definition fraction_eqs (p : string) : list cmd :=
  [eqc ("molar_fraction_conservation_for_" ++ p)%string (minus [[z_out p]] [[z_in p]]);
   eqc ("mass_fraction_conservation_for_" ++ p)%string (minus [[w_out p]] [[w_in p]])].

(** ** Mixer, lines 179-290 (Splitter, lines 292-300, is the same) *)

(** [-1. + x_1 + ... + x_n], lines 231-241: without phases a plain float. *)
Definition minus_one : num := PFloat (SFopp (float_of_Z 1)).
Definition sum_of (vars : list string) : option (uexpr string) :=
  match vars with
  | [] => None
  | a :: r => Some (fold_left (fun e b => plus e [[b]]) r (UNumL BAdd minus_one [[a]]))
  end.

(** Lines 229-246. *)
Definition mixer_sums (ps : list string) : script :=
  match sum_of (map z_in ps), sum_of (map w_in ps), sum_of (map z_out ps), sum_of (map w_out ps) with
  | Some a, Some b, Some c, Some d =>
      ([eqc "molar_frac_sum_in" a; eqc "mass_frac_sum_in" b; eqc "molar_frac_sum_out" c; eqc "mass_frac_sum_out" d], None)
  | _, _, _, _ => ([], Some EUnexpectedValue)
  end.

(** Lines 252-266, for one phase. *)
Definition mixer_phase (p : string) : list cmd :=
  [eqc ("molar_conservation_for_" ++ p)%string (minus [[z_out p]] [[z_in p]]);
   eqc ("mass_conservation_for_" ++ p)%string (minus [[w_out p]] [[w_in p]])].

(** Lines 215-227. *)
Definition mixer_flows : list cmd :=
  [var "ndot_in" u_molar_flow "input"; var "ndot_out" u_molar_flow "output";
   eqc "molar_conservation" (minus [["ndot_in"]] [["ndot_out"]]);
   var "mdot_in" u_mass_flow "input"; var "mdot_out" u_mass_flow "output";
   eqc "mass_conservation" (minus [["mdot_in"]] [["mdot_out"]])].

(** Lines 271-290. *)
Definition mixer_rest : list cmd :=
  [var "T_in" u_K "input"; var "T_out" u_K "output";
   eqc "thermal_equilibrium" (minus [["T_out"]] [["T_in"]]);
   var "P_in" u_Pa "input"; var "P_out" u_Pa "output";
   eqc "mechanical_equilibrium" (minus [["P_out"]] [["P_in"]]);
   var "H_in" u_molar_energy "input"; var "H_out" u_molar_energy "output";
   eqc "energy_balance" (minus (times [["ndot_out"]] [["H_out"]]) (times [["ndot_in"]] [["H_in"]]))].

Definition many {A} (l : list A) : bool := Nat.ltb 1 (List.length l).

(** Mixer.__init__, lines 200-290: line 229 reads number_of_phases of None. *)
Definition mixer_init (k : option pack) : script :=
  match k with
  | None => (mixer_flows, Some EAttribute)
  | Some k =>
      let ps := k_names k in
      let start := (if many ps then fractions ps else []) ++ mixer_flows in
      let rest := (if many ps then flat_map mixer_phase (removelast ps) else []) ++ mixer_rest in
      if (2 <=? k_number k)%Z then
        match snd (mixer_sums ps) with
        | Some x => (start, Some x)
        | None => (start ++ fst (mixer_sums ps) ++ rest, None)
        end
      else (start ++ rest, None)
  end.

(** ** Valve, lines 391-501 *)

(** Lines 416-434. *)
Definition valve_vars : list cmd :=
  [var "ndot_in" u_molar_flow "input"; var "ndot_out" u_molar_flow "output";
   var "mdot_in" u_mass_flow "input"; var "mdot_out" u_mass_flow "output";
   var "Qdot_out" u_volume_flow "output";
   var "H_in" u_molar_energy "input"; var "H_out" u_molar_energy "output";
   var "P_in" u_Pa "input"; var "P_out" u_Pa "output";
   var "T_in" u_K "input"; var "T_out" u_K "output";
   par "Delta_P" u_Pa; par "perc_open" u_dimless].

(** Phase variables at the end of __init__, lines 436-443 and 546-553. *)
Definition then_fractions (start : list cmd) (k : option pack) : script :=
  match k with
  | None => (start, Some EAttribute)
  | Some k => (start ++ (if (2 <=? k_number k)%Z then fractions (k_names k) else []), None)
  end.

Definition valve_init (k : option pack) : script := then_fractions valve_vars k.

(** [q.setValue(x)] for a property [x] that may be None. *)
Definition set_property (a : string) (x : option num) : script :=
  match x with Some v => ([CSet a (SANum v) None], None) | None => ([], Some EUnexpectedValue) end.

Definition then_script (a b : script) : script :=
  match snd a with None => (fst a ++ fst b, snd b) | Some _ => a end.

(** Lines 471-483: with several phases setValue is given an EquationNode, or the
    number 0. if there is no name.  (Exceptions while the node is built are not
    told apart from the one of setValue.) *)
Definition valve_rho (lib : chemlib) (k : pack) : script :=
  if (2 <=? k_number k)%Z then
    match k_names k with
    | [] => ([CSet "mix_rho" (SANum (PFloat (S754_zero false))) None], None)
    | _ => ([], Some EUnexpectedValue)
    end
  else match k_star k with
       | Raise x => ([], Some x)
       | Ok c => set_property "mix_rho" (l_rho lib c)
       end.

(** Lines 449-469. *)
Definition valve_balances : list cmd :=
  [eqc "molar_conservation" (minus [["ndot_in"]] [["ndot_out"]]);
   eqc "mass_conservation" (minus [["mdot_in"]] [["mdot_out"]]);
   eqc "isoenthalpy" (minus (times [["H_in"]] [["ndot_in"]]) (times [["H_out"]] [["ndot_out"]]));
   eqc "mechanical_equilibrium" (plus (minus [["P_out"]] [["P_in"]]) [["Delta_P"]]);
   eqc "energy_balance" (minus [["T_out"]] [["T_in"]]);
   par "mix_rho" u_density].
(** Lines 485-487. *)
Definition valve_flux : cmd :=
  eqc "vol_flux_balance" (minus [["Qdot_out"]] (times [["perc_open"]] (over [["mdot_out"]] [["mix_rho"]]))).

Definition phase_eqs (k : pack) : list cmd :=
  if (2 <=? k_number k)%Z then flat_map fraction_eqs (k_names k) else [].

(** Valve.DeclareEquations, lines 446-501. *)
Definition valve_equations (lib : chemlib) (k : option pack) : script :=
  match k with
  | None => (valve_balances, Some EAttribute)
  | Some k => then_script (then_script (valve_balances, None) (valve_rho lib k)) (valve_flux :: phase_eqs k, None)
  end.

(** ** SimplePump, lines 503-590 *)

(** Lines 529-544. *)
Definition pump_vars : list cmd :=
  [var "ndot_in" u_molar_flow "input"; var "ndot_out" u_molar_flow "output";
   var "mdot_in" u_mass_flow "input"; var "mdot_out" u_mass_flow "output";
   var "H_in" u_molar_energy "input"; var "H_out" u_molar_energy "output";
   var "P_in" u_Pa "input"; var "P_out" u_Pa "output";
   var "T_in" u_K "input"; var "T_out" u_K "output";
   par "Delta_P" u_Pa].
Definition pump_init (k : option pack) : script := then_fractions pump_vars k.

(** Lines 558-576. *)
Definition pump_balances : list cmd :=
  [eqc "molar_conservation" (minus [["ndot_in"]] [["ndot_out"]]);
   eqc "mass_conservation" (minus [["mdot_in"]] [["mdot_out"]]);
   eqc "isoenthalpy" (minus (times [["H_in"]] [["ndot_in"]]) (times [["H_out"]] [["ndot_out"]]));
   eqc "mechanical_equilibrium" (minus (minus [["P_out"]] [["P_in"]]) [["Delta_P"]]);
   eqc "energy_balance" (minus [["T_out"]] [["T_in"]])].

(** SimplePump.DeclareEquations, lines 556-590. *)
Definition pump_equations (k : option pack) : script :=
  match k with
  | None => (pump_balances, Some EAttribute)
  | Some k => (pump_balances ++ phase_eqs k, None)
  end.

(** ** Heater, lines 592-696 (Cooler, lines 698-720, is the same) *)

(** Lines 625-644. *)
Definition heater_vars : list cmd :=
  [var "ndot_in" u_molar_flow "input"; var "ndot_out" u_molar_flow "output";
   var "mdot_in" u_mass_flow "input"; var "mdot_out" u_mass_flow "output";
   var "P_in" u_Pa "input"; var "P_out" u_Pa "output";
   par "Delta_P" u_Pa;
   var "H_in" u_molar_energy "input"; var "H_out" u_molar_energy "output";
   par "Q" u_heat_rate;
   var "T_in" u_K "input"; var "T_out" u_K "output";
   par "cp_mix" u_heat_capacity].

(** Heater.__init__, lines 594-658: line 616 reads number_of_phases of None; with
    several phases line 654 reads the undefined name mix_rho_ (unless the loop
    before it raised). *)
Definition heater_init (lib : chemlib) (k : option pack) : script :=
  match k with
  | None => ([], Some EAttribute)
  | Some k =>
      if (2 <=? k_number k)%Z then (fractions (k_names k) ++ heater_vars, Some EName)
      else then_script (heater_vars, None)
             (match k_star k with Raise x => ([], Some x) | Ok c => set_property "cp_mix" (l_Cp lib c) end)
  end.

(** Lines 678-696. *)
Definition heater_balances : list cmd :=
  [eqc "molar_conservation" (minus [["ndot_in"]] [["ndot_out"]]);
   eqc "mass_conservation" (minus [["mdot_in"]] [["mdot_out"]]);
   eqc "mechanical_equilibrium" (plus (minus [["P_out"]] [["P_in"]]) [["Delta_P"]]);
   eqc "energy_balance" (minus (minus (times [["ndot_out"]] [["H_out"]]) (times [["ndot_in"]] [["H_in"]])) [["Q"]]);
   eqc "temperature_balance"
     (minus (minus [["T_out"]] [["T_in"]]) (over [["Q"]] (times [["mdot_out"]] [["cp_mix"]])))].

(** Heater.DeclareEquations, lines 662-696. *)
Definition heater_equations (k : option pack) : script :=
  match k with
  | None => ([], Some EAttribute)
  | Some k => (phase_eqs k ++ heater_balances, None)
  end.

(** ** Tank and flash drums *)

(** Tank.__init__, lines 305-360: line 321 reads number_of_phases of None.
    Fermenter, lines 385-389, is the same. *)
Definition tank_init (k : option pack) : script :=
  match k with
  | None => ([], Some EAttribute)
  | Some k =>
      ((if (2 <=? k_number k)%Z then fractions (k_names k) else []) ++
       [CVar "t" "t" u_s false "" (PFloat (S754_zero false));
        var "ndot_in" u_molar_flow "input"; var "ndot_out" u_molar_flow "output";
        CVar "N" "N" u_mol false "" (PFloat (S754_zero false)); CDist "N";
        var "mdot_in" u_mass_flow "input"; var "mdot_out" u_mass_flow "output";
        CVar "M" "M" u_kg false "" (PFloat (S754_zero false)); CDist "M";
        var "H_in" u_molar_energy "input"; var "H_out" u_molar_energy "output";
        CVar "E" "E" u_J false "" (PFloat (S754_zero false));
        CPar "Q" "Q" u_J (PFloat (S754_zero false)); CDist "E";
        CVar "level" "level" u_m false "" (PFloat (S754_zero false));
        par "area_sec" (unit_pow_num u_m (PInt 2)); CDist "level";
        CVar "P_In" "P_In" u_Pa false "" (PFloat (S754_zero false));
        CVar "P_Out" "P_Out" u_Pa false "" (PFloat (S754_zero false))], None)
  end.
(** Tank.DeclareEquations, lines 363-383: line 365 reads the attribute [self.self]. *)
Definition tank_equations : script := ([], Some EAttribute).

(** Lines 747-776: the attribute ndot_L_out is a variable named ndo_L_out. *)
Definition plain_var (a : string) (u : unit) : cmd := CVar a a u false "" (PFloat (S754_zero false)).
Definition liquid_flow : cmd := CVar "ndot_L_out" "ndo_L_out" u_molar_flow true "output" (PFloat (S754_zero false)).
Definition flash_dynamic_vars : list cmd :=
  [plain_var "t" u_s; var "ndot_in" u_molar_flow "input"; var "ndot_V_out" u_molar_flow "output"; liquid_flow;
   var "N" u_mol "output"; var "mdot_in" u_mass_flow "input"; var "mdot_V_out" u_mass_flow "output";
   var "mdot_L_out" u_mass_flow "output"; var "M" u_kg "output"; var "P_in" u_Pa "input"; var "P_out" u_Pa "output";
   par "Delta_P" u_Pa; var "H_in" u_molar_energy "input"; var "H_V_out" u_molar_energy "output";
   var "H_L_out" u_molar_energy "output"; var "E" u_J "output"; par "Q" u_heat_rate;
   var "T_in" u_K "input"; var "T_out" u_K "output"; par "cp_mix" u_heat_capacity].
(** Flash_Dynamic.__init__, lines 728-790: line 737 reads number_of_phases of
    None; with several phases line 786 reads the undefined name mix_rho_ (unless
    the loop before it raised). *)
Definition flash_dynamic_init (lib : chemlib) (k : option pack) : script :=
  match k with
  | None => ([], Some EAttribute)
  | Some k =>
      if (2 <=? k_number k)%Z then (fractions (k_names k) ++ flash_dynamic_vars, Some EName)
      else then_script (flash_dynamic_vars, None)
             (match k_star k with Raise x => ([], Some x) | Ok c => set_property "cp_mix" (l_Cp lib c) end)
  end.
(** Flash_Dynamic.DeclareEquations, lines 792-826: after the phases line 808
    reads the undefined name delf. *)
Definition flash_dynamic_equations (k : option pack) : script :=
  match k with
  | None => ([], Some EAttribute)
  | Some k => (phase_eqs k, Some EName)
  end.

(** Variables of one phase of a steady flash, lines 844-849: the attributes
    w_p_L_out and w_p_V_out are variables of the same name. *)
Definition named_fraction (a n : string) : cmd := CVar a n u_dimless false "output" (PFloat (S754_zero false)).
Definition z_liquid (p : string) := ("z_" ++ p ++ "_L_out")%string.
Definition w_liquid (p : string) := ("w_" ++ p ++ "_L_out")%string.
Definition z_vapour (p : string) := ("z_" ++ p ++ "_V_out")%string.
Definition w_vapour (p : string) := ("w_" ++ p ++ "_V_out")%string.
Definition flash_fractions (p : string) : list cmd :=
  [hidden (z_in p); hidden (w_in p); named_fraction (z_liquid p) (z_liquid p); named_fraction (w_liquid p) (w_out p);
   named_fraction (z_vapour p) (z_out p); named_fraction (w_vapour p) (w_out p)].
(** Lines 852-879. *)
Definition flash_steady_vars : list cmd :=
  [plain_var "t" u_s; var "ndot_in" u_molar_flow "input"; var "ndot_V_out" u_molar_flow "output"; liquid_flow;
   var "N" u_mol "output"; var "mdot_in" u_mass_flow "input"; var "mdot_V_out" u_mass_flow "output";
   var "mdot_L_out" u_mass_flow "output"; var "M" u_kg "output"; var "P_in" u_Pa "input"; var "P_out" u_Pa "output";
   par "Delta_P" u_Pa; var "H_in" u_molar_energy "input"; var "H_V_out" u_molar_energy "output";
   var "H_L_out" u_molar_energy "output"; par "Q" u_heat_rate; var "T_in" u_K "input";
   var "T_V_out" u_K "output"; var "T_L_out" u_K "output"].
(** Flash_SteadyState.__init__, lines 830-879: line 840 reads number_of_phases of
    None. *)
Definition flash_steady_init (k : option pack) : script :=
  match k with
  | None => ([], Some EAttribute)
  | Some k => ((if (2 <=? k_number k)%Z then flat_map flash_fractions (k_names k) else []) ++ flash_steady_vars, None)
  end.
(** Lines 887-895 read attributes z_p_out and w_p_out. *)
Definition flash_phase (p : string) : list cmd :=
  [eqc ("molar_fraction_conservation_for_" ++ p ++ "_liquid")%string (minus [[z_out p]] [[z_in p]]);
   eqc ("mass_fraction_conservation_for_" ++ p)%string (minus [[w_out p]] [[w_in p]])].
(** Flash_SteadyState.DeclareEquations, lines 881-927: after the phases and line
    899 line 901 calls the undefined name createParameter. *)
Definition flash_steady_equations (k : option pack) : script :=
  match k with
  | None => ([], Some EAttribute)
  | Some k => ((if (2 <=? k_number k)%Z then flat_map flash_phase (k_names k) else []) ++
      [eqc "molar_conservation" (minus (minus [["ndot_in"]] [["ndot_L_out"]]) [["ndot_V_out"]])], Some EName)
  end.

(** ** Material streams *)

(** Parameters, lines 30-34, 87-91, 141-145. *)
Definition stream_vars : list cmd :=
  [par "mdot" u_mass_flow; par "ndot" u_molar_flow; par "P" u_Pa; par "H" u_molar_energy; par "T" u_K].
(** MultiphasicMaterialStream.__init__, lines 134-150: line 147 reads phase_names
    of None. *)
Definition phase_pars (p : string) : list cmd := [par ("z_" ++ p)%string u_dimless; par ("w_" ++ p)%string u_dimless].
Definition multi_stream_init (k : option pack) : script :=
  match k with
  | None => (stream_vars, Some EAttribute)
  | Some k => (stream_vars ++ flat_map phase_pars (k_names k), None)
  end.

(** The float 1e-3. *)
Definition milli : num := PFloat (S754_finite false 4611686018427388 (-62)).
(** Python [x / y] for a float [y]. *)
Definition ndiv (x y : num) : res num :=
  if neqb y (PInt 0) then Raise EZeroDivision else Ok (PFloat (SFdiv 53 1024 (to_float x) (to_float y))).

(** [self.a] of a stream, which always is a quantity of the heap. *)
Definition the_qty (w : mworld) (a : string) : res qty :=
  let* l := attr_qty (w_mod w) a in
  match hget (w_heap w) l with Some q => Ok q | None => Raise EName end.

(** Lines 42-50, 96-104, 155-163: the missing flow from the given one. *)
Definition stream_flows (lib : chemlib) (s : pstore) (i : nat) (w : mworld) : mworld * res Datatypes.unit :=
  match the_qty w "mdot", the_qty w "ndot" with
  | Ok m, Ok n =>
      let r :=
        if q_spec m && negb (q_spec n) then
          let* c := get_phase s i "*" in
          let* v := ndiv (q_value m) (nmul (l_MW lib (c_name c)) milli) in Ok (Some ("ndot", v))
        else if negb (q_spec m) && q_spec n then
          let* c := get_phase s i "*" in
          Ok (Some ("mdot", nmul (nmul (q_value n) (l_MW lib (c_name c))) milli))
        else Ok None in
      match r with
      | Raise x => (w, Raise x)
      | Ok None => (w, Ok tt)
      | Ok (Some (a, v)) => run_cmd w (CSet a (SANum v) None)
      end
  | Raise x, _ | _, Raise x => (w, Raise x)
  end.

(** Lines 54-64, 108-118, 167-177 (calculate: property_package.py line 115). *)
Definition stream_state (s : pstore) (i : option nat) (w : mworld) : pstore * res Datatypes.unit :=
  match the_qty w "T", the_qty w "P" with
  | Ok t, Ok p =>
      if q_spec t || q_spec p then
        match i with
        | None => (s, Raise EAttribute)
        | Some i => calculate s i (if q_spec t then q_value t else T_default) (if q_spec p then q_value p else P_default)
        end
      else (s, Ok tt)
  | Raise x, _ | _, Raise x => (s, Raise x)
  end.

(** DeclareParameters of the streams, lines 39-64, 93-118, 152-177. *)
Definition stream_declare (lib : chemlib) (s : pstore) (i : option nat) (w : mworld)
  : pstore * mworld * res Datatypes.unit :=
  match (match i with Some i => stream_flows lib s i w | None => (w, Ok tt) end) with
  | (w', Raise x) => (s, w', Raise x)
  | (w', Ok _) => let '(s', r) := stream_state s i w' in (s', w', r)
  end.

(** ** Totalization of inlets, model.py lines 22-95 *)

(** Lines 30-58: variables made if the attribute is missing (the value given for
    the lower bound is not modelled). *)
Definition ensure (w : mworld) (a : string) (u : unit) : mworld :=
  match dget a (m_attrs (w_mod w)) with
  | Some _ => w
  | None => fst (run_cmd w (var a u "input"))
  end.
Definition ensure_inputs (w : mworld) : mworld :=
  ensure (ensure (ensure (ensure (ensure w "P_in" u_Pa) "T_in" u_K) "mdot_in" u_mass_flow) "ndot_in" u_molar_flow)
         "H_in" u_molar_energy.

(** Line 62. *)
Definition stream_flags : incflags := mkInc true true true false false.
Fixpoint take_streams (h : heap) (m : mstate) (ss : list mstate) : heap * mstate * res Datatypes.unit :=
  match ss with
  | [] => (h, m, Ok tt)
  | s :: r => match incorporate h m s stream_flags with
              | (h', m', Ok _) => take_streams h' m' r
              | bad => bad
              end
  end.

(** [createEquation("eq_P_" + stream.P.name, "", stream.P() - stream.P.value)],
    lines 73 and 79. *)
Definition fix_quantity (w : mworld) (prefix a : string) (s : mstate) : mworld * res Datatypes.unit :=
  match attr_qty s a with
  | Raise x => (w, Raise x)
  | Ok l => match hget (w_heap w) l with
            | None => (w, Raise EName)
            | Some q =>
                match node_op BSub (qty_call l q) (ONum (q_value q)) with
                | Raise x => (w, Raise x)
                | Ok n => let '(w', r) := create_equation w (prefix ++ q_name q)%string (Some (EANode n)) true in
                          (w', match r with Ok _ => Ok tt | Raise x => Raise x end)
                end
            end
  end.
Fixpoint fix_quantities (w : mworld) (prefix a : string) (ss : list mstate) : mworld * res Datatypes.unit :=
  match ss with
  | [] => (w, Ok tt)
  | s :: r => match fix_quantity w prefix a s with
              | (w', Ok _) => fix_quantities w' prefix a r
              | bad => bad
              end
  end.

(** [stream.a() for stream in inlets], lines 71 and 77. *)
Fixpoint calls_of (h : heap) (a : string) (ss : list mstate) : res (list opd) :=
  match ss with
  | [] => Ok []
  | s :: r => let* l := attr_qty s a in
              let* n := build_qty h l in
              let* os := calls_of h a r in Ok (ONode n :: os)
  end.

(** [createEquation("totalization_a", ..., main.a_in() - Min( *inputs ))], lines
    85-95. *)
Definition totalize (w : mworld) (name a : string) (inputs : list opd) : mworld * res Datatypes.unit :=
  match (let* l := attr_qty (w_mod w) a in
         let* x := build_qty (w_heap w) l in
         let* y := node_minmax false inputs in
         node_op BSub x (ONode y)) with
  | Raise x => (w, Raise x)
  | Ok n => let '(w', r) := create_equation w name (Some (EANode n)) true in
            (w', match r with Ok _ => Ok tt | Raise x => Raise x end)
  end.

Definition then_do {A} (r : mworld * res A) (f : mworld -> A -> mworld * res Datatypes.unit) : mworld * res Datatypes.unit :=
  match r with (w, Ok a) => f w a | (w, Raise x) => (w, Raise x) end.

(** The whole function; exceptions of lines 77-79 become AbsentRequiredObjectError
    (line 83).  The ports have inlets whenever there are inlets (PortsModel.v). *)
Definition totalize_inlets (w : mworld) (ss : list mstate) : mworld * res Datatypes.unit :=
  let w0 := ensure_inputs w in
  let '(h, m, r) := take_streams (w_heap w0) (w_mod w0) ss in
  then_do (mkW h (w_uids w0) m, r) (fun w1 _ =>
  then_do (w1, calls_of (w_heap w1) "P" ss) (fun w1 ps =>
  then_do (fix_quantities w1 "eq_P_" "P" ss) (fun w2 _ =>
  let again r := match r with (w, Raise _) => (w, Raise EAbsentRequired) | ok => ok end in
  then_do (match calls_of (w_heap w2) "T" ss with
           | Raise _ => (w2, Raise EAbsentRequired)
           | Ok ts => match again (fix_quantities w2 "eq_T_" "T" ss) with
                      | (w3, Ok _) => (w3, Ok ts)
                      | (w3, Raise x) => (w3, Raise x)
                      end
           end) (fun w3 ts =>
  then_do (totalize w3 "totalization_P" "P_in" ps) (fun w4 _ =>
  totalize w4 "totalization_T" "T_in" ts))))).

(** Model.__call__, model.py lines 546-570, with inlets. *)
Definition model_call_inlets (d : decls) (ss : list mstate) (w : mworld) : mworld * res Datatypes.unit :=
  then_do (run_cmds w (d_cons d ++ d_pars d ++ d_vars d)) (fun w1 _ =>
  then_do (match ss with [] => (w1, Ok tt) | _ => totalize_inlets w1 ss end) (fun w2 _ =>
  run_cmds w2 (d_eqs d))).
