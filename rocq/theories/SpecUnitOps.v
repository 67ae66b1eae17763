(** Specification vocabulary for the library of unit operations. *)
From Verif Require Import Base Num UnitModel Sympy Node Build EquationModel ModelModel PackageModel UnitOpModel SpecUnits SpecExpr.
From Coq Require Import Reals.
Notation num := Verif.Num.num.

(** The quantity under an attribute of the model. *)
Definition quantity (w : mworld) (a : string) : option qty :=
  match attr_qty (w_mod w) a with Ok l => hget (w_heap w) l | Raise _ => None end.

(** [v] gives the quantities of the model the values [en] gives their names, and
    specified quantities have their value. *)
Definition agrees (w : mworld) (en : env) (v : string -> R) : Prop :=
  forall a q, quantity w a = Some q ->
    v a = e_sym en (q_name q) /\ (q_spec q = true -> num_value (q_value q) = Some (v a)).

(** [en] satisfies every equation of the model. *)
Definition solution (m : mstate) (en : env) : Prop :=
  forall name e, dget name (m_eqs m) = Some e ->
    exists n, eq_expr e = Some n /\ den (nd_sym n) en = Some 0%R.

(** The user sets values of quantities, in any way; what raises is ignored. *)
Definition is_setting (c : cmd) : Prop := match c with CSet _ _ _ => True | _ => False end.
Definition target (c : cmd) : string := match c with CSet a _ _ => a | _ => "" end.
Definition settle (w : mworld) (l : list cmd) : mworld := fold_left (fun w c => fst (run_cmd w c)) l w.

(** Made, given values, and its equations declared. *)
Definition usable (init equations : script) : Prop := forall h u name, exists w1,
  run_script (mkW h u (new_model name)) init = (w1, Ok tt) /\
  forall l, Forall is_setting l -> snd (run_script (settle w1 l) equations) = Ok tt.

(** ** What the unit operations mean *)
Open Scope R_scope.

Definition conserves (v : string -> R) : Prop :=
  v "ndot_in" = v "ndot_out" /\ v "mdot_in" = v "mdot_out".
(** Fractions of the phases are the same on both sides. *)
Definition same_fractions (ps : list string) (v : string -> R) : Prop :=
  forall p, In p ps -> v ("z_" ++ p ++ "_out")%string = v ("z_" ++ p ++ "_in")%string /\
                       v ("w_" ++ p ++ "_out")%string = v ("w_" ++ p ++ "_in")%string.
(** Fractions add up to one. *)
Definition total (vars : list R) : R := fold_right Rplus 0 vars.
Definition whole_fractions (ps : list string) (v : string -> R) : Prop :=
  total (map (fun p => v ("z_" ++ p ++ "_in")%string) ps) = 1 /\
  total (map (fun p => v ("w_" ++ p ++ "_in")%string) ps) = 1 /\
  total (map (fun p => v ("z_" ++ p ++ "_out")%string) ps) = 1 /\
  total (map (fun p => v ("w_" ++ p ++ "_out")%string) ps) = 1.

(** A pump raises the pressure. *)
Definition pump_means (v : string -> R) : Prop :=
  conserves v /\ v "P_out" = v "P_in" + v "Delta_P" /\ v "T_out" = v "T_in" /\
  v "ndot_out" * v "H_out" = v "ndot_in" * v "H_in".

(** A valve lowers it; [rho] is the density of the fluid. *)
Definition valve_means (rho : R) (v : string -> R) : Prop :=
  conserves v /\ v "P_out" = v "P_in" - v "Delta_P" /\ v "T_out" = v "T_in" /\
  v "ndot_out" * v "H_out" = v "ndot_in" * v "H_in" /\
  rho <> 0 /\ v "Qdot_out" = v "perc_open" * (v "mdot_out" / rho).

(** A heater adds the heat Q; nothing to heat is excluded. *)
Definition heater_means (v : string -> R) : Prop :=
  conserves v /\ v "P_out" = v "P_in" - v "Delta_P" /\
  v "ndot_out" * v "H_out" = v "ndot_in" * v "H_in" + v "Q" /\
  v "mdot_out" * v "cp_mix" <> 0 /\ v "Q" = v "mdot_out" * v "cp_mix" * (v "T_out" - v "T_in").

(** A mixer passes its (totalized) inlet on. *)
Definition mixer_means (v : string -> R) : Prop :=
  conserves v /\ v "P_out" = v "P_in" /\ v "T_out" = v "T_in" /\
  v "ndot_out" * v "H_out" = v "ndot_in" * v "H_in".

(** ** Streams *)

(** The number [x] is the real [r]: a double, or an integer, of no extreme
    magnitude. *)
Definition ordinary (x : num) (r : R) : Prop :=
  num_value x = Some r /\
  match x with PFloat f => valid_binary 53 1024 f = true | PInt _ => True end /\
  / 2 ^ 300 <= Rabs r <= 2 ^ 300.
(** Mass flow (kg/s) [m], molar flow (mol/s) [n] and molecular weight (g/mol) [w]
    fit together, up to rounding. *)
Definition flows_agree (m n w : R) : Prop := Rabs (m - n * w / 1000) <= / 2 ^ 49 * Rabs m.
Close Scope R_scope.
