(** Properties of resolving unit operations. *)
From Verif Require Import Base Num UnitModel Sympy Node Build EquationModel ModelModel PackageModel UnitOpModel
  SpecUnits SpecExpr SpecModel UnitResolveModel SpecUnitResolve ModelFacts UnitResolveFacts.
From Coq Require Import Reals.
Notation num := Verif.Num.num.

(** ** C72: A unit operation can be resolved with the streams on its ports.  Then
    its model takes the least pressure and temperature and the sum of the flows
    of its inlets, and its outlet has the pressure, temperature, enthalpy, flows
    and fractions the model takes. *)

(** Never with inlets. *)
Theorem C72_inlets_refuted : forall d k ss outs w, ss <> [] -> snd (unit_resolve d k (Some ss) outs w) <> Ok tt.
Proof. exact resolve_inlets. Qed.
Print Assumptions C72_inlets_refuted.

(** Nor without having set inlets. *)
Theorem C72_unset_refuted : forall d k outs w, snd (unit_resolve d k None outs w) <> Ok tt.
Proof. exact resolve_unset. Qed.
Print Assumptions C72_unset_refuted.

(** Nor with a stream of one or several phases as the outlet. *)
Theorem C72_kind_refuted : forall d k o w, snd (unit_resolve d k (Some []) [(false, o)] w) <> Ok tt.
Proof. exact resolve_kind. Qed.
Print Assumptions C72_kind_refuted.

(** With a phase, only if the outlet declares a quantity with the name of what is
    linked as the fraction of the model. *)
Theorem C72_phases_partial : forall d k o w w' outs p ps, k_names k = p :: ps ->
  unit_resolve d (Some k) (Some []) [(true, o)] w = (w', outs, Ok tt) ->
  exists w1 h m l q, run_cmds w (d_cons d ++ d_pars d ++ d_vars d) = (w1, Ok tt) /\
    incorporate (w_heap w1) (w_mod w1) o (mkInc true true true false false) = (h, m, Ok tt) /\
    attr_qty m ("z_" ++ p)%string = Ok l /\ hget h l = Some q /\ In (q_name q) (declared o).
Proof. exact resolve_phases. Qed.
Print Assumptions C72_phases_partial.

(** With phases the outlet gets two equations for each of them, and nothing else of
    it changes. *)
Theorem C72_given_partial : forall d k o w w' outs, unit_resolve d (Some k) (Some []) [(true, o)] w = (w', outs, Ok tt) ->
  exists o' h m, outs = [(true, o')] /\ m_attrs o' = m_attrs o /\ m_name o' = m_name o /\
    (exists u, run_cmds (mkW h u m) (d_eqs d) = (w', Ok tt)) /\
    (forall p, In p (k_names k) -> gives_back h o' m ("molar_conservation_phase_" ++ p ++ "_outlet")%string ("z_" ++ p)%string ("z_" ++ p)%string /\
       gives_back h o' m ("mass_conservation_phase_" ++ p ++ "_outlet")%string ("w_" ++ p)%string ("w_" ++ p)%string) /\
    forall key, (forall p, In p (k_names k) -> key <> (("molar_conservation_phase_" ++ p ++ "_outlet") ++ "_" ++ m_name o)%string /\
        key <> (("mass_conservation_phase_" ++ p ++ "_outlet") ++ "_" ++ m_name o)%string) -> dget key (m_eqs o') = dget key (m_eqs o).
Proof. exact resolve_given. Qed.
Print Assumptions C72_given_partial.

(** Without a package there is no outlet. *)
Theorem C72_package_refuted : forall d o w, snd (unit_resolve d None (Some []) [(true, o)] w) <> Ok tt.
Proof. exact resolve_no_package. Qed.
Print Assumptions C72_package_refuted.

(** An empty list of inlets and no phase: what the model takes is passed on to
    the outlet, other equations and the outlet stay, and the equations of the
    model are declared last. *)
Theorem C72_outlet_partial : forall d k o w w' outs, k_names k = [] ->
  unit_resolve d (Some k) (Some []) [(true, o)] w = (w', outs, Ok tt) ->
  outs = [(true, o)] /\
  exists w1 h m w2, run_cmds w (d_cons d ++ d_pars d ++ d_vars d) = (w1, Ok tt) /\
    incorporate (w_heap w1) (w_mod w1) o (mkInc true true true false false) = (h, m, Ok tt) /\
    w_heap w2 = h /\ m_attrs (w_mod w2) = m_attrs m /\ m_name (w_mod w2) = m_name m /\
    passes_on h o (w_mod w2) "tot_P_out" "P" "P_in" /\ passes_on h o (w_mod w2) "tot_T_out" "T" "T_in" /\
    passes_on h o (w_mod w2) "tot_H_out" "H" "H_in" /\ passes_on h o (w_mod w2) "tot_ndot_out" "ndot" "ndot_in" /\
    passes_on h o (w_mod w2) "tot_mdot_out" "mdot" "mdot_in" /\
    (forall key, (forall n, In n ["tot_P_out"; "tot_T_out"; "tot_H_out"; "tot_ndot_out"; "tot_mdot_out"] ->
       key <> (n ++ "_" ++ m_name m)%string) -> dget key (m_eqs (w_mod w2)) = dget key (m_eqs m)) /\
    run_cmds w2 (d_eqs d) = (w', Ok tt).
Proof. exact resolve_outlet. Qed.
Print Assumptions C72_outlet_partial.

(** No outlet, or several: as calling the model; the outlets stay as they are. *)
Theorem C72_plain_partial : forall d k outs w, List.length outs <> 1%nat ->
  unit_resolve d k (Some []) outs w = (fst (model_call d w), outs, snd (model_call d w)).
Proof. exact resolve_plain. Qed.
Print Assumptions C72_plain_partial.

(** A model that takes a stream, and a stream to pass it on to. *)
Definition a_stream : mworld := fst (run_cmds (mkW [] (fun _ => 0%nat) (new_model "S")) stream_vars).
Definition a_model : mworld := mkW (w_heap a_stream) (w_uids a_stream) (new_model "M").
Definition taking : decls := mkDecls [] []
  [var "P_in" u_Pa "input"; var "T_in" u_K "input"; var "H_in" u_molar_energy "input";
   var "ndot_in" u_molar_flow "input"; var "mdot_in" u_mass_flow "input"; hidden "z_water"; hidden "w_water"]
  [eqc "given" (minus (UQty "P_in") (UQty "P_in"))].
Definition no_phase : pack := mkPack 0 [] (Raise EKey).
Definition one_phase : pack := mkPack 1 ["water"] (Raise EKey).

Example C72_case :
  snd (unit_resolve taking (Some no_phase) (Some []) [(true, w_mod a_stream)] a_model) = Ok tt /\
  dkeys (m_eqs (w_mod (fst (fst (unit_resolve taking (Some no_phase) (Some []) [(true, w_mod a_stream)] a_model))))) =
    ["tot_P_out_M"; "tot_T_out_M"; "tot_H_out_M"; "tot_ndot_out_M"; "tot_mdot_out_M"; "given_M"].
Proof. vm_compute. split; reflexivity. Qed.

(** What happens instead: with an inlet the least pressure raises, with a phase
    the missing fraction of the stream. *)
Example C72_raises :
  snd (unit_resolve taking (Some no_phase) (Some [w_mod a_stream]) [] a_model) = Raise EUnexpectedValue /\
  snd (unit_resolve taking (Some no_phase) None [] a_model) = Raise EAttribute /\
  snd (unit_resolve taking (Some one_phase) (Some []) [(true, w_mod a_stream)] a_model) = Raise EAttribute.
Proof. vm_compute. repeat split. Qed.

(** Then the fraction linked is the copy of the outlet's own, which hides the one
    of the model: the equation holds whatever the fractions are. *)
Definition wet_stream : mworld := fst (run_cmds (mkW [] (fun _ => 0%nat) (new_model "S")) (stream_vars ++ phase_pars "water")).
Theorem C72_fractions_refuted : exists d o w h u,
  w = mkW h u (new_model "M") /\ snd (unit_resolve d (Some one_phase) (Some []) [(true, o)] w) = Ok tt /\
  In "z_water_S" (declared o) /\
  let m := w_mod (fst (fst (unit_resolve d (Some one_phase) (Some []) [(true, o)] w))) in
  In "z_water_M" (declared m) /\
  exists e n, dget "molar_conservation_phase_water_outlet_M" (m_eqs m) = Some e /\ eq_expr e = Some n /\
    forall en, den (nd_sym n) en = Some 0%R.
Proof.
  exists taking, (w_mod wet_stream), (mkW (w_heap wet_stream) (w_uids wet_stream) (new_model "M")), (w_heap wet_stream), (w_uids wet_stream).
  split; [reflexivity|]. split; [vm_compute; reflexivity|]. split; [refine (proj1 (mem_str_spec _ _) _); vm_compute; reflexivity|]. cbv zeta.
  split; [refine (proj1 (mem_str_spec _ _) _); vm_compute; reflexivity|].
  refine (symbol_zero _ _ "z_water_S" _). vm_compute. reflexivity.
Qed.
Print Assumptions C72_fractions_refuted.
