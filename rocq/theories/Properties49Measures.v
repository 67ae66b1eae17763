(** Property theorems C91 (what the names of the library's quantities say) and C53
    (what a call with inlets leaves behind). *)
From Verif Require Import Base Num UnitModel Sympy Node Build EquationModel ModelModel PackageModel UnitOpModel SpecUnits SpecSi SpecExpr SpecModel SpecUnitOps
  SpecInlets SpecMeasure MeasureFacts InletFacts CallInletFacts Properties12UnitOps Properties47Inlets.
From Coq Require Import Reals.
Notation num := Verif.Num.num.

(** ** C91 *)
(** Units: with any property package, any values given to quantities by the user,
    and however far __init__ and DeclareEquations get. *)
Theorem C91_units_partial : forall lib k class init equations, In (class, init, equations) (unit_operations lib k) ->
  forall h u name l w, Forall is_setting l -> operated init equations (mkW h u (new_model name)) l w ->
  forall a q, quantity w a = Some q -> (class = "Tank" -> a <> "Q") -> exists e, name_tells a = Some e /\ of_powers (q_units q) e.
Proof. exact units_told. Qed.
Print Assumptions C91_units_partial.

(** Sides: exposed are variables only, those whose names end in _in as inputs and
    all others as outputs; everything named _in or _out is exposed but fractions. *)
Theorem C91_sides_partial : forall lib k class init equations, In (class, init, equations) (unit_operations lib k) ->
  forall h u name l w, Forall is_setting l -> operated init equations (mkW h u (new_model name)) l w ->
  forall a q, quantity w a = Some q ->
  (q_exposed q = true -> q_kind q = KVariable /\
     (q_type q = "input" /\ ends_in "_in" a = true \/ q_type q = "output" /\ ends_in "_in" a = false)) /\
  (fraction a = false -> ends_in "_in" a || ends_in "_out" a = true -> q_exposed q = true).
Proof. exact sides_told. Qed.
Print Assumptions C91_sides_partial.

(** The heat of a tank is an energy, unlike that of all other unit operations,
    though it stands beside enthalpy flows. *)
Definition fresh_unit : mworld := mkW [] (fun _ => 0%nat) (new_model "M").
Lemma looked_up w a : (exists q, quantity w a = Some q) <-> match quantity w a with Some _ => true | None => false end = true.
Proof. destruct (quantity w a); split; intros H; eauto; [destruct H; discriminate|discriminate]. Qed.
Lemma found w a (f : qty -> bool) : match quantity w a with Some q => f q | None => false end = true -> exists q, quantity w a = Some q /\ f q = true.
Proof. destruct (quantity w a) as [q|]; [eauto|discriminate]. Qed.
Theorem C91_tank_refuted : exists k w q e, operated (tank_init (Some k)) tank_equations fresh_unit [] w /\ quantity w "Q" = Some q /\
  name_tells "Q" = Some e /\ ~ of_powers (q_units q) e /\ of_powers (q_units q) energy.
Proof.
  destruct (found (fst (run_script fresh_unit (tank_init (Some emulsion)))) "Q"
    (fun q => powers_checked (q_units q) energy)) as (q & Q & P); [vm_compute; reflexivity|].
  exists emulsion, (fst (run_script fresh_unit (tank_init (Some emulsion)))), q, [("kg", 1); ("m", 2); ("s", -3)]%Z.
  split; [now left|]. split; [exact Q|]. split; [reflexivity|]. apply powers_hold in P. split; [|exact P].
  intros [H _]. destruct P as [P _]. destruct (H "s") as (x & Ex & Vx); [cbn; auto 10|]. destruct (P "s") as (y & Ey & Vy); [cbn; auto 10|].
  rewrite Ex in Ey. injection Ey as <-. apply (different_powers x (-3) (-2)); [exact Vx|exact Vy|discriminate].
Qed.
Print Assumptions C91_tank_refuted.

(** The fractions at the inlet of a pump are no inputs. *)
Theorem C91_fractions_refuted : exists k w q, operated (pump_init (Some k)) (pump_equations (Some k)) fresh_unit [] w /\
  quantity w "z_oil_in" = Some q /\ q_exposed q = false /\ q_type q = "output".
Proof.
  destruct (found (fst (run_script fresh_unit (pump_init (Some emulsion)))) "z_oil_in"
    (fun q => negb (q_exposed q) && String.eqb (q_type q) "output")) as (q & Q & P); [vm_compute; reflexivity|].
  apply andb_prop in P. destruct P as [P1 P2]. apply negb_true_iff in P1. apply String.eqb_eq in P2.
  exists emulsion, (fst (run_script fresh_unit (pump_init (Some emulsion)))), q. split; [now left|auto].
Qed.
Print Assumptions C91_fractions_refuted.

Definition some_lib : chemlib := mkLib (fun _ => PInt 18) (fun _ => Some (PInt 1000)) (fun _ => Some (PInt 4180)).
Definition pump_used : mworld :=
  fst (run_script (settle (fst (run_script fresh_unit (pump_init (Some emulsion)))) [CSet "Delta_P" (SANum (PInt 5)) None]) (pump_equations (Some emulsion))).
Example C91_case :
  In ("SimplePump", pump_init (Some emulsion), pump_equations (Some emulsion)) (unit_operations some_lib (Some emulsion)) /\
  Forall is_setting [CSet "Delta_P" (SANum (PInt 5)) None] /\
  operated (pump_init (Some emulsion)) (pump_equations (Some emulsion)) fresh_unit [CSet "Delta_P" (SANum (PInt 5)) None] pump_used /\
  (exists q, quantity pump_used "Delta_P" = Some q /\ neqb (q_value q) (PInt 5) = true) /\
  (exists q, quantity pump_used "H_in" = Some q /\ q_exposed q = true) /\ (exists q, quantity pump_used "w_oil_out" = Some q).
Proof.
  split; [cbn; auto 10|]. split; [repeat constructor|]. split; [now right; right|].
  split; [apply (found pump_used "Delta_P" (fun q => neqb (q_value q) (PInt 5))); vm_compute; reflexivity|].
  split; [apply (found pump_used "H_in" q_exposed); vm_compute; reflexivity|]. apply looked_up. vm_compute. reflexivity.
Qed.

(** ** C53 *)
(** Without inlets a call is that of any model. *)
Theorem C53_none : forall d w, model_call_inlets d [] w = model_call d w.
Proof. exact call_no_inlets. Qed.
Print Assumptions C53_none.

(** With inlets, where it gets as far as the least pressure, the pressures and
    temperatures of all inlets are bound to their values, ... *)
Theorem C53_kept_partial : forall d ss w w1 w', ss <> [] -> run_cmds w (d_cons d ++ d_pars d ++ d_vars d) = (w1, Ok tt) ->
  model_call_inlets d ss w = (w', Raise EUnexpectedValue) ->
  told_apart (w_heap w') ss "P" "P" -> told_apart (w_heap w') ss "T" "T" ->
  forall s, In s ss -> stays_at_value (w_heap w') s (w_mod w') "eq_P_" "P" "P" /\ stays_at_value (w_heap w') s (w_mod w') "eq_T_" "T" "T".
Proof. exact call_keeps. Qed.
Print Assumptions C53_kept_partial.

(** ... and the model has got the inlet variables it did not have, of the right
    units and exposed as inputs (unless a stream has an object of that name). *)
Theorem C53_inputs_partial : forall d ss w w1 w' a, ss <> [] -> run_cmds w (d_cons d ++ d_pars d ++ d_vars d) = (w1, Ok tt) ->
  model_call_inlets d ss w = (w', Raise EUnexpectedValue) -> In a ["P_in"; "T_in"; "mdot_in"; "ndot_in"; "H_in"] -> dget a (m_attrs (w_mod w1)) = None ->
  (forall s l q, In s ss -> In l (dvals (m_vars s) ++ dvals (m_pars s) ++ dvals (m_cons s)) -> hget (w_heap w') l = Some q -> object_name (q_name q) (q_owner q) <> a) ->
  exists q e, quantity w' a = Some q /\ q_kind q = KVariable /\ q_name q = full_name a (m_name (w_mod w1)) /\
    q_exposed q = true /\ q_type q = "input" /\ name_tells a = Some e /\ of_powers (q_units q) e.
Proof. exact ensured_kept. Qed.
Print Assumptions C53_inputs_partial.

Definition none_declared : decls := mkDecls [] [] [] [].
Definition both_called : mworld * res Datatypes.unit := model_call_inlets none_declared both_streams second_model.
Definition foreign (h : heap) (a : string) (s : mstate) : bool :=
  forallb (fun l => match hget h l with Some q => negb (String.eqb (object_name (q_name q) (q_owner q)) a) | None => true end)
    (dvals (m_vars s) ++ dvals (m_pars s) ++ dvals (m_cons s)).
Lemma foreign_all h a ss : forallb (foreign h a) ss = true ->
  forall s l q, In s ss -> In l (dvals (m_vars s) ++ dvals (m_pars s) ++ dvals (m_cons s)) -> hget h l = Some q -> object_name (q_name q) (q_owner q) <> a.
Proof.
  intros H s l q Hs Hl Hq. rewrite forallb_forall in H. specialize (H s Hs). unfold foreign in H. rewrite forallb_forall in H. specialize (H l Hl).
  rewrite Hq in H. apply negb_true_iff, String.eqb_neq in H. exact H.
Qed.
Example C53_kept_case :
  run_cmds second_model (d_cons none_declared ++ d_pars none_declared ++ d_vars none_declared) = (second_model, Ok tt) /\
  snd both_called = Raise EUnexpectedValue /\
  told_apart (w_heap (fst both_called)) both_streams "P" "P" /\ told_apart (w_heap (fst both_called)) both_streams "T" "T" /\
  dget "P_in" (m_attrs (w_mod second_model)) = None /\
  (forall s l q, In s both_streams -> In l (dvals (m_vars s) ++ dvals (m_pars s) ++ dvals (m_cons s)) ->
     hget (w_heap (fst both_called)) l = Some q -> object_name (q_name q) (q_owner q) <> "P_in") /\
  dkeys (m_eqs (w_mod (fst both_called))) = ["eq_P_P_S_M"; "eq_P_P_R_M"; "eq_T_T_S_M"; "eq_T_T_R_M"].
Proof.
  split; [reflexivity|]. split; [vm_compute; reflexivity|].
  assert (G : forall b, In b ["P"; "T"] ->
    map (name_at (w_heap (fst both_called)) b) both_streams = [Some (b ++ "_S")%string; Some (b ++ "_R")%string]).
  { intros b [<-|[<-|[]]]; vm_compute; reflexivity. }
  assert (N : forall b, In b ["P"; "T"] -> NoDup (map (name_at (w_heap (fst both_called)) b) both_streams)).
  { intros b Hb. rewrite (G b Hb). destruct Hb as [<-|[<-|[]]]; repeat constructor; cbn [In]; intuition discriminate. }
  split; [apply distinct_apart, N; cbn; auto|]. split; [apply distinct_apart, N; cbn; auto|]. split; [reflexivity|].
  split; [apply foreign_all; vm_compute; reflexivity|vm_compute; reflexivity].
Qed.
