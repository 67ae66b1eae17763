(** Property theorems C72 (what refused inlets leave) and C90 (the configuration a
    study simulates with). *)
From Verif Require Import Base BaseFacts Num UnitModel Sympy Node Build EquationModel ModelModel UnitOpModel UnitResolveModel SpecExpr
  SpecModel SpecInlets InletFacts Properties20UnitResolve.
From Verif Require Import SolverModel SimModel OptimModel SpecOptim OptimFacts SpecStudySim StudySimFacts Properties10Optimisation.
From Coq Require Import Reals.
Notation num := Verif.Num.num.

(** ** C72 *)
(** Where resolving gets past its inlets, the model keeps four equations for every
    stream, though it raises: its pressure, temperature and flows have their
    values.  The one of the molar flow has the name of the mass flow in its name. *)
Theorem C72_kept_partial : forall d k ss outs w w1 w' outs' x, ss <> [] ->
  run_cmds w (d_cons d ++ d_pars d ++ d_vars d) = (w1, Ok tt) ->
  unit_resolve d k (Some ss) outs w = (w', outs', Raise x) -> x <> EException -> x <> EAbsentRequired ->
  (forall prefix b a, In (prefix, b, a) [("eq_P_", "P", "P"); ("eq_T_", "T", "T"); ("eq_mdot_", "mdot", "mdot"); ("eq_ndot_", "mdot", "ndot")] ->
     told_apart (w_heap w') ss b a) ->
  outs' = outs /\
  forall prefix b a s, In (prefix, b, a) [("eq_P_", "P", "P"); ("eq_T_", "T", "T"); ("eq_mdot_", "mdot", "mdot"); ("eq_ndot_", "mdot", "ndot")] ->
    In s ss -> stays_at_value (w_heap w') s (w_mod w') prefix b a.
Proof. exact resolve_keeps. Qed.
Print Assumptions C72_kept_partial.

(** Two streams: eight equations are left. *)
Definition second_stream : mworld := fst (run_cmds (mkW (w_heap a_stream) (w_uids a_stream) (new_model "R")) stream_vars).
Definition both_streams : list mstate := [w_mod a_stream; w_mod second_stream].
Definition second_model : mworld := mkW (w_heap second_stream) (w_uids second_stream) (new_model "M").
Definition both_left : mworld * list outlet * res Datatypes.unit :=
  unit_resolve taking (Some no_phase) (Some both_streams) [] second_model.
Example C72_kept_case :
  snd (run_cmds second_model (d_cons taking ++ d_pars taking ++ d_vars taking)) = Ok tt /\
  snd both_left = Raise EUnexpectedValue /\
  (forall prefix b a, In (prefix, b, a) [("eq_P_", "P", "P"); ("eq_T_", "T", "T"); ("eq_mdot_", "mdot", "mdot"); ("eq_ndot_", "mdot", "ndot")] ->
     told_apart (w_heap (fst (fst both_left))) both_streams b a) /\
  dkeys (m_eqs (w_mod (fst (fst both_left)))) =
    ["eq_P_P_S_M"; "eq_P_P_R_M"; "eq_T_T_S_M"; "eq_T_T_R_M"; "eq_mdot_mdot_S_M"; "eq_mdot_mdot_R_M";
     "eq_ndot_mdot_S_M"; "eq_ndot_mdot_R_M"].
Proof.
  split; [vm_compute; reflexivity|]. split; [vm_compute; reflexivity|]. split; [|vm_compute; reflexivity].
  assert (G : forall b, In b ["P"; "T"; "mdot"] ->
    map (name_at (w_heap (fst (fst both_left))) b) both_streams = [Some (b ++ "_S")%string; Some (b ++ "_R")%string]).
  { intros b [<-|[<-|[<-|[]]]]; vm_compute; reflexivity. }
  assert (N : forall b, In b ["P"; "T"; "mdot"] -> NoDup (map (name_at (w_heap (fst (fst both_left))) b) both_streams)).
  { intros b Hb. rewrite (G b Hb). destruct Hb as [<-|[<-|[<-|[]]]]; repeat constructor; cbn [In]; intuition discriminate. }
  intros prefix b a [H|[H|[H|[H|[]]]]]; injection H as <- <- <-; apply distinct_apart; apply N; cbn; auto.
Qed.

(** ** C90 *)
(** Whatever was done with the study before, a run simulates with what was given,
    or else with the configuration of the simulation. *)
Theorem C90_used : forall accepts own a s l evolve after s', new_study accepts own a = Ok s ->
  run_study evolve after (ohist s l) = (s', Ok tt) ->
  exists c, meant own (sa_simconf a) c /\ op_simconf (st_problem s') = Some c.
Proof. exact study_simulates. Qed.
Print Assumptions C90_used.

(** Where there is none, no study is made. *)
Theorem C90_refused : forall accepts own a, (forall c, ~ meant own (sa_simconf a) c) -> exists e, new_study accepts own a = Raise e.
Proof. exact study_unmeant. Qed.
Print Assumptions C90_refused.

Definition shorter : dict cval := [("end_time", VNum (PInt 8))].
Definition maximise_shorter : sargs :=
  mkSA (sa_problem maximise_x) (sa_params maximise_x) (CDict shorter) (sa_constraints maximise_x) true (sa_optimizer maximise_x) (sa_conf maximise_x).
Example C90_case :
  (exists s s', new_study any_algorithm sim_conf maximise_x = Ok s /\
     run_study corners (Ok tt) (ohist s [OConstraints (VList [VNum (PInt 0); VNum (PInt 2)])]) = (s', Ok tt) /\
     op_simconf (st_problem s') = sim_conf) /\
  (exists s s', new_study any_algorithm sim_conf maximise_shorter = Ok s /\
     run_study corners (Ok tt) s = (s', Ok tt) /\ op_simconf (st_problem s') = Some shorter) /\
  (forall c, ~ meant None (sa_simconf maximise_x) c) /\ new_study any_algorithm None maximise_x = Raise EAbsentRequired.
Proof.
  split; [eexists; eexists; split; [reflexivity|]; split; reflexivity|].
  split; [eexists; eexists; split; [reflexivity|]; split; reflexivity|]. split; [|reflexivity].
  intros c H. inversion H. discriminate.
Qed.
