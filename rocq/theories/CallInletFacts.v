(** What a call of a model with inlets leaves behind. *)
From Verif Require Import Base BaseFacts Num UnitModel Sympy Node Build QtyFacts EquationModel ModelModel PackageModel UnitOpModel
  SpecUnits SpecExpr SpecQty SpecModel SpecUnitOps BuildFacts EquationFacts ModelFacts UnitOpFacts UnitLibFacts
  UnitResolveModel SpecUnitResolve SpecInlets UnitResolveFacts InletFacts SpecSi SpecMeasure MeasureFacts.
From Coq Require Import Reals.
Notation num := Verif.Num.num.

Lemma fix_quantity_named w p a s : fix_quantity w p a s = fix_named w p a a s.
Proof. unfold fix_quantity, fix_named. destruct (attr_qty s a) as [l|]; [|reflexivity]. now destruct (hget (w_heap w) l). Qed.
Lemma fix_quantities_all p a ss : forall w, fix_quantities w p a ss = fix_all w p a a ss.
Proof.
  induction ss as [|s r IH]; intros w; [reflexivity|]. cbn [fix_quantities fix_all]. rewrite fix_quantity_named.
  destruct (fix_named w p a a s) as [w' [[]|x]]; [apply IH|reflexivity].
Qed.

(** ** Which exceptions come from where *)
Lemma attr_raise s a x : attr_qty s a = Raise x -> x <> EUnexpectedValue.
Proof. unfold attr_qty. destruct (dget a (m_attrs s)) as [[l|e]|]; congruence. Qed.
Lemma calls_raise h a x : forall ss, calls_of h a ss = Raise x -> x <> EUnexpectedValue.
Proof.
  induction ss as [|s r IH]; cbn [calls_of]; [discriminate|]. destruct (attr_qty s a) as [l|y] eqn:A; cbn [rbind].
  2: { intros H. injection H as <-. now apply attr_raise in A. }
  unfold build_qty. destruct (hget h l); cbn [rbind]; [|congruence]. destruct (calls_of h a r) as [os|y]; cbn [rbind]; [discriminate|].
  intros H. injection H as <-. now apply IH.
Qed.
Lemma fix_raise w p a s w' x : fix_named w p a a s = (w', Raise x) -> x <> EUnexpectedValue.
Proof.
  unfold fix_named. destruct (attr_qty s a) as [l|y] eqn:A.
  2: { intros H. injection H as _ <-. now apply attr_raise in A. }
  destruct (hget (w_heap w) l) as [q|] eqn:Hq; [|congruence].
  destruct (node_op BSub (qty_call l q) (ONum (q_value q))) as [n|] eqn:N; [|discriminate N].
  set (e := UResid (UNumR BSub (UQty l) (q_value q))).
  assert (Bn : build (w_heap w) (UNumR BSub (UQty l) (q_value q)) = Ok n).
  { cbn [build]. unfold build_qty. rewrite Hq. exact N. }
  assert (W : well_formed_eq (w_heap w) e) by (exists n; exact Bn).
  assert (C : user_create w (p ++ q_name q) e true = create_equation w (p ++ q_name q)%string (Some (EANode n)) true)
    by (unfold user_create, e; cbn [build_eq]; now rewrite Bn).
  rewrite <- C. destruct (create_decided w (p ++ q_name q) e W) as [D1 D2].
  destruct (Classical_Prop.classic (uses_declared w e)) as [U|U].
  - destruct (D1 U) as (w1 & e' & E & _). rewrite E. discriminate.
  - destruct (D2 U) as (w1 & E & _). rewrite E. intros H. injection H as _ <-. discriminate.
Qed.
Lemma fix_all_raise p a x : forall ss w w', fix_all w p a a ss = (w', Raise x) -> x <> EUnexpectedValue.
Proof.
  induction ss as [|s r IH]; intros w w'; cbn [fix_all]; [discriminate|].
  destruct (fix_named w p a a s) as [w1 [[]|y]] eqn:F; [apply IH|]. intros H. injection H as _ <-. now apply fix_raise in F.
Qed.
Lemma add_all_raise add : (forall h m l rw h' m' x, add h m l rw = (h', m', Raise x) -> x <> EUnexpectedValue) ->
  forall ls h m rw h' m' x, add_all add h m ls rw = (h', m', Raise x) -> x <> EUnexpectedValue.
Proof.
  intros A. induction ls as [|l r IH]; intros h m rw h' m' x; cbn [add_all]; [discriminate|].
  destruct (add h m l rw) as [[h1 m1] [[]|y]] eqn:E; [apply IH|]. intros H. injection H as _ _ <-. now apply A in E.
Qed.
Lemma incorporate_raise h m s h' m' x : incorporate h m s stream_flags = (h', m', Raise x) -> x <> EUnexpectedValue.
Proof.
  unfold incorporate. cbn [stream_flags i_vars i_pars i_cons i_eqs i_rewrite].
  destruct (add_all add_variable h m _ _) as [[h1 m1] [[]|y]] eqn:E1.
  2: { intros H. injection H as _ _ <-. revert E1. apply add_all_raise. intros ? ? ? ? ? ? z. unfold add_variable. destruct (hget _ _) as [q|]; [destruct (q_exposed q)|]; congruence. }
  destruct (add_all add_parameter h1 m1 _ _) as [[h2 m2] [[]|y]] eqn:E2.
  2: { intros H. injection H as _ _ <-. revert E2. apply add_all_raise. intros ? ? ? ? ? ? z. unfold add_parameter. destruct (hget _ _); congruence. }
  destruct (add_all add_constant h2 m2 _ _) as [[h3 m3] [[]|y]] eqn:E3.
  2: { intros H. injection H as _ _ <-. revert E3. apply add_all_raise. intros ? ? ? ? ? ? z. unfold add_constant. destruct (hget _ _); congruence. }
  discriminate.
Qed.
Lemma streams_raise x : forall ss h m h' m', take_streams h m ss = (h', m', Raise x) -> x <> EUnexpectedValue.
Proof.
  induction ss as [|s r IH]; intros h m h' m'; cbn [take_streams]; [discriminate|].
  destruct (incorporate h m s stream_flags) as [[h1 m1] [[]|y]] eqn:E; [apply IH|]. intros H. injection H as _ _ <-. now apply incorporate_raise in E.
Qed.

(** ** What is kept *)
Lemma totalize_inlets_kept w ss w' : ss <> [] -> totalize_inlets w ss = (w', Raise EUnexpectedValue) ->
  exists w1 w2 w3 h m, take_streams (w_heap (ensure_inputs w)) (w_mod (ensure_inputs w)) ss = (h, m, Ok tt) /\ w1 = mkW h (w_uids (ensure_inputs w)) m /\
    fix_all w1 "eq_P_" "P" "P" ss = (w2, Ok tt) /\ fix_all w2 "eq_T_" "T" "T" ss = (w3, Ok tt) /\ w' = w3.
Proof.
  intros Hs. unfold totalize_inlets. destruct (take_streams _ _ ss) as [[h m] [[]|x]] eqn:T.
  2: { cbn [then_do]. intros H. injection H as _ ->. now apply streams_raise in T. }
  cbn [then_do]. set (w1 := mkW h _ m). destruct (calls_of (w_heap w1) "P" ss) as [ps|x] eqn:C; cbn [then_do].
  2: { intros H. injection H as _ ->. now apply calls_raise in C. }
  rewrite fix_quantities_all. destruct (fix_all w1 "eq_P_" "P" "P" ss) as [w2 [[]|x]] eqn:F1; cbn [then_do].
  2: { intros H. injection H as _ ->. now apply fix_all_raise in F1. }
  destruct (calls_of (w_heap w2) "T" ss) as [ts|x] eqn:C2; [|discriminate].
  rewrite fix_quantities_all. destruct (fix_all w2 "eq_T_" "T" "T" ss) as [w3 [[]|x]] eqn:F2; cbn [then_do]; [|discriminate].
  apply calls_nodes in C. destruct C as [L F]. assert (N : ps <> []) by (intros ->; destruct ss; [contradiction|discriminate]).
  assert (R := totalize_raises w3 "totalization_P" "P_in" ps N F). assert (K := totalize_refused w3 "totalization_P" "P_in" ps N F).
  destruct (totalize w3 "totalization_P" "P_in" ps) as [w4 [[]|x]]; [now contradiction R|]. cbn [then_do]. cbn [fst] in K. subst w4.
  intros H. injection H as <- _. exists w1, w2, w3, h, m. auto 10.
Qed.
Lemma call_keeps d ss w w1 w' : ss <> [] -> run_cmds w (d_cons d ++ d_pars d ++ d_vars d) = (w1, Ok tt) ->
  model_call_inlets d ss w = (w', Raise EUnexpectedValue) ->
  told_apart (w_heap w') ss "P" "P" -> told_apart (w_heap w') ss "T" "T" ->
  forall s, In s ss -> stays_at_value (w_heap w') s (w_mod w') "eq_P_" "P" "P" /\ stays_at_value (w_heap w') s (w_mod w') "eq_T_" "T" "T".
Proof.
  intros Hs R. unfold model_call_inlets. rewrite R. cbn [then_do]. destruct ss as [|s0 r]; [contradiction|]. set (ss := s0 :: r) in *.
  assert (G := inlets_raise w1 ss Hs). destruct (totalize_inlets w1 ss) as [w2 [[]|x]] eqn:T; [now contradiction G|]. cbn [then_do].
  intros H. injection H as <- ->. destruct (totalize_inlets_kept _ _ _ Hs T) as (v1 & v2 & v3 & h & m & _ & _ & F1 & F2 & ->). clear G T R.
  intros A1 A2 s I.
  assert (E : forall w p b a w'', fix_all w p b a ss = (w'', Ok tt) -> p <> "" -> w_heap w'' = w_heap w).
  { clear. clearbody ss. clear. induction ss as [|s r IH]; intros w p b a w'' H Hp; cbn [fix_all] in H; [now injection H as <-|].
    destruct (fix_named w p b a s) as [w1 [[]|]] eqn:L; [|discriminate].
    destruct (fix_holds _ _ _ _ _ _ Hp L) as (Hh & _). rewrite <- Hh. now apply (IH w1 p b a w''). }
  assert (E1 := E v1 "eq_P_" "P" "P" v2 F1 ltac:(discriminate)). assert (E2 := E v2 "eq_T_" "T" "T" v3 F2 ltac:(discriminate)). clear E.
  rewrite E2 in *. rewrite E1 in A1.
  destruct (fix_all_holds "eq_P_" "P" "P" ss v1 v2 ltac:(discriminate) A1 F1) as (_ & _ & N1 & S1 & K1).
  destruct (fix_all_holds "eq_T_" "T" "T" ss v2 v3 ltac:(discriminate) A2 F2) as (_ & _ & N2 & S2 & K2).
  split; [|now apply S2]. rewrite E1. apply stays_kept with (w_mod v2); [congruence| |now apply S1]. intros l q _ _.
  rewrite K2; [reflexivity|]. intros (s' & l' & q' & _ & _ & _ & X). discriminate X.
Qed.

(** ** Without inlets *)
Lemma run_cmds_app_any cs cs' : forall w, run_cmds w (cs ++ cs') = then_do (run_cmds w cs) (fun w1 _ => run_cmds w1 cs').
Proof.
  induction cs as [|c cs IH]; intros w; [reflexivity|]. cbn [run_cmds app]. destruct (run_cmd w c) as [w1 [[]|x]]; [apply IH|reflexivity].
Qed.
Lemma call_no_inlets d w : model_call_inlets d [] w = model_call d w.
Proof.
  unfold model_call_inlets, model_call. rewrite !app_assoc. rewrite (run_cmds_app_any (((d_cons d ++ d_pars d) ++ d_vars d)) (d_eqs d)).
  now destruct (run_cmds w _) as [w1 [[]|x]].
Qed.

(** ** The inlet variables *)
Definition input_units : list (string * unit) :=
  [("P_in", u_Pa); ("T_in", u_K); ("mdot_in", u_mass_flow); ("ndot_in", u_molar_flow); ("H_in", u_molar_energy)].
Lemma ensure_grows w a u b q : quantity w b = Some q -> quantity (ensure w a u) b = Some q.
Proof.
  unfold ensure. destruct (dget a (m_attrs (w_mod w))) as [x|] eqn:D; [auto|]. unfold quantity. cbn.
  unfold attr_qty. cbn. rewrite dget_dset. destruct (String.eqb_spec b a) as [->|_]; [rewrite D; discriminate|].
  destruct (dget b (m_attrs (w_mod w))) as [[l|e]|]; try discriminate. intros H. now apply hget_snoc.
Qed.
Lemma ensure_made w a u : dget a (m_attrs (w_mod w)) = None ->
  quantity (ensure w a u) a = Some (mkQty KVariable (full_name a (m_name (w_mod w))) u (PFloat (S754_zero false)) false (m_name (w_mod w)) true "input" false).
Proof.
  intros D. unfold ensure. rewrite D. unfold quantity, attr_qty. cbn. rewrite dget_dset, String.eqb_refl. apply hget_end.
Qed.
Lemma ensure_other w a u b : b <> a -> dget b (m_attrs (w_mod (ensure w a u))) = dget b (m_attrs (w_mod w)) /\ m_name (w_mod (ensure w a u)) = m_name (w_mod w).
Proof.
  intros N. unfold ensure. destruct (dget a (m_attrs (w_mod w))); [auto|]. cbn. rewrite dget_dset_neq by exact N. auto.
Qed.
Definition ensure_all (l : list (string * unit)) (w : mworld) : mworld := fold_left (fun w x => ensure w (fst x) (snd x)) l w.
Lemma ensure_inputs_all w : ensure_inputs w = ensure_all input_units w.
Proof. reflexivity. Qed.
Lemma ensure_all_grows l : forall w b q, quantity w b = Some q -> quantity (ensure_all l w) b = Some q.
Proof. induction l as [|x l IH]; intros w b q H; [exact H|]. cbn [ensure_all fold_left]. now apply IH, ensure_grows. Qed.
Lemma ensure_all_made l : forall w a u, NoDup (map fst l) -> In (a, u) l -> dget a (m_attrs (w_mod w)) = None ->
  quantity (ensure_all l w) a = Some (mkQty KVariable (full_name a (m_name (w_mod w))) u (PFloat (S754_zero false)) false (m_name (w_mod w)) true "input" false).
Proof.
  induction l as [|[b v] l IH]; intros w a u N I D; [destruct I|]. cbn [ensure_all fold_left fst snd]. cbn [map fst] in N. apply NoDup_cons_iff in N. destruct N as [N1 N2].
  destruct I as [E|I].
  - injection E as -> ->. now apply ensure_all_grows, ensure_made.
  - assert (Nab : a <> b). { intros ->. apply N1. apply in_map_iff. now exists (b, u). }
    destruct (ensure_other w b v a Nab) as [Ea En]. rewrite <- En. apply IH; [exact N2|exact I|now rewrite Ea].
Qed.
Lemma ensured_told w a : In a ["P_in"; "T_in"; "mdot_in"; "ndot_in"; "H_in"] -> dget a (m_attrs (w_mod w)) = None ->
  exists q e, quantity (ensure_inputs w) a = Some q /\ q_kind q = KVariable /\ q_name q = full_name a (m_name (w_mod w)) /\
    q_exposed q = true /\ q_type q = "input" /\ name_tells a = Some e /\ of_powers (q_units q) e.
Proof.
  intros I D. assert (N : NoDup (map fst input_units)) by (repeat constructor; cbn; intuition discriminate).
  assert (J : exists u e, In (a, u) input_units /\ name_tells a = Some e /\ powers_checked u e = true).
  { repeat (destruct I as [<-|I]; [eexists _, _; split; [cbn; eauto 10|split; [reflexivity|vm_compute; reflexivity]]|]). destruct I. }
  destruct J as (u & e & J & Ne & C). exists (mkQty KVariable (full_name a (m_name (w_mod w))) u (PFloat (S754_zero false)) false (m_name (w_mod w)) true "input" false), e.
  split; [rewrite ensure_inputs_all; now apply ensure_all_made|]. repeat (split; [reflexivity|]). split; [exact Ne|]. now apply powers_hold.
Qed.

(** ** They stay while the streams are taken in *)
Definition more (h h' : heap) : Prop := forall l q, hget h l = Some q -> hget h' l = Some q.
Lemma more_trans h h1 h2 : more h h1 -> more h1 h2 -> more h h2. Proof. unfold more. auto. Qed.
Definition objects_of (s : mstate) : list loc := dvals (m_vars s) ++ dvals (m_pars s) ++ dvals (m_cons s).
Definition keeps_attr (add : heap -> mstate -> loc -> bool -> heap * mstate * res Datatypes.unit) : Prop :=
  forall h m l rw h' m', add h m l rw = (h', m', Ok tt) -> more h h' /\
    exists q, hget h l = Some q /\ forall a, object_name (q_name q) (q_owner q) <> a -> dget a (m_attrs m') = dget a (m_attrs m).
Lemma add_variable_keeps : keeps_attr add_variable.
Proof.
  intros h m l rw h' m'. unfold add_variable. destruct (hget h l) as [q|] eqn:Q; [|discriminate]. destruct (q_exposed q); [discriminate|].
  intros H. injection H as <- <-. split; [intros i p; apply hget_snoc|]. exists q. split; [reflexivity|]. intros a N. cbn. now rewrite dget_dset_neq by congruence.
Qed.
Lemma add_parameter_keeps : keeps_attr add_parameter.
Proof.
  intros h m l rw h' m'. unfold add_parameter. destruct (hget h l) as [q|] eqn:Q; [|discriminate].
  intros H. injection H as <- <-. split; [intros i p; apply hget_snoc|]. exists q. split; [reflexivity|]. intros a N. cbn. now rewrite dget_dset_neq by congruence.
Qed.
Lemma add_constant_keeps : keeps_attr add_constant.
Proof.
  intros h m l rw h' m'. unfold add_constant. destruct (hget h l) as [q|] eqn:Q; [|discriminate].
  intros H. injection H as <- <-. split; [intros i p; apply hget_snoc|]. exists q. split; [reflexivity|]. intros a N. cbn. now rewrite dget_dset_neq by congruence.
Qed.
Lemma add_all_keeps add a hf : keeps_attr add -> forall ls h m rw h' m', add_all add h m ls rw = (h', m', Ok tt) -> more h h' /\
  (more h' hf -> (forall l q, In l ls -> hget hf l = Some q -> object_name (q_name q) (q_owner q) <> a) -> dget a (m_attrs m') = dget a (m_attrs m)).
Proof.
  intros A. induction ls as [|l r IH]; intros h m rw h' m' H; cbn [add_all] in H; [injection H as <- <-; split; [intros l q; auto|auto]|].
  destruct (add h m l rw) as [[h1 m1] [[]|x]] eqn:E; [|discriminate]. destruct (A _ _ _ _ _ _ E) as (M & q & Q & K).
  destruct (IH _ _ _ _ _ H) as [M' K']. split; [now apply more_trans with h1|]. intros F N. rewrite K'; [|exact F|intros i p Hi; apply N; now right].
  apply K. apply (N l q); [now left|auto].
Qed.
Lemma incorporate_keeps h m s h' m' a hf : incorporate h m s stream_flags = (h', m', Ok tt) -> more h h' /\
  (more h' hf -> (forall l q, In l (objects_of s) -> hget hf l = Some q -> object_name (q_name q) (q_owner q) <> a) -> dget a (m_attrs m') = dget a (m_attrs m)).
Proof.
  unfold incorporate. cbn [stream_flags i_vars i_pars i_cons i_eqs i_rewrite].
  destruct (add_all add_variable h m _ _) as [[h1 m1] [[]|y]] eqn:E1; [|discriminate].
  destruct (add_all add_parameter h1 m1 _ _) as [[h2 m2] [[]|y]] eqn:E2; [|discriminate].
  destruct (add_all add_constant h2 m2 _ _) as [[h3 m3] [[]|y]] eqn:E3; [|discriminate]. intros H. injection H as <- <-.
  destruct (add_all_keeps _ a hf add_variable_keeps _ _ _ _ _ _ E1) as [M1 K1]. destruct (add_all_keeps _ a hf add_parameter_keeps _ _ _ _ _ _ E2) as [M2 K2].
  destruct (add_all_keeps _ a hf add_constant_keeps _ _ _ _ _ _ E3) as [M3 K3]. split; [eauto using more_trans|]. intros F N.
  rewrite K3, K2, K1; [reflexivity|..]; eauto using more_trans; intros l q I; apply N; unfold objects_of; rewrite !in_app_iff; auto.
Qed.
Lemma take_keeps a hf : forall ss h m h' m', take_streams h m ss = (h', m', Ok tt) -> more h h' /\
  (more h' hf -> (forall s l q, In s ss -> In l (objects_of s) -> hget hf l = Some q -> object_name (q_name q) (q_owner q) <> a) -> dget a (m_attrs m') = dget a (m_attrs m)).
Proof.
  induction ss as [|s r IH]; intros h m h' m' H; cbn [take_streams] in H; [injection H as <- <-; split; [intros l q; auto|auto]|].
  destruct (incorporate h m s stream_flags) as [[h1 m1] [[]|y]] eqn:E; [|discriminate].
  destruct (incorporate_keeps _ _ _ _ _ a hf E) as [M K]. destruct (IH _ _ _ _ H) as [M' K']. split; [now apply more_trans with h1|]. intros F N.
  rewrite K'; [apply K; [now apply more_trans with h'|]|exact F|]; intros; eapply N; eauto; [now left|now right].
Qed.
Lemma fix_all_same p b a ss : forall w w', p <> "" -> fix_all w p b a ss = (w', Ok tt) -> w_heap w' = w_heap w /\ m_attrs (w_mod w') = m_attrs (w_mod w).
Proof.
  induction ss as [|s r IH]; intros w w' Hp H; cbn [fix_all] in H; [now injection H as <-|].
  destruct (fix_named w p b a s) as [w1 [[]|]] eqn:L; [|discriminate]. destruct (fix_holds _ _ _ _ _ _ Hp L) as (Hh & Ha & _).
  destruct (IH _ _ Hp H) as [Ih Ia]. split; congruence.
Qed.
Lemma ensured_kept d ss w w1 w' a : ss <> [] -> run_cmds w (d_cons d ++ d_pars d ++ d_vars d) = (w1, Ok tt) ->
  model_call_inlets d ss w = (w', Raise EUnexpectedValue) -> In a ["P_in"; "T_in"; "mdot_in"; "ndot_in"; "H_in"] -> dget a (m_attrs (w_mod w1)) = None ->
  (forall s l q, In s ss -> In l (dvals (m_vars s) ++ dvals (m_pars s) ++ dvals (m_cons s)) -> hget (w_heap w') l = Some q -> object_name (q_name q) (q_owner q) <> a) ->
  exists q e, quantity w' a = Some q /\ q_kind q = KVariable /\ q_name q = full_name a (m_name (w_mod w1)) /\
    q_exposed q = true /\ q_type q = "input" /\ name_tells a = Some e /\ of_powers (q_units q) e.
Proof.
  intros Hs R. unfold model_call_inlets. rewrite R. cbn [then_do]. destruct ss as [|s0 r]; [contradiction|]. set (ss := s0 :: r) in *.
  assert (G := inlets_raise w1 ss Hs). destruct (totalize_inlets w1 ss) as [w2 [[]|x]] eqn:T; [now contradiction G|]. cbn [then_do].
  intros H. injection H as <- ->. destruct (totalize_inlets_kept _ _ _ Hs T) as (v1 & v2 & v3 & h & m & Tk & -> & F1 & F2 & ->). clear G T R.
  intros I D N. destruct (ensured_told w1 a I D) as (q & e & Q & Rest). exists q, e. split; [|exact Rest]. clear Rest.
  destruct (fix_all_same "eq_P_" "P" "P" ss _ v2 ltac:(discriminate) F1) as [H1 A1]. destruct (fix_all_same "eq_T_" "T" "T" ss v2 v3 ltac:(discriminate) F2) as [H2 A2].
  cbn [w_heap w_mod] in H1, A1. assert (Hh : w_heap v3 = h) by congruence. rewrite Hh in N.
  destruct (take_keeps a h _ _ _ _ _ Tk) as [M K].
  assert (E : dget a (m_attrs m) = dget a (m_attrs (w_mod (ensure_inputs w1)))) by (apply K; [intros l p; auto|exact N]).
  revert Q. unfold quantity, attr_qty. rewrite Hh, A2, A1, E. destruct (dget a (m_attrs (w_mod (ensure_inputs w1)))) as [[i|?]|]; try discriminate. intros Hq. exact (M i q Hq).
Qed.
