(** C75: what a model says about itself. *)
From Verif Require Import Base Num UnitModel Sympy Node Build EquationModel ModelModel ProblemModel SpecUnits SpecExpr SpecModel SpecInc SpecCall SpecProblem
  SessionFacts InfoModel SpecInfo InfoFacts Properties07Problems Properties14Symbols Properties16Written.
Notation num := Verif.Num.num.

(** ** C75 *)
(** Variables, parameters, constants and equations are listed once each, in the order
    written, however often the model is called.
    Missing: declarations with unnamed equations (see C23), models that incorporate
    others. *)
Theorem C75_objects_partial : forall n d h u M w, calls (S n) d (mkW h u (new_model M)) = (w, Ok tt) -> named d = true ->
  let o := gather_objects (w_mod w) in
  ob_vars o = map (belonging M) (once (written_vars d)) /\ ob_pars o = map (belonging M) (once (written_pars d)) /\
  ob_cons o = map (belonging M) (once (written_cons d)) /\ ob_eqs o = map (belonging M) (once (written_eqs d)).
Proof. exact listed_objects. Qed.
Print Assumptions C75_objects_partial.

(** The exposed variables are listed once per call. *)
Theorem C75_exposed_exact : forall n d h u M w, calls n d (mkW h u (new_model M)) = (w, Ok tt) ->
  info_in_out (w_heap w) (w_mod w) =
    (times_over n (map (belonging M) (written_exposed "input" d)), times_over n (map (belonging M) (written_exposed "output" d))).
Proof. exact listed_exposed. Qed.
Print Assumptions C75_exposed_exact.

(** Full statement: the overview shows what is written, however often the model is
    called.  Missing: further calls; refuted below. *)
Theorem C75_overview_partial : forall d h u M w, model_call d (mkW h u (new_model M)) = (w, Ok tt) ->
  model_overview (w_heap w) (w_mod w) =
    overview_text M (map (belonging M) (written_exposed "input" d)) (map (belonging M) (written_exposed "output" d)) (map (belonging M) (once (written_pars d))).
Proof. exact overview_once. Qed.
Print Assumptions C75_overview_partial.

Definition sink_called (n : nat) : mworld := fst (calls n flow_sink (mkW [] (fun _ => 0%nat) (new_model "R"))).
Lemma sink_ok n w : snd (calls n flow_sink w) = Ok tt -> calls n flow_sink w = (fst (calls n flow_sink w), Ok tt).
Proof. destruct (calls n flow_sink w). simpl. now intros ->. Qed.

(** The input p, shown as "p_R, p_R" after a resolve. *)
Theorem C75_overview_refuted : exists n d h u M w, calls (S n) d (mkW h u (new_model M)) = (w, Ok tt) /\ named d = true /\
  model_overview (w_heap w) (w_mod w) <>
    overview_text M (map (belonging M) (written_exposed "input" d)) (map (belonging M) (written_exposed "output" d)) (map (belonging M) (once (written_pars d))).
Proof.
  exists 1%nat, flow_sink, [], (fun _ => 0%nat), "R", (sink_called 2). split; [apply sink_ok; vm_compute; reflexivity|]. split; [reflexivity|].
  intros H. apply (f_equal String.length) in H. revert H.
  assert (A : String.length (model_overview (w_heap (sink_called 2)) (w_mod (sink_called 2))) = 54%nat) by (vm_compute; reflexivity).
  rewrite A. vm_compute. discriminate.
Qed.
Print Assumptions C75_overview_refuted.

(** A connection into a model is not listed among its connections. *)
Theorem C75_connections_refuted : exists acts i m d k, get_model (fst (run_acts start_session acts)) i = Some (m, d) /\
  In k (dkeys (pr_conns (snd (run_acts start_session acts)))) /\ In "q_S--->p_R" (dkeys (m_eqs m)) /\ ob_conns (gather_objects m) = [].
Proof.
  destruct (model_exists (run_acts start_session flow) 1%nat) as (m & d & G); [apply PeanoNat.Nat.ltb_lt; vm_compute; reflexivity|].
  exists flow, 1%nat, m, d, "q_S@S ---> p_R@R". split; [exact G|].
  split; [refine (proj1 (ModelFacts.mem_str_spec _ _) _); vm_compute; reflexivity|]. split; [|reflexivity].
  assert (E : option_map (fun md => dkeys (m_eqs (fst md))) (get_model (fst (run_acts start_session flow)) 1%nat) = Some ["e_R"; "q_S--->p_R"]) by (vm_compute; reflexivity).
  rewrite G in E. injection E as ->. right. now left.
Qed.
Print Assumptions C75_connections_refuted.

(** What the reported number of degrees of freedom is, in every state. *)
Theorem C75_freedom_exact : forall acts i m d, get_model (fst (run_acts start_session acts)) i = Some (m, d) ->
  let h := pw_heap (fst (run_acts start_session acts)) in
  snd (info_dof m) = ((- freedom h m - Z.of_nat (entries true h (m_vars m)) - Z.of_nat (entries true h (m_pars m)) + Z.of_nat (entries false h (m_cons m)))%Z, 0%Z, 0%Z).
Proof. exact session_dof. Qed.
Print Assumptions C75_freedom_exact.

(** z - k*p with k set: one quantity can be chosen, -2 is reported. *)
Theorem C75_freedom_refuted : exists acts i m d, get_model (fst (run_acts start_session acts)) i = Some (m, d) /\
  let h := pw_heap (fst (run_acts start_session acts)) in
  freedom h m = 1%Z /\ fst (fst (snd (info_dof m))) = (-2)%Z.
Proof.
  destruct (model_exists (run_acts start_session [ANew "R" flow_sink; ACall 0%nat]) 0%nat) as (m & d & G); [apply PeanoNat.Nat.ltb_lt; vm_compute; reflexivity|].
  exists [ANew "R" flow_sink; ACall 0%nat], 0%nat, m, d. split; [exact G|]. cbv zeta.
  set (h := pw_heap (fst (run_acts start_session [ANew "R" flow_sink; ACall 0%nat]))).
  assert (E : option_map (fun md => (freedom h (fst md), fst (fst (snd (info_dof (fst md)))))) (get_model (fst (run_acts start_session [ANew "R" flow_sink; ACall 0%nat])) 0%nat) = Some (1%Z, (-2)%Z)) by (vm_compute; reflexivity).
  rewrite G in E. cbn [option_map fst] in E. injection E as E1 E2. split; [exact E1|exact E2].
Qed.
Print Assumptions C75_freedom_refuted.

Example C75_case : calls 2 flow_sink (mkW [] (fun _ => 0%nat) (new_model "R")) = (sink_called 2, Ok tt) /\ named flow_sink = true /\
  map (belonging "R") (once (written_vars flow_sink)) = ["p_R"; "z_R"] /\ map (belonging "R") (once (written_pars flow_sink)) = ["k_R"] /\
  written_exposed "input" flow_sink = ["p"] /\
  info_in_out (w_heap (sink_called 2)) (w_mod (sink_called 2)) = (["p_R"; "p_R"], []).
Proof.
  split; [apply sink_ok; vm_compute; reflexivity|]. split; [reflexivity|]. split; [reflexivity|]. split; [reflexivity|].
  split; [reflexivity|]. vm_compute. reflexivity.
Qed.
