(** Property theorems C87 (what operations that raise leave behind). *)
From Verif Require Import Base Num NumFacts UnitModel UnitFacts Sympy Node Build EquationModel ModelModel ProblemModel
  SpecProblem ProblemFacts SessionFacts SpecRefused RefusedFacts Demo Properties07Problems.
Notation num := Verif.Num.num.

(** ** C87 *)
(** Full statement: without [~ mistyped a]; refuted below. *)
Theorem C87_single_partial : forall s a s' x, single a -> ~ mistyped a -> do_act s a = (s', Raise x) -> untouched s s'.
Proof. exact refused. Qed.
Print Assumptions C87_single_partial.

(** A call is its statements one after the other: it goes on to the end or stops
    at the first statement refused, keeping what the ones before it did. *)
Theorem C87_call : forall s i m d, get_model (fst s) i = Some (m, d) ->
  match do_act s (ACall i) with
  | (s', Ok _) => all_ok s (map (AStmt i) (statements d)) /\ run_acts s (map (AStmt i) (statements d)) = s'
  | (s', Raise x) => exists before c after, statements d = before ++ c :: after /\
      all_ok s (map (AStmt i) before) /\ do_act (run_acts s (map (AStmt i) before)) (AStmt i c) = (s', Raise x)
  end.
Proof. exact call_statements. Qed.
Print Assumptions C87_call.

(** Whatever becomes of an incorporation, it only adds to the host. *)
Theorem C87_incorporation : forall s i j f s' r, do_act s (AInc i j f) = (s', r) -> only_added i s s'.
Proof. exact incorporation_adds. Qed.
Print Assumptions C87_incorporation.

(** A resolve is refused only because the call of one of the models is, and
    leaves the problem and its previous equation block as they were. *)
Theorem C87_resolve : forall acts s' x, do_act (run_acts start_session acts) AResolve = (s', Raise x) ->
  let s := run_acts start_session acts in
  snd s' = snd s /\
  exists before i after, dvals (pr_models (snd s)) = before ++ i :: after /\ all_ok s (map ACall before) /\
    do_act (run_acts s (map ACall before)) (ACall i) = (s', Raise x).
Proof. exact resolve_refused. Qed.
Print Assumptions C87_resolve.

Theorem C87_resolve_accepted : forall acts, let s := run_acts start_session acts in
  all_ok s (map ACall (dvals (pr_models (snd s)))) -> snd (do_act s AResolve) = Ok tt.
Proof. exact resolve_accepted. Qed.
Print Assumptions C87_resolve_accepted.

(** A metre set to a value in seconds; an equation between metres and seconds; a
    connection of the input as if it were an output: all refused. *)
Notation linked := (run_acts start_session two_models).
Definition wrong_value : act := AStmt 1%nat (CSet "k" (SANum (PInt 5)) (Some u_s)).
Definition wrong_units : act := AStmt 1%nat (CEq "f" "f" (UElem (UQty "z") (UQty "t")) true).
Definition wrong_way : act := AConn (CMModel 1%nat) 0%nat (CVOne 3%nat) (CVOne 1%nat) None.
Lemma some_refused s a x : snd (do_act s a) = Raise x -> exists s', do_act s a = (s', Raise x).
Proof. destruct (do_act s a) as [s' r]. simpl. intros ->. eauto. Qed.
Example C87_single_case :
  (single wrong_value /\ ~ mistyped wrong_value /\ exists s', do_act linked wrong_value = (s', Raise EUnexpectedValue)) /\
  (single wrong_units /\ ~ mistyped wrong_units /\ exists s', do_act linked wrong_units = (s', Raise EDimCoherence)) /\
  (single wrong_way /\ ~ mistyped wrong_way /\ exists s', do_act linked wrong_way = (s', Raise EExposedVariable)).
Proof.
  split; [|split]; (split; [exact I|split; [intros []|apply some_refused; vm_compute; reflexivity]]).
Qed.

(** The variable of a wrong type is in the model all the same. *)
Definition odd_type : act := AStmt 0%nat (CVar "v" "v" u_m true "inlet" (PInt 0)).
Lemma models_differ (s s' : session) : option_map (fun m => dkeys (m_vars m)) (model_of s 0%nat) <> option_map (fun m => dkeys (m_vars m)) (model_of s' 0%nat) -> ~ untouched s s'.
Proof. intros H (_ & M & _). apply H. unfold model_of, get_model. now rewrite M. Qed.
Theorem C87_mistyped_refuted : exists s a x, single a /\ snd (do_act s a) = Raise x /\ ~ untouched s (fst (do_act s a)).
Proof.
  exists linked, odd_type, EKey. split; [exact I|]. split; [vm_compute; reflexivity|]. apply models_differ. vm_compute. discriminate.
Qed.

(** A model whose last equation is wrong: the call raises after the variables and
    the first equation are in. *)
Definition half : decls :=
  mkDecls [] [] [CVar "z" "z" u_m false "" (PInt 0); CVar "t" "t" u_s false "" (PInt 0)]
          [CEq "e" "e" (UResid (UQty "z")) true; CEq "f" "f" (UElem (UQty "z") (UQty "t")) true].
Definition half_acts : list act := [ANew "H" half; ANew "G" half; AAdd 0%nat].
Theorem C87_call_refuted : exists s i x, snd (do_act s (ACall i)) = Raise x /\ ~ untouched s (fst (do_act s (ACall i))).
Proof.
  exists (run_acts start_session half_acts), 0%nat, EDimCoherence. split; [vm_compute; reflexivity|]. apply models_differ. vm_compute. discriminate.
Qed.
Example C87_call_case : (exists m, get_model (fst (run_acts start_session half_acts)) 0%nat = Some (m, half)) /\
  snd (do_act (run_acts start_session half_acts) (ACall 0%nat)) = Raise EDimCoherence /\
  option_map (fun m => dkeys (m_eqs m)) (model_of (fst (do_act (run_acts start_session half_acts) (ACall 0%nat))) 0%nat) = Some ["e_H"] /\
  snd (do_act (run_acts start_session half_acts) AResolve) = Raise EDimCoherence.
Proof. split; [eexists; vm_compute; reflexivity|]. split; [vm_compute; reflexivity|]. split; vm_compute; reflexivity. Qed.

(** Incorporating a model with an exposed variable raises with part of it copied. *)
Definition taking : list act := [ANew "W" half; ANew "S" source; ACall 1%nat].
Theorem C87_incorporation_refuted : exists s i j f x, snd (do_act s (AInc i j f)) = Raise x /\ ~ untouched s (fst (do_act s (AInc i j f))).
Proof.
  exists (run_acts start_session taking), 0%nat, 1%nat, inc_default, EKey. split; [vm_compute; reflexivity|]. apply models_differ. vm_compute. discriminate.
Qed.
Example C87_incorporation_case : exists s', do_act (run_acts start_session taking) (AInc 0%nat 1%nat inc_default) = (s', Raise EKey).
Proof. apply some_refused. vm_compute. reflexivity. Qed.
Example C87_resolve_accepted_case : all_ok linked (map ACall (dvals (pr_models (snd linked)))) /\ dvals (pr_models (snd linked)) = [0%nat; 1%nat].
Proof.
  replace (dvals (pr_models (snd linked))) with [0%nat; 1%nat] by (vm_compute; reflexivity). split; [|reflexivity].
  rewrite map_cons, ok_cons. split; [vm_compute; reflexivity|]. rewrite map_cons, ok_cons. split; [vm_compute; reflexivity|]. exact I.
Qed.
