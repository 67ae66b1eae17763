(** Property theorems: what refusals say (C93). *)
From Verif Require Import Base BaseFacts Num UnitModel Sympy Node Build EquationModel ModelModel ProblemModel InfoModel SpecUnits SpecExpr SpecModel SpecProblem SpecReport
  ErrorModel SpecErrors ErrorFacts Demo Properties07Problems.
From Verif Require Properties15Reports.
From Coq Require Import Reals.
Notation num := Verif.Num.num.

(** The operations below are those of the other theorems, with the errors. *)
Theorem C93_same : (forall u v, erase (unit_sum u v) = unit_add u v /\ erase (unit_sum u v) = unit_sub u v) /\
  (forall a o, erase (node_add_said a o) = node_add a o /\ erase (node_sub_said a o) = node_sub a o /\ erase (node_pow_said a o) = node_pow a o) /\
  (forall q a u, erase (set_value_said q a u) = set_value q a u) /\
  (forall w name a, erase (create_equation_said w name a) = snd (create_equation w name (Some a) true)) /\
  (forall w p m1 m2 o i expr, get_model w m1 <> None ->
     erase (connect_said w p m1 m2 o i expr) = snd (connect_vars w p (CMModel m1) m2 (CVOne o) (CVOne i) expr)).
Proof.
  exact (conj (fun u v => conj (unit_sum_add u v) (unit_sum_sub u v))
        (conj (fun a o => conj (add_same a o) (conj (sub_same a o) (pow_same a o))) (conj set_same (conj create_same connect_same)))).
Qed.
Print Assumptions C93_same.

(** A refused sum or difference of expressions shows both dimensions. *)
Theorem C93_sums : forall pn ex a b f, node_add_said a (ONode b) = Failed f \/ node_sub_said a (ONode b) = Failed f -> failure_kind f = EDimCoherence ->
  coherent (nd_unit a) (nd_unit b) = Ok false /\ exists t, failure_text pn ex f = Ok t /\ shows t (dim_text pn (nd_unit a)) /\ shows t (dim_text pn (nd_unit b)).
Proof. exact nodes_say. Qed.
Print Assumptions C93_sums.

(** A refused value shows the dimensions of the quantity and of the value. *)
Theorem C93_values : forall pn ex q a u f, set_value_said q a u = Failed f -> failure_kind f = EDimCoherence -> exists p t,
  a = SVQty p /\ (u = None -> coherent (q_units p) (q_units q) = Ok false) /\
  failure_text pn ex f = Ok t /\ shows t (dim_text pn (q_units q)) /\ shows t (dim_text pn (q_units p)).
Proof. exact value_says. Qed.
Print Assumptions C93_values.

(** The dimensions shown look different. *)
Theorem C93_differ_partial : forall pn u v, honest_print pn -> a_unit u -> a_unit v -> si_only u -> si_only v -> finite_unit u -> finite_unit v ->
  coherent u v = Ok false -> dim_text pn u <> dim_text pn v.
Proof. exact texts_differ. Qed.
Print Assumptions C93_differ_partial.

Definition length_q : qty := mkQty KParameter "l_M" u_m (PInt 0) false "M" false "" false.
Definition time_q : qty := mkQty KParameter "t_M" u_s (PInt 3) true "M" false "" false.
Definition sum_failed : failure := FCoherence (Some u_m) (Some u_s).
Example C93_case : let a := qty_call 0%nat length_q in let b := qty_call 1%nat time_q in
  node_add_said a (ONode b) = Failed sum_failed /\ node_sub_said a (ONode b) = Failed sum_failed /\
  set_value_said length_q (SVQty time_q) None = Failed sum_failed /\ failure_kind sum_failed = EDimCoherence /\
  failure_text print_one "" sum_failed =
    Ok ("Dimensions are incoherent " ++ nl ++ "({'m': 1, 'kg': 1, 's': 1, 'A': 1, 'K': 1, 'mol': 1, 'cd': 1}" ++ nl ++ " != " ++ nl ++
        "{'m': 1, 'kg': 1, 's': 1, 'A': 1, 'K': 1, 'mol': 1, 'cd': 1}).")%string.
Proof. repeat split; vm_compute; reflexivity. Qed.
Lemma unit_whole u : forallb (fun kv => match snd kv with PInt _ => true | _ => false end) (u_dim u) = true -> finite_unit u.
Proof.
  intros A k x H. rewrite forallb_forall in A. apply dget_some_in in H. specialize (A _ H). destruct x as [z|]; [|discriminate A]. exists (IZR z). reflexivity.
Qed.
Lemma unit_si u : map fst (u_dim u) = si_names -> si_only u.
Proof. intros E k H. unfold exponent in H. rewrite <- E. destruct (dget k (u_dim u)) as [x|] eqn:G; [|congruence]. exact (dget_in_keys _ _ _ G). Qed.
Example C93_differ_case : honest_print Properties15Reports.num_text /\ a_unit u_m /\ a_unit u_s /\ si_only u_m /\ si_only u_s /\ finite_unit u_m /\ finite_unit u_s /\
  coherent u_m u_s = Ok false.
Proof.
  split; [exact Properties15Reports.num_text_honest|]. split; [apply au_init; repeat constructor; simpl; intuition|]. split; [apply au_init; repeat constructor; simpl; intuition|].
  split; [apply unit_si; reflexivity|]. split; [apply unit_si; reflexivity|]. split; [apply unit_whole; vm_compute; reflexivity|].
  split; [apply unit_whole; vm_compute; reflexivity|]. vm_compute. reflexivity.
Qed.

(** The error for a power with an exponent that has a dimension is of the same
    class, but it cannot be shown: what should be the second unit is a dictionary. *)
Theorem C93_powers : forall pn ex a b f, node_pow_said a (ONode b) = Failed f -> failure_kind f = EDimCoherence -> failure_text pn ex f = Raise EAttribute.
Proof. exact power_silent. Qed.
Print Assumptions C93_powers.
Theorem C93_power_refuted : exists a b f, node_pow_said a (ONode b) = Failed f /\ failure_kind f = EDimCoherence /\ forall pn ex, failure_text pn ex f = Raise EAttribute.
Proof.
  exists (qty_call 0%nat length_q), (qty_call 1%nat time_q), (FCoherence (Some u_s) None). split; [vm_compute; reflexivity|]. split; reflexivity.
Qed.
Print Assumptions C93_power_refuted.

(** A refused equation shows the names it uses, one of which is not declared, and
    the names that are declared. *)
Theorem C93_equations : forall pn ex w name q arg f, build_eq (w_heap w) q = Ok arg -> create_equation_said w name arg = Failed f -> failure_kind f = EUnexpectedObject ->
  exists used t, failure_text pn ex f = Ok t /\ shows t (names_text used) /\
    shows t (names_text (dkeys (m_vars (w_mod w)))) /\ shows t (names_text (dkeys (m_pars (w_mod w)))) /\ shows t (names_text (dkeys (m_cons (w_mod w)))) /\
    (forall x, In x used <-> exists l o, eq_occurs l q /\ hget (w_heap w) l = Some o /\ q_name o = x) /\
    exists x, In x used /\ ~ In x (dkeys (m_vars (w_mod w))) /\ ~ In x (dkeys (m_pars (w_mod w))) /\ ~ In x (dkeys (m_cons (w_mod w))).
Proof. exact equation_says. Qed.
Print Assumptions C93_equations.

(** A model M with x; the equation y == x uses a y of another model. *)
Definition foreign : mworld :=
  mkW [mkQty KVariable "x_M" u_m (PInt 0) false "M" false "" false; mkQty KVariable "y_N" u_m (PInt 0) false "N" false "" false] (fun _ => 0%nat)
      (mkM "M" [("x_M", 0%nat)] [] [] [] [] [] []).
Definition foreign_eq : ueq loc := UElem (UQty 1%nat) (UQty 0%nat).
Example C93_equations_case : exists arg, build_eq (w_heap foreign) foreign_eq = Ok arg /\
  exists f, create_equation_said foreign "e" arg = Failed f /\ failure_kind f = EUnexpectedObject /\ f = FUndeclared ["y_N"; "x_M"] (gather_objects (w_mod foreign)).
Proof. eexists. split; [vm_compute; reflexivity|]. eexists. split; [vm_compute; reflexivity|]. split; reflexivity. Qed.

(** A refused connection between two variables shows both names and the names of
    the exposed variables. *)
Theorem C93_connections : forall pn ex w p m1 m2 o i expr s1 d1 s2 d2 f, get_model w m1 = Some (s1, d1) -> get_model w m2 = Some (s2, d2) ->
  connect_said w p m1 m2 o i expr = Failed f -> ~ (In i (m_in s2) /\ In o (m_out s1)) ->
  exists t, failure_kind f = EExposedVariable /\ failure_text pn ex f = Ok t /\
    shows t ("output variable name is " ++ object_name (pw_heap w) o ++ ",") /\ shows t ("input variable name is " ++ object_name (pw_heap w) i ++ ".") /\
    shows t ("output model(1) " ++ nl ++ " " ++ names_text (map (object_name (pw_heap w)) (m_out s1))) /\
    shows t ("input model(2) " ++ nl ++ " " ++ names_text (map (object_name (pw_heap w)) (m_in s2))).
Proof. exact connection_says. Qed.
Print Assumptions C93_connections.

(** The output q of one model joined to a variable z that is not exposed. *)
Definition hidden : pworld :=
  mkPW [mkQty KVariable "q_A" u_m (PInt 0) false "A" true "output" false; mkQty KVariable "z_B" u_m (PInt 0) false "B" false "" false] (fun _ => 0%nat) (fun _ => 0%nat)
       [(mkM "A" [("q_A", 0%nat)] [] [] [] [] [0%nat] [], mkDecls [] [] [] []); (mkM "B" [("z_B", 1%nat)] [] [] [] [] [] [], mkDecls [] [] [] [])].
Definition hidden_failed : failure := FExposed ["q_A"] [] "q_A" "z_B".
Example C93_connections_case : exists s1 d1 s2 d2, get_model hidden 0%nat = Some (s1, d1) /\ get_model hidden 1%nat = Some (s2, d2) /\
  connect_said hidden (snd start_session) 0%nat 1%nat 0%nat 1%nat None = Failed hidden_failed /\ ~ (In 1%nat (m_in s2) /\ In 0%nat (m_out s1)) /\
  failure_text print_one "" hidden_failed =
    Ok ("Non-exposed variable declaration in the output model(1) " ++ nl ++ " ['q_A'] " ++ nl ++ " and/or input model(2) " ++ nl ++
        " []. " ++ nl ++ " The declared output variable name is q_A, and the input variable name is z_B.")%string.
Proof.
  do 4 eexists. split; [reflexivity|]. split; [reflexivity|]. split; [vm_compute; reflexivity|]. split; [cbn; tauto|]. vm_compute. reflexivity.
Qed.
