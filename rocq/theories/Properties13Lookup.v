(** Property theorems C54-C56 (numbers with units, unit sizes, parameter lookup). *)
From Verif Require Import Base Num UnitModel Sympy Node Build EquationModel ModelModel ProblemModel SimModel
  SpecUnits SpecExpr SpecQty SpecUnitOps SpecCall SpecProblem SpecLookup Demo LiteralFacts LookupFacts.
From Coq Require Import Reals Lra.
Notation num := Verif.Num.num.

(** ** C54 *)
Theorem C54_product : forall u n, a_unit u ->
  exists r, unit_mul_op u (UANum n) = Ok (URQuantity r n) /\ same_exponents r u.
Proof. exact literal_product. Qed.
Print Assumptions C54_product.

Theorem C54_quotient : forall u n x, a_unit u -> ordinary n x ->
  exists r i t, unit_div_op u (UANum n) = Ok (URQuantity r i) /\ same_exponents r u /\
    num_value i = Some (/ x * t)%R /\ (Rabs (t - 1) <= / 2 ^ 49)%R.
Proof. exact literal_quotient. Qed.
Print Assumptions C54_quotient.

Theorem C54_quotient_zero : forall u n, nvalue n 0%R -> unit_div_op u (UANum n) = Raise EZeroDivision.
Proof. exact literal_zero. Qed.
Print Assumptions C54_quotient_zero.

Theorem C54_assigned_partial : forall q u n,
  (* missing for the full statement: variables, parameters and constants, see C54_never *)
  q_kind q = KQuantity -> comparable u (q_units q) ->
  (same_dimension u (q_units q) -> exists q', set_value q (SVQty (literal u n)) None = Ok q' /\ q_value q' = n /\ q_units q' = q_units q) /\
  (~ same_dimension u (q_units q) -> set_value q (SVQty (literal u n)) None = Raise EDimCoherence).
Proof. exact literal_assign. Qed.
Print Assumptions C54_assigned_partial.

(** A number with a unit is never taken by anything but a plain Quantity. *)
Theorem C54_never : forall q u n x, q_kind q <> KQuantity -> set_value q (SVQty (literal u n)) x = Raise EUnexpectedValue.
Proof. exact literal_never. Qed.
Print Assumptions C54_never.

Theorem C54_assigned_refuted : exists q n, q_kind q = KVariable /\ same_dimension (q_units q) (q_units q) /\
  set_value q (SVQty (literal (q_units q) n)) None = Raise EUnexpectedValue.
Proof.
  exists (mk_var "x" u_m false), (PInt 5). split; [reflexivity|]. split; [|reflexivity].
  intros k a b r s Ha Hb Ra Rb. assert (a = b) by congruence. subst b. now apply (UnitThms.nvalue_unique a).
Qed.
Print Assumptions C54_assigned_refuted.

Example C54_case : a_unit u_m /\ ordinary (PInt 4) 4%R /\
  unit_mul_op u_m (UANum (PInt 4)) = Ok (URQuantity (unit_init "" (u_dim u_m)) (PInt 4)) /\
  unit_div_op u_m (UANum (PInt 4)) = Ok (URQuantity (unit_init "" (u_dim u_m)) (fdec 25 2)) /\
  comparable u_s u_m /\
  set_value (mkQty KQuantity "q" u_m (PInt 0) false "" false "" false) (SVQty (literal u_s (PInt 4))) None = Raise EDimCoherence.
Proof.
  split; [apply au_init; repeat constructor; simpl; intuition discriminate|]. split.
  { split; [reflexivity|]. split; [exact I|]. rewrite Rabs_pos_eq by lra.
    assert (P : (4 <= 2 ^ 300)%R).
    { replace 4%R with (2 ^ 2)%R by ring. apply Rle_pow; [lra|]. repeat constructor. }
    split; [|exact P]. apply Rle_trans with (/ 4)%R; [apply Rinv_le_contravar|]; lra. }
  split; [reflexivity|]. split; [vm_compute; reflexivity|]. split; [apply m_s_comparable|reflexivity].
Qed.

(** ** C55 *)
(** Full statement: a value given in a unit of another size is converted.  Two units of one
    dimension are never told apart, whatever their size. *)
Theorem C55_sizes_unseen : forall q a u v, comparable u (q_units q) -> comparable v (q_units q) -> same_dimension u v ->
  set_value q a (Some u) = set_value q a (Some v).
Proof. exact sizes_unseen. Qed.
Print Assumptions C55_sizes_unseen.

(** One atmosphere is stored as one pascal. *)
Theorem C55_converted_refuted : exists q q', q_units q = u_Pa /\
  set_value q (SVNum (PInt 1)) (Some u_atm) = Ok q' /\ q_units q' = u_Pa /\ q_value q' = PInt 1.
Proof. exists (mk_par "P" u_Pa (PInt 0) false). eexists. repeat split; vm_compute; reflexivity. Qed.
Print Assumptions C55_converted_refuted.

Example C55_case : comparable u_s u_m /\ same_dimension u_s u_s /\
  set_value (mk_var "x" u_m false) (SVNum (PInt 1)) (Some u_s) = Raise EUnexpectedValue.
Proof.
  split; [apply m_s_comparable|]. split; [|reflexivity].
  intros k a b r s Ha Hb Ra Rb. assert (a = b) by congruence. subst b. now apply (UnitThms.nvalue_unique a).
Qed.

(** ** C56 *)
(** What is found is a Parameter of that name which some equation uses by name. *)
Theorem C56_found : forall acts s b c o d st x l, resolved acts s b ->
  sim_getitem (sim_over (snd s) c o d st) (KStr x) = Ok l ->
  (exists q, hget (pw_heap (fst s)) l = Some q /\ q_name q = x /\ q_kind q = KParameter) /\
  exists e, In e (b_eqs b) /\ uses_parameter (pw_heap (fst s)) x e.
Proof. exact lookup_found. Qed.
Print Assumptions C56_found.

(** When something is found. *)
Theorem C56_decided : forall acts s b c o d st x, resolved acts s b ->
  ((exists l, sim_getitem (sim_over (snd s) c o d st) (KStr x) = Ok l) <->
   parameter_when_added acts x /\ exists e, In e (b_eqs b) /\ uses_parameter (pw_heap (fst s)) x e) /\
  (forall y, sim_getitem (sim_over (snd s) c o d st) (KStr x) = Raise y -> y = EKey).
Proof. exact lookup_decided. Qed.
Print Assumptions C56_decided.

Theorem C56_by_object : forall sm q, sim_getitem sm (KQty q) = sim_getitem sm (KStr (q_name q)).
Proof. exact lookup_object. Qed.
Print Assumptions C56_by_object.

Theorem C56_refused : forall sm,
  sim_getitem sm KOther = Raise EUnexpectedValue /\
  (forall x, (sm_problem sm = None \/ exists p, sm_problem sm = Some p /\ pr_block p = None) ->
     sim_getitem sm (KStr x) = Raise EAttribute).
Proof. exact lookup_refused. Qed.
Print Assumptions C56_refused.

(** It is never the object the equations of a resolved model refer to. *)
Theorem C56_stale : forall acts s b c o dm st x l i m d k e, resolved acts s b ->
  sim_getitem (sim_over (snd s) c o dm st) (KStr x) = Ok l ->
  In i (dvals (pr_models (snd s))) -> get_model (fst s) i = Some (m, d) -> named d = true -> runs (m_name m) d ->
  declares (m_name m) d k -> dget k (m_eqs m) = Some e -> ~ refers e l.
Proof. exact lookup_stale. Qed.
Print Assumptions C56_stale.

(** [x == k] with a parameter [k]. *)
Definition gain_decls : decls :=
  mkDecls [] [CPar "k" "k" u_m (PInt 2); CSet "k" (SANum (PInt 4)) None] [CVar "x" "x" u_m false "" (PInt 0)]
          [CEq "e" "e" (UElem (UQty "x") (UQty "k")) true].
Definition gain_acts : list act := [ANew "G" gain_decls; ACall 0%nat; AAdd 0%nat].
Definition gain_final : SpecProblem.session := after gain_acts.
Definition gain_block : block := block_after gain_acts.
Lemma gain_resolved : resolved gain_acts gain_final gain_block.
Proof. apply run_after. vm_compute. reflexivity. Qed.

Example C56_case : resolved gain_acts gain_final gain_block /\
  sim_getitem (sim_over (snd gain_final) None None VNone None) (KStr "k_G") = Ok 0%nat /\
  sim_getitem (sim_over (snd gain_final) None None VNone None) (KStr "x_G") = Raise EKey /\
  dvals (pr_models (snd gain_final)) = [0%nat] /\ named gain_decls = true /\ runs "G" gain_decls /\ declares "G" gain_decls "e_G" /\
  option_map dkeys (option_map m_eqs (model_of gain_final 0%nat)) = Some ["e_G"].
Proof.
  split; [apply gain_resolved|]. split; [vm_compute; reflexivity|]. split; [vm_compute; reflexivity|]. split; [vm_compute; reflexivity|].
  split; [reflexivity|]. split; [vm_compute; reflexivity|]. split; [vm_compute; now left|vm_compute; reflexivity].
Qed.

(** Full statement: the object found is the one the equations use. *)
Theorem C56_same_object_refuted : exists acts s b l e, resolved acts s b /\
  sim_getitem (sim_over (snd s) None None VNone None) (KStr "k_G") = Ok l /\
  b_eqs b = [e] /\ uses_parameter (pw_heap (fst s)) "k_G" e /\ ~ refers e l.
Proof.
  exists gain_acts, gain_final, gain_block, 0%nat, (hd (blank_eqn "") (b_eqs gain_block)).
  split; [apply gain_resolved|]. split; [vm_compute; reflexivity|]. split; [vm_compute; reflexivity|]. split.
  - exists [("x_G", 3%nat); ("k_G", 2%nat)], "k_G", 2%nat. eexists. split; [vm_compute; reflexivity|]. split; [right; now left|].
    split; [vm_compute; reflexivity|]. split; reflexivity.
  - intros (n & k & En & Hin). vm_compute in En. injection En as <-. simpl in Hin. intuition congruence.
Qed.
Print Assumptions C56_same_object_refuted.
