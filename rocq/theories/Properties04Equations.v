(** Property theorems C17-C20 (equations, automatic names, declarations). *)
From Verif Require Import Base Num UnitModel Sympy Node Build EquationModel ModelModel SpecUnits SpecExpr SpecQty
  SpecModel SpecDims UnitThms BuildFacts EquationFacts EqClassFacts ModelFacts Demo.
From Coq Require Import Reals Lra.
Notation num := Verif.Num.num.

Lemma m_m_comparable : comparable u_m u_m.
Proof.
  repeat split; try (apply au_init; repeat constructor; simpl; intuition discriminate);
    try (now apply int_exponents); tauto.
Qed.

(** ** C17 *)
Theorem C17_elementary : forall h l r a b e,
  build h l = Ok a -> build h r = Ok b -> comparable (nd_unit a) (nd_unit b) ->
  (same_dimension (nd_unit a) (nd_unit b) ->
     exists arg e', build_eq h (UElem l r) = Ok arg /\ set_residual e arg = (e', Ok tt) /\
       equation_call e' 0 = Ok (Some a) /\ equation_call e' 1 = Ok (Some b) /\
       forall v en, env_for h v en ->
         exists n, eval_target e' None = Ok (Some n) /\
                   den (nd_sym n) en = arith BSub (meaning h v l) (meaning h v r)) /\
  (~ same_dimension (nd_unit a) (nd_unit b) ->
     exists arg, build_eq h (UElem l r) = Ok arg /\ snd (set_residual e arg) = Raise EDimCoherence).
Proof. exact elementary_decided. Qed.
Print Assumptions C17_elementary.

Theorem C17_number : forall h l k a e,
  build h l = Ok a -> comparable (nd_unit a) (nd_unit a) ->
  exists arg e' nk, build_eq h (UElemN l k) = Ok arg /\ set_residual e arg = (e', Ok tt) /\
    equation_call e' 0 = Ok (Some a) /\ equation_call e' 1 = Ok (Some nk) /\
    (forall en, den (nd_sym nk) en = num_value k) /\ nd_unit nk = nd_unit a /\
    forall v en, env_for h v en ->
      exists n, eval_target e' None = Ok (Some n) /\
                den (nd_sym n) en = arith BSub (meaning h v l) (num_value k).
Proof. exact elementary_number. Qed.
Print Assumptions C17_number.

Theorem C17_residual : forall h x n e,
  build h x = Ok n ->
  exists arg e', build_eq h (UResid x) = Ok arg /\ set_residual e arg = (e', Ok tt) /\
    eq_expr e' = Some n /\ eq_elementary e' = eq_elementary e /\ eq_elem e' = eq_elem e /\
    eq_type e' = type_of n.
Proof. exact residual_kept. Qed.
Print Assumptions C17_residual.

(** Conversion to the residual form (done to differential equations) keeps the
    residual, the sides and the class. *)
Theorem C17_converted : forall nm arg e, set_residual (blank_eqn nm) arg = (e, Ok tt) ->
  exists e', to_residual_form e = (e', Ok tt) /\ eq_name e' = eq_name e /\ eq_expr e' = eq_expr e /\ eq_elem e' = eq_elem e /\ eq_type e' = eq_type e /\
    (eq_type e = Some CDifferential -> eq_elementary e' = false /\ get_symbolic e' None SRhs = get_symbolic e (Some false) SRhs) /\
    (eq_type e <> Some CDifferential -> e' = e).
Proof. exact converted. Qed.
Print Assumptions C17_converted.

(** Full statement: whatever is not a node or a pair with a usable right side is
    rejected with UnexpectedValueError, leaving the equation as it was.  Missing:
    pairs whose right side is neither (refuted below). *)
Theorem C17_other_partial : forall e, set_residual e EAOther = (e, Raise EUnexpectedValue).
Proof. exact residual_other. Qed.
Print Assumptions C17_other_partial.

(** A pair with an unusable right side is accepted on an equation that already
    has an expression, which turns into an elementary equation without sides. *)
Theorem C17_bad_pair_refuted : exists h x n e arg,
  build h x = Ok n /\ snd (set_residual e (EANode n)) = Ok tt /\
  arg = EATuple n OOther /\
  snd (set_residual (fst (set_residual e (EANode n))) arg) = Ok tt /\
  equation_call (fst (set_residual (fst (set_residual e (EANode n))) arg)) 0 = Raise EUnexpectedValue.
Proof. exists demo_heap, (UQty 0%nat). eexists. exists (blank_eqn "e"). eexists. repeat split. Qed.
Print Assumptions C17_bad_pair_refuted.

(** x == y and x == 2 in metres; x == t is rejected. *)
Example C17_case :
  exists a b c, build demo_heap (UQty 0%nat) = Ok a /\ build demo_heap (UQty 3%nat) = Ok b /\
    build demo_heap (UQty 1%nat) = Ok c /\
    comparable (nd_unit a) (nd_unit b) /\ same_dimension (nd_unit a) (nd_unit b) /\
    comparable (nd_unit c) (nd_unit a) /\ ~ same_dimension (nd_unit c) (nd_unit a).
Proof.
  do 3 eexists. repeat (split; [reflexivity|]). split; [exact m_m_comparable|].
  split; [apply same_dimension_refl|]. split; [exact m_s_comparable|exact m_s_different].
Qed.

(** x.Diff(t) == y / t is elementary before the conversion. *)
Example C17_converted_case : exists arg e, build_eq demo_heap (UElem (UDiff 0%nat (Some 1%nat)) (UBin BDiv (UQty 3%nat) (UQty 1%nat))) = Ok arg /\
  set_residual (blank_eqn "q") arg = (e, Ok tt) /\ eq_type e = Some CDifferential /\ eq_elementary e = true /\
  eq_elementary (fst (to_residual_form e)) = false.
Proof. do 2 eexists. repeat (split; [reflexivity|]). reflexivity. Qed.

(** ** The class of an equation: C12, C13, C14 *)
Theorem C14_equation_class : forall h q arg e e',
  build_eq h q = Ok arg -> set_residual e arg = (e', Ok tt) ->
  exists n, eq_expr e' = Some n /\
    (eq_type e' = Some CLinear <-> t_lin (nd_ty n) = true) /\
    (eq_type e' = Some CNonlinear <-> t_nonlin (nd_ty n) = true) /\
    (eq_type e' = Some CDifferential <-> t_diff (nd_ty n) = true).
Proof. exact equation_class. Qed.
Print Assumptions C14_equation_class.

(** Full statement: without [no_hidden_nonlinearity]; refuted by C12_quotient_refuted
    and C12_minmax_refuted. *)
Theorem C12_linear_equation_partial : forall h l r arg e e',
  build_eq h (UElem l r) = Ok arg -> set_residual e arg = (e', Ok tt) ->
  no_hidden_nonlinearity h (UBin BSub l r) = true -> eq_type e' = Some CLinear ->
  exists n, eq_expr e' = Some n /\ affine (fun en => den (nd_sym n) en).
Proof. exact linear_equation. Qed.
Print Assumptions C12_linear_equation_partial.

(** Full statement: without [derivatives_outside]; refuted by C13_product_refuted and
    C13_specified_refuted. *)
Theorem C13_differential_equation_partial : forall h l r arg e e',
  build_eq h (UElem l r) = Ok arg -> set_residual e arg = (e', Ok tt) ->
  derivatives_outside h (UBin BSub l r) = true ->
  (eq_type e' = Some CDifferential <-> has_derivative h l = true \/ has_derivative h r = true).
Proof. exact differential_equation. Qed.
Print Assumptions C13_differential_equation_partial.

(** x == y is stored as linear, x.Diff(t) == y / t as differential. *)
Example C14_equation_case :
  let q1 := UElem (UQty 0%nat) (UQty 3%nat) in
  let q2 := UElem (UDiff 0%nat (Some 1%nat)) (UBin BDiv (UQty 3%nat) (UQty 1%nat)) in
  exists a1 e1 a2 e2,
    build_eq demo_heap q1 = Ok a1 /\ set_residual (blank_eqn "p") a1 = (e1, Ok tt) /\
    no_hidden_nonlinearity demo_heap (UBin BSub (UQty 0%nat) (UQty 3%nat)) = true /\
    eq_type e1 = Some CLinear /\
    build_eq demo_heap q2 = Ok a2 /\ set_residual (blank_eqn "q") a2 = (e2, Ok tt) /\
    derivatives_outside demo_heap
      (UBin BSub (UDiff 0%nat (Some 1%nat)) (UBin BDiv (UQty 3%nat) (UQty 1%nat))) = true /\
    eq_type e2 = Some CDifferential.
Proof.
  cbv zeta. do 4 eexists. repeat (split; [vm_compute; reflexivity|]). vm_compute; reflexivity.
Qed.

(** ** C18 *)
(** Full statement: the same without [c_thread c = c_thread c']; refuted below. *)
Theorem C18_same_thread_partial : forall u cs i j c c' e e',
  nth_error (create_all u cs) i = Some (c, Ok e) -> nth_error (create_all u cs) j = Some (c', Ok e') ->
  i <> j -> c_name c = "" -> c_name c' = "" -> c_thread c = c_thread c' -> eq_name e <> eq_name e'.
Proof. exact unnamed_distinct. Qed.
Print Assumptions C18_same_thread_partial.

Theorem C18_threads_refuted : exists u cs i j c c' e e',
  nth_error (create_all u cs) i = Some (c, Ok e) /\ nth_error (create_all u cs) j = Some (c', Ok e') /\
  i <> j /\ c_name c = "" /\ c_name c' = "" /\ eq_name e = eq_name e'.
Proof.
  exists (fun _ => 0%nat), [mkCreation 0 "" None "M"; mkCreation 1 "" None "M"], 0%nat, 1%nat.
  do 4 eexists. repeat split. discriminate.
Qed.
Print Assumptions C18_threads_refuted.

(** Two threads interleaved; a numeric right side draws a name of its own. *)
Example C18_case : exists n,
  build demo_heap (UQty 0%nat) = Ok n /\
  map (fun ce => match snd ce with Ok e => Ok (eq_name e) | Raise x => Raise x end)
    (create_all (fun _ => 0%nat)
       [mkCreation 0 "" (Some (EATuple n (ONum (PInt 2)))) "M"; mkCreation 1 "" None "M";
        mkCreation 0 "given" None "M"; mkCreation 0 "" (Some (EANode n)) "M"; mkCreation 1 "" None "M"])
  = [Ok "1"; Ok "1"; Ok "given"; Ok "3"; Ok "2"].
Proof. eexists. split; vm_compute; reflexivity. Qed.

(** ** C19 *)
Theorem C19_local_name_back : forall n m, strip_name (full_name n m) m = n.
Proof. exact strip_full. Qed.
Print Assumptions C19_local_name_back.

Theorem C19_one_model : forall n n' m, full_name n m = full_name n' m -> n = n'.
Proof. exact full_inj_same. Qed.
Print Assumptions C19_one_model.

(** Full statement: the same for all model names; refuted below. *)
Theorem C19_two_models_partial : forall n m n' m', no_underscore m -> no_underscore m' ->
  full_name n m = full_name n' m' -> n = n' /\ m = m'.
Proof. exact full_inj. Qed.
Print Assumptions C19_two_models_partial.

Theorem C19_two_models_refuted : exists n m n' m', full_name n m = full_name n' m' /\ n <> n' /\ m <> m'.
Proof. exists "T", "in_M", "T_in", "M". repeat split; discriminate. Qed.
Print Assumptions C19_two_models_refuted.

Example C19_case :
  full_name "T_in" "M0" = "T_in_M0" /\ strip_name "T_in_M0" "M0" = "T_in" /\ no_underscore "M0".
Proof. repeat split; discriminate. Qed.

(** ** C20 *)
Theorem C20_checked : forall w name q,
  well_formed_eq (w_heap w) q ->
  (uses_declared w q ->
     exists w' e, user_create w name q true = (w', Ok e) /\
       w_heap w' = w_heap w /\ w_mod w' = with_eqs (w_mod w) (dset (eq_name e) e (m_eqs (w_mod w))) /\
       (name <> "" -> eq_name e = full_name name (m_name (w_mod w))) /\
       exists n, eq_expr e = Some n /\
         forall v en, env_for (w_heap w) v en -> den (nd_sym n) en = residual_meaning (w_heap w) v q) /\
  (~ uses_declared w q ->
     exists w', user_create w name q true = (w', Raise EUnexpectedObject) /\
       w_heap w' = w_heap w /\ w_mod w' = w_mod w).
Proof. exact create_decided. Qed.
Print Assumptions C20_checked.

(** After any statements, including ones that raise, every stored equation's
    symbols are names of declared objects. *)
Theorem C20_invariant : forall name h u cs, forallb checked cs = true ->
  own_equations (w_mod (run_session (mkW h u (new_model name)) cs)).
Proof. intros name h u cs H. exact (run_session_own cs (mkW h u (new_model name)) H (fresh_own name)). Qed.
Print Assumptions C20_invariant.

(** The variable a derivative is taken with respect to is not checked: an equation
    mentioning an undeclared object is stored. *)
Theorem C20_derivative_refuted : exists w q w' e l o,
  well_formed_eq (w_heap w) q /\ user_create w "e" q true = (w', Ok e) /\
  eq_mentions l q /\ hget (w_heap w) l = Some o /\ ~ In (q_name o) (declared (w_mod w)).
Proof.
  exists (mkW demo_heap (fun _ => 0%nat) (with_vars (new_model "M") [("x", 0%nat)])),
         (UResid (UDiff 0%nat (Some 1%nat))). do 2 eexists. exists 1%nat. eexists.
  split; [eexists; reflexivity|]. split; [reflexivity|]. split; [now right|].
  split; [reflexivity|]. simpl. intuition discriminate.
Qed.
Print Assumptions C20_derivative_refuted.

(** x == y with both declared is stored, with y undeclared refused. *)
Example C20_case :
  let w d := mkW demo_heap (fun _ => 0%nat) (with_vars (new_model "M") d) in
  let q := UElem (UQty 0%nat) (UQty 3%nat) in
  well_formed_eq demo_heap q /\
  uses_declared (w [("x", 0%nat); ("y", 3%nat)]) q /\ ~ uses_declared (w [("x", 0%nat)]) q.
Proof.
  intros w q. split; [|split].
  - do 2 eexists. split; [reflexivity|]. split; [reflexivity|].
    split; [exact m_m_comparable|apply same_dimension_refl].
  - intros l o [Hl|Hl] Ho; simpl in Hl; subst l; injection Ho as <-; simpl; tauto.
  - intros H. destruct (H 3%nat _ (or_intror eq_refl) eq_refl) as [E|[]]. discriminate E.
Qed.

(** A session with a refused equation in the middle. *)
Example C20_session :
  let cs := [CVar "x" "x" u_m false "" (PInt 0); CVar "y" "y" u_m false "" (PInt 0);
             CEq "e1" "e1" (UElem (UQty "x") (UQty "y")) true;
             CEq "e2" "e2" (UElem (UQty "x") (UQty "z")) true;
             CEq "e3" "e3" (UResid (UBin BAdd (UQty "x") (UQty "y"))) true] in
  forallb checked cs = true /\
  dkeys (m_eqs (w_mod (run_session (mkW [] (fun _ => 0%nat) (new_model "M")) cs))) = ["e1_M"; "e3_M"].
Proof. split; vm_compute; reflexivity. Qed.
