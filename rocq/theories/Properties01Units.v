(** Property theorems C01-C04 (units). *)
From Verif Require Import Base Num NumFacts UnitModel UnitFacts SpecUnits UnitThms.
From Coq Require Import Reals.
Notation num := Verif.Num.num.
Open Scope Z_scope.

(** ** C01 *)
Theorem C01_unit_mul_exponents : forall u v k,
  a_unit u -> a_unit v ->
  exponent (unit_mul u v) k = combine (fun a b => nadd b a) (exponent u k) (exponent v k).
Proof. exact mul_exponents. Qed.
Print Assumptions C01_unit_mul_exponents.

Theorem C01_unit_pow_exponents : forall u p k,
  a_unit u ->
  exponent (unit_pow_num u p) k = option_map (fun a => nmul a p) (exponent u k).
Proof. exact pow_exponents. Qed.
Print Assumptions C01_unit_pow_exponents.

(** A unit is accepted as an exponent exactly when it is a pure number, and then
    changes nothing. *)
Theorem C01_unit_pow_unit_decided : forall u v,
  a_unit u -> a_unit v -> finite_exponents v ->
  (pure_number v -> exists r, unit_pow_op u (UAUnit v) = Ok r /\ forall k, exponent r k = exponent u k) /\
  (~ pure_number v -> unit_pow_op u (UAUnit v) = Raise EUnexpectedValue).
Proof. exact pow_unit_decided. Qed.
Print Assumptions C01_unit_pow_unit_decided.

Example C01_pow_unit_case :
  a_unit u_dimless /\ unit_pow_op u_m (UAUnit u_dimless) = Ok (unit_init "" (u_dim u_m)) /\
  a_unit u_s /\ unit_pow_op u_m (UAUnit u_s) = Raise EUnexpectedValue.
Proof. repeat split; try (apply au_init; repeat constructor; simpl; intuition discriminate). Qed.

(** A user-defined dimension name survives multiplication on either side. *)
Example C01_case :
  let usd := unit_init "dollar" [("USD", PInt 1)] in
  a_unit usd /\ a_unit u_kg /\
  exponent (unit_mul usd u_kg) "USD" = Some (PInt 1) /\
  exponent (unit_mul u_kg usd) "USD" = Some (PInt 1) /\
  exponent (unit_mul usd u_kg) "kg" = Some (PInt 1) /\
  exponent (unit_pow_num usd (PInt (-2))) "USD" = Some (PInt (-2)).
Proof. repeat split; try (apply au_init; repeat constructor; simpl; intuition discriminate). Qed.

(** ** C02 *)
Theorem C02_unit_div_exponents_partial : forall u v k,
  (* missing for the full statement: names of u that v lacks *)
  a_unit u -> a_unit v -> (exponent v k = None -> exponent u k = None) ->
  exponent (unit_div u v) k = quotient_exponent (exponent u k) (exponent v k).
Proof. exact div_exponents_sub. Qed.
Print Assumptions C02_unit_div_exponents_partial.

Theorem C02_unit_div_drops_missing_names : forall u v k,
  a_unit u -> a_unit v -> exponent v k = None -> exponent (unit_div u v) k = None.
Proof. exact div_loses_names. Qed.
Print Assumptions C02_unit_div_drops_missing_names.

Theorem C02_unit_div_refuted : exists u v k,
  a_unit u /\ a_unit v /\
  exponent (unit_div u v) k <> quotient_exponent (exponent u k) (exponent v k).
Proof.
  exists (unit_init "dollar" [("USD", PInt 1)]), u_kg, "USD".
  repeat split; try (apply au_init; repeat constructor; simpl; intuition discriminate).
  vm_compute. discriminate.
Qed.
Print Assumptions C02_unit_div_refuted.

Example C02_case :
  a_unit u_m /\ a_unit u_s /\ (exponent u_s "s" = None -> exponent u_m "s" = None) /\
  exponent (unit_div u_m u_s) "s" = Some (PInt (-1)) /\
  exponent (unit_div u_m u_s) "m" = Some (PInt 1).
Proof.
  repeat split; try (apply au_init; repeat constructor; simpl; intuition discriminate).
  vm_compute. discriminate.
Qed.

(** ** C03 *)
Theorem C03_mul_comm : forall w K, incl base_keys K -> forall u v a b,
  urep w K u a -> urep w K v b -> (forall k, In k K -> okz w (a k + b k)) ->
  coherent (unit_mul u v) (unit_mul v u) = Ok true.
Proof. exact mul_comm_coherent. Qed.
Print Assumptions C03_mul_comm.

Theorem C03_mul_assoc : forall w K, incl base_keys K -> forall u v x a b c,
  urep w K u a -> urep w K v b -> urep w K x c ->
  (forall k, In k K -> okz w (a k + b k)) -> (forall k, In k K -> okz w (b k + c k)) ->
  (forall k, In k K -> okz w (a k + b k + c k)) ->
  coherent (unit_mul (unit_mul u v) x) (unit_mul u (unit_mul v x)) = Ok true.
Proof. exact mul_assoc_coherent. Qed.
Print Assumptions C03_mul_assoc.

Theorem C03_mul_div : forall w K, incl base_keys K -> forall u v a b,
  urep w K u a -> urep w K v b -> (forall k, In k K -> okz w (a k + b k)) ->
  coherent (unit_div (unit_mul u v) v) u = Ok true.
Proof. exact mul_div_coherent. Qed.
Print Assumptions C03_mul_div.

Theorem C03_div_self : forall w K, incl base_keys K -> forall u a,
  urep w K u a -> is_dimensionless (unit_div u u) = true.
Proof. exact div_self_dimensionless. Qed.
Print Assumptions C03_div_self.

Theorem C03_pow_add : forall w K, incl base_keys K -> forall u a p q n m,
  urep w K u a -> nrep w p n -> nrep w q m -> okz w (n + m) ->
  (forall k, In k K -> okz w (a k * n)) -> (forall k, In k K -> okz w (a k * m)) ->
  (forall k, In k K -> okz w (a k * (n + m))) ->
  coherent (unit_mul (unit_pow_num u p) (unit_pow_num u q)) (unit_pow_num u (nadd p q)) = Ok true.
Proof. exact pow_add_coherent. Qed.
Print Assumptions C03_pow_add.

Theorem C03_pow_mul : forall w K, incl base_keys K -> forall u a p q n m,
  urep w K u a -> nrep w p n -> nrep w q m -> okz w (n * m) ->
  (forall k, In k K -> okz w (a k * n)) -> (forall k, In k K -> okz w (a k * n * m)) ->
  coherent (unit_pow_num (unit_pow_num u p) q) (unit_pow_num u (nmul p q)) = Ok true.
Proof. exact pow_mul_coherent. Qed.
Print Assumptions C03_pow_mul.

(** With fractional doubles the laws fail: m**0.1 * m**0.2 is not coherent with
    m**(0.3). *)
Theorem C03_fractional_powers_refuted : exists u p q r,
  a_unit u /\ (exists x y z, p = PFloat x /\ q = PFloat y /\ r = PFloat z) /\
  p = fdec 1 1 /\ q = fdec 2 1 /\ r = fdec 3 1 /\
  coherent (unit_mul (unit_pow_num u p) (unit_pow_num u q)) (unit_pow_num u r) = Ok false.
Proof.
  exists u_m, (fdec 1 1), (fdec 2 1), (fdec 3 1).
  split; [apply au_init; repeat constructor; simpl; intuition discriminate|].
  split; [eexists _, _, _; repeat split|].
  do 3 (split; [reflexivity|]). vm_compute. reflexivity.
Qed.
Print Assumptions C03_fractional_powers_refuted.

(** The SI units are representable, in the int world and mixed with the float
    zeros of [dimless]. *)
Example C03_case_int :
  urep WInt base_keys u_J (fun k => if String.eqb k "kg" then 1 else if String.eqb k "m" then 2
                                    else if String.eqb k "s" then -2 else 0).
Proof.
  apply urep_intro.
  - apply unit_init_wf.
  - intros k Hk. simpl in Hk. repeat (destruct Hk as [<-|Hk]; [eexists; split; reflexivity|]). destruct Hk.
  - intros k Hk. apply BaseFacts.dget_none_iff. intros H. apply Hk. revert H. vm_compute. tauto.
Qed.

Example C03_case_mixed :
  urep WSmall base_keys (unit_mul u_dimless u_m) (fun k => if String.eqb k "m" then 1 else 0).
Proof.
  refine (urep_ext _ _ _ _ _ (urep_mul WSmall base_keys u_dimless u_m (fun _ => 0)
            (fun k => if String.eqb k "m" then 1 else 0) (incl_refl _) _ _ _) _).
  - apply urep_intro; [apply unit_init_wf| |].
    + intros k Hk. simpl in Hk. repeat (destruct Hk as [<-|Hk]; [eexists; split; [reflexivity|apply nrep_zero_float]|]). destruct Hk.
    + intros k Hk. apply BaseFacts.dget_none_iff. intros H. apply Hk. revert H. vm_compute. tauto.
  - apply urep_intro; [apply unit_init_wf| |].
    + intros k Hk. simpl in Hk. repeat (destruct Hk as [<-|Hk]; [eexists; split; [reflexivity|split; [unfold small; simpl; lia|reflexivity]]|]). destruct Hk.
    + intros k Hk. apply BaseFacts.dget_none_iff. intros H. apply Hk. revert H. vm_compute. tauto.
  - intros k _. simpl. unfold small. destruct (String.eqb k "m"); simpl; lia.
  - intros k _. simpl. destruct (String.eqb k "m"); reflexivity.
Qed.

(** ** C04 *)
Theorem C04_sum_decided_partial : forall u v,
  (* missing for the full statement: units whose dimension names differ *)
  a_unit u -> a_unit v -> same_names u v -> finite_exponents u -> finite_exponents v ->
  (same_dimension u v -> unit_add u v = Ok u /\ unit_sub u v = Ok u) /\
  (~ same_dimension u v -> unit_add u v = Raise EDimCoherence /\ unit_sub u v = Raise EDimCoherence).
Proof. exact unit_sum_decided. Qed.
Print Assumptions C04_sum_decided_partial.

Theorem C04_equivalence_partial : forall u v x,
  a_unit u -> a_unit v -> a_unit x -> same_names u v -> same_names v x ->
  finite_exponents u -> finite_exponents v -> finite_exponents x ->
  coherent u u = Ok true /\
  (coherent u v = Ok true -> coherent v u = Ok true) /\
  (coherent u v = Ok true -> coherent v x = Ok true -> coherent u x = Ok true).
Proof. exact coherent_equivalence. Qed.
Print Assumptions C04_equivalence_partial.

(** metre + (metre times dollar) is accepted, the other order is a KeyError. *)
Theorem C04_coherence_symmetric_refuted : exists u v,
  a_unit u /\ a_unit v /\ unit_add u v = Ok u /\ unit_add v u = Raise EKey /\
  exponent v "USD" = Some (PInt 1).
Proof.
  exists u_m, (unit_init "x" [("m", PInt 1); ("USD", PInt 1)]).
  repeat split; try (apply au_init; repeat constructor; simpl; intuition discriminate).
Qed.
Print Assumptions C04_coherence_symmetric_refuted.

Example C04_case :
  a_unit u_m /\ a_unit u_s /\ same_names u_m u_s /\ finite_exponents u_m /\ finite_exponents u_s /\
  unit_add u_m u_s = Raise EDimCoherence /\ unit_add u_m u_m = Ok u_m.
Proof.
  repeat split; try (apply au_init; repeat constructor; simpl; intuition discriminate).
  - unfold exponent. rewrite !BaseFacts.dget_none_iff. vm_compute. tauto.
  - unfold exponent. rewrite !BaseFacts.dget_none_iff. vm_compute. tauto.
  - intros k x H. apply BaseFacts.dget_some_in in H. vm_compute in H.
    repeat (destruct H as [[= _ <-]|H]; [eexists; reflexivity|]). destruct H.
  - intros k x H. apply BaseFacts.dget_some_in in H. vm_compute in H.
    repeat (destruct H as [[= _ <-]|H]; [eexists; reflexivity|]). destruct H.
Qed.
