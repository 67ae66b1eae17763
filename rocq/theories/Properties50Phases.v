(** Property theorem C92: which fractions a unit operation has. *)
From Verif Require Import Base Num UnitModel Sympy Node Build EquationModel ModelModel PackageModel UnitOpModel SpecPackage SpecUnitOps SpecMeasure SpecPhases PhaseFacts
  Properties11Ports Properties49Measures.
Notation num := Verif.Num.num.

(** A unit operation made with a package has the fractions of each of its phases
    at each of its places, and no others, if it has fractions at all. *)
Theorem C92_fractions_partial : forall known l i k lib class init equations, pack_of (prun known l) i = Some k ->
  In (class, init, equations) (unit_operations lib (Some k)) -> forall h u name a, fraction a = true ->
  (exists q, quantity (fst (run_script (mkW h u (new_model name)) init)) a = Some q) <->
  (exists number, number_of (prun known l) i = Some number /\ has_fractions class number (names_of (prun known l) i)) /\
  exists n, In n (names_of (prun known l) i) /\ In a (fraction_names class (phase_said n)).
Proof. exact fractions_exact. Qed.
Print Assumptions C92_fractions_partial.

Lemma pack_found s i : (exists k, pack_of s i = Some k) <-> match pack_of s i with Some _ => true | None => false end = true.
Proof. destruct (pack_of s i); split; intros H; eauto; [destruct H; discriminate|discriminate]. Qed.

(** water and oil, in one package of two phases. *)
Definition oil_and_water : list paction := [PNew 2 (LNew [Some "water"; Some "oil"])].
Example C92_case : exists k, pack_of (prun all_known oil_and_water) 0 = Some k /\
  In ("Valve", valve_init (Some k), valve_equations some_lib (Some k)) (unit_operations some_lib (Some k)) /\
  fraction "w_oil_in" = true /\ In "w_oil_in" (fraction_names "Valve" (phase_said (Some "oil"))) /\
  number_of (prun all_known oil_and_water) 0 = Some 2%Z /\ names_of (prun all_known oil_and_water) 0 = [Some "water"; Some "oil"] /\
  exists q, quantity (fst (run_script fresh_unit (valve_init (Some k)))) "w_oil_in" = Some q.
Proof.
  assert (P : exists k, pack_of (prun all_known oil_and_water) 0 = Some k) by (apply pack_found; vm_compute; reflexivity).
  destruct P as (k & P). exists k. split; [exact P|]. split; [cbn [unit_operations In]; auto 10|]. split; [reflexivity|]. split; [cbn; auto 10|].
  split; [reflexivity|]. split; [reflexivity|].
  apply (C92_fractions_partial all_known oil_and_water 0%nat k some_lib "Valve" _ (valve_equations some_lib (Some k)) P); [cbn [unit_operations In]; auto 10|reflexivity|].
  split; [exists 2%Z; split; [reflexivity|discriminate]|]. exists (Some "oil"). split; [cbn; auto|cbn; auto 10].
Qed.

(** The sum of two packages with one phase each has two phases, but a pump made
    with it has no fractions, while a mixer has them. *)
Definition summed : list paction := [PNew 1 (LNew [Some "water"]); PNew 1 (LNew [Some "oil"]); PAdd 0 (AddPkg 1)].
Theorem C92_sum_refuted : exists l k, pack_of (prun all_known l) 0 = Some k /\ names_of (prun all_known l) 0 = [Some "water"; Some "oil"] /\
  quantity (fst (run_script fresh_unit (pump_init (Some k)))) "z_oil_in" = None /\
  exists q, quantity (fst (run_script fresh_unit (mixer_init (Some k)))) "z_oil_in" = Some q.
Proof.
  assert (P : exists k, pack_of (prun all_known summed) 0 = Some k) by (apply pack_found; vm_compute; reflexivity).
  destruct P as (k & P). exists summed, k. split; [exact P|]. split; [reflexivity|].
  split.
  - destruct (quantity (fst (run_script fresh_unit (pump_init (Some k)))) "z_oil_in") as [q|] eqn:Q; [|reflexivity]. exfalso.
    destruct (proj1 (C92_fractions_partial all_known summed 0%nat k some_lib "SimplePump" (pump_init (Some k)) (pump_equations (Some k)) P
      ltac:(cbn [unit_operations In]; auto 10) [] (fun _ => 0%nat) "M" "z_oil_in" eq_refl)) as ((z & Z & F) & _); [eauto|].
    injection Z as <-. cbn in F. lia.
  - apply (C92_fractions_partial all_known summed 0%nat k some_lib "Mixer" (mixer_init (Some k)) ([], None) P); [cbn [unit_operations In]; auto 10|reflexivity|].
    split; [exists 1%Z; split; [reflexivity|vm_compute; lia]|]. exists (Some "oil"). split; [cbn; auto|cbn; auto 10].
Qed.
Print Assumptions C92_sum_refuted.
