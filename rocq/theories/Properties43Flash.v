(** Properties of the flash drums of the library. *)
From Verif Require Import Base Num UnitModel Sympy Node Build EquationModel ModelModel PackageModel UnitOpModel SpecUnitOps FlashFacts Properties12UnitOps.
Notation num := Verif.Num.num.

(** ** C52: Every unit operation of the library can be made and its equations
    declared, with any property package or none. *)

(** A steady flash is made with whatever package; if there are several phases its
    equations read an attribute that was never set (of the first phase [p], unless
    its name is that of a phase followed by "_L" or "_V"). *)
Theorem C52_flash_phases_refuted : forall h u name k p ps, (2 <= k_number k)%Z -> k_names k = p :: ps ->
  (forall q, In q (k_names k) -> p <> (q ++ "_L")%string /\ p <> (q ++ "_V")%string) ->
  exists w1, run_script (mkW h u (new_model name)) (flash_steady_init (Some k)) = (w1, Ok tt) /\
  forall l, Forall is_setting l -> run_script (settle w1 l) (flash_steady_equations (Some k)) = (settle w1 l, Raise EAttribute).
Proof. exact flash_phase_refused. Qed.
Print Assumptions C52_flash_phases_refuted.

(** A dynamic flash of several phases cannot be made; one of a single phase can,
    but has no equations. *)
Theorem C52_flash_dynamic_refuted : forall lib w k, (2 <= k_number k)%Z ->
  exists w1, run_script w (flash_dynamic_init lib (Some k)) = (w1, Raise EName).
Proof. exact flash_dynamic_never. Qed.
Print Assumptions C52_flash_dynamic_refuted.

Theorem C52_flash_single_refuted : forall w k, (k_number k < 2)%Z ->
  run_script w (flash_dynamic_equations (Some k)) = (w, Raise EName).
Proof. exact flash_single_refused. Qed.
Print Assumptions C52_flash_single_refuted.

(** Water and oil; a flash of water alone. *)
Local Notation fresh := (mkW [] (fun _ => 0%nat) (new_model "F")).
Example C52_flash_case : (2 <= k_number emulsion)%Z /\ k_names emulsion = ["water"; "oil"] /\
  (forall q, In q (k_names emulsion) -> "water" <> (q ++ "_L")%string /\ "water" <> (q ++ "_V")%string) /\
  (k_number water_pack < 2)%Z /\ snd (run_script fresh (flash_dynamic_init water_lib (Some water_pack))) = Ok tt /\
  snd (run_script (fst (run_script fresh (flash_steady_init (Some water_pack)))) (flash_steady_equations (Some water_pack))) = Raise EName.
Proof.
  split; [discriminate|]. split; [reflexivity|]. split; [intros q [<-|[<-|[]]]; split; discriminate|]. split; [reflexivity|].
  split; vm_compute; reflexivity.
Qed.

(** ** C19: Objects of a model have different names. *)

(** The mass fractions of a phase in the liquid and in the vapour of a steady
    flash are two variables of one name, of which the model keeps one. *)
Local Notation made := (fst (run_script fresh (flash_steady_init (Some emulsion)))).
Local Lemma went {A} (r : mworld * res A) x : snd r = Ok x -> r = (fst r, Ok x).
Proof. destruct r. cbn. now intros ->. Qed.
Theorem C19_flash_refuted : exists k p w1 l1 l2 q1 q2, run_script fresh (flash_steady_init (Some k)) = (w1, Ok tt) /\ In p (k_names k) /\
  attr_qty (w_mod w1) ("w_" ++ p ++ "_L_out") = Ok l1 /\ attr_qty (w_mod w1) ("w_" ++ p ++ "_V_out") = Ok l2 /\ l1 <> l2 /\
  hget (w_heap w1) l1 = Some q1 /\ hget (w_heap w1) l2 = Some q2 /\ q_name q1 = q_name q2 /\
  dget (q_name q1) (m_vars (w_mod w1)) = Some l2 /\ ~ In l1 (map snd (m_vars (w_mod w1))).
Proof.
  assert (R : snd (run_script fresh (flash_steady_init (Some emulsion))) = Ok tt) by (vm_compute; reflexivity). apply went in R.
  set (q := mkQty KVariable "w_water_out_F" u_dimless (PFloat (S754_zero false)) false "F" false "output" false).
  exists emulsion, "water", made, 3%nat, 5%nat, q, q. split; [exact R|]. clear R.
  split; [left; reflexivity|]. split; [vm_compute; reflexivity|]. split; [vm_compute; reflexivity|].
  split; [discriminate|]. split; [vm_compute; reflexivity|]. split; [vm_compute; reflexivity|]. split; [reflexivity|].
  split; [vm_compute; reflexivity|]. intros I.
  assert (E : existsb (Nat.eqb 3) (map snd (m_vars (w_mod made))) = false) by (vm_compute; reflexivity).
  assert (T : existsb (Nat.eqb 3) (map snd (m_vars (w_mod made))) = true) by (apply existsb_exists; exists 3%nat; split; [exact I|reflexivity]).
  rewrite T in E. discriminate E.
Qed.
Print Assumptions C19_flash_refuted.

(** The liquid flow of a steady flash is the attribute ndot_L_out, but its name is
    another, under which alone the model knows it. *)
Theorem C19_flash_liquid_refuted : exists k w1 l q, run_script fresh (flash_steady_init (Some k)) = (w1, Ok tt) /\
  attr_qty (w_mod w1) "ndot_L_out" = Ok l /\ hget (w_heap w1) l = Some q /\ q_name q <> "ndot_L_out_F" /\
  dget "ndot_L_out_F" (m_vars (w_mod w1)) = None /\ dget (q_name q) (m_vars (w_mod w1)) = Some l.
Proof.
  assert (R : snd (run_script fresh (flash_steady_init (Some emulsion))) = Ok tt) by (vm_compute; reflexivity). apply went in R.
  exists emulsion, made. destruct (attr_qty (w_mod made) "ndot_L_out") as [l|] eqn:A.
  2: { exfalso. assert (B : match attr_qty (w_mod made) "ndot_L_out" with Ok _ => true | Raise _ => false end = true) by (vm_compute; reflexivity).
       rewrite A in B. discriminate B. }
  assert (Q : match attr_qty (w_mod made) "ndot_L_out" with
              | Ok l => match hget (w_heap made) l with
                        | Some q => String.eqb (q_name q) "ndo_L_out_F" && (match dget "ndo_L_out_F" (m_vars (w_mod made)) with Some i => Nat.eqb i l | None => false end)
                        | None => false end
              | Raise _ => false end = true) by (vm_compute; reflexivity).
  rewrite A in Q. destruct (hget (w_heap made) l) as [q|] eqn:H; [|discriminate Q]. apply andb_prop in Q. destruct Q as [Q1 Q2].
  apply String.eqb_eq in Q1. destruct (dget "ndo_L_out_F" (m_vars (w_mod made))) as [i|] eqn:D; [|discriminate Q2]. apply Nat.eqb_eq in Q2. subst i.
  exists l, q. split; [exact R|]. split; [reflexivity|]. split; [exact H|]. split; [rewrite Q1; discriminate|].
  split; [vm_compute; reflexivity|]. rewrite Q1. exact D.
Qed.
Print Assumptions C19_flash_liquid_refuted.
