(** Proofs about the flash drums of the library. *)
From Verif Require Import Base BaseFacts Num UnitModel Sympy Node Build EquationModel ModelModel PackageModel UnitOpModel SpecUnitOps UnitLibFacts.
Notation num := Verif.Num.num.

(** ** Commands that create quantities *)

Definition creating (c : cmd) : bool :=
  match c with
  | CVar _ _ _ ex ty _ => negb ex || String.eqb ty "input" || String.eqb ty "output"
  | CPar _ _ _ _ | CCon _ _ _ _ => true
  | _ => false
  end.
Definition attr_of (c : cmd) : string :=
  match c with CVar a _ _ _ _ _ | CPar a _ _ _ | CCon a _ _ _ | CSet a _ _ | CDist a | CEq a _ _ _ => a end.

Lemma create_step w c : creating c = true -> exists w' l, run_cmd w c = (w', Ok tt) /\
  m_attrs (w_mod w') = dset (attr_of c) (AQty l) (m_attrs (w_mod w)).
Proof.
  destruct c as [a n u ex ty v|a n u v|a n u v|a v u|a|a n q ck]; intros H; try discriminate.
  - cbn [run_cmd attr_of]. unfold create_variable. destruct ex.
    + cbn [creating negb orb] in H. destruct (String.eqb ty "input").
      * cbn [assign_qty]. eexists. eexists. split; [reflexivity|]. reflexivity.
      * cbn [orb] in H. rewrite H. cbn [assign_qty]. eexists. eexists. split; [reflexivity|]. reflexivity.
    + cbn [assign_qty]. eexists. eexists. split; [reflexivity|]. reflexivity.
  - cbn [run_cmd attr_of]. unfold create_parameter. cbn [assign_qty]. eexists. eexists. split; [reflexivity|]. reflexivity.
  - cbn [run_cmd attr_of]. unfold create_constant. cbn [assign_qty]. eexists. eexists. split; [reflexivity|]. reflexivity.
Qed.

Lemma create_run cs : forall w, forallb creating cs = true -> exists w', run_cmds w cs = (w', Ok tt) /\
  forall a, dget a (m_attrs (w_mod w')) = None <-> dget a (m_attrs (w_mod w)) = None /\ ~ In a (map attr_of cs).
Proof.
  induction cs as [|c cs IH]; intros w H.
  - exists w. split; [reflexivity|]. intros a. simpl. tauto.
  - simpl in H. apply andb_prop in H. destruct H as [Hc H].
    destruct (create_step w c Hc) as (w1 & l & R1 & A1). destruct (IH w1 H) as (w2 & R2 & A2).
    exists w2. split; [cbn [run_cmds]; rewrite R1; exact R2|]. intros a. rewrite (A2 a), A1. simpl.
    destruct (string_dec (attr_of c) a) as [<-|N].
    + rewrite dget_dset_eq. split; [intros [E _]; discriminate|]. intros [_ E]. exfalso. apply E. now left.
    + rewrite dget_dset_neq by congruence. tauto.
Qed.

Lemma settle_attrs l : forall w, Forall is_setting l -> m_attrs (w_mod (settle w l)) = m_attrs (w_mod w).
Proof.
  induction l as [|c l IH]; intros w H; [reflexivity|]. apply Forall_cons_iff in H. destruct H as [Hc H].
  unfold settle in *. cbn [fold_left]. rewrite IH by exact H. destruct c as [a n u ex ty v|a n u v|a n u v|a v u|a|a n q ck]; try contradiction.
  cbn [run_cmd]. destruct (attr_qty (w_mod w) a) as [i|]; [|reflexivity].
  destruct (match v with SANum n => Ok (SVNum n) | SAAttr b => _ end) as [sv|]; [|reflexivity].
  destruct (heap_set_value (w_heap w) i sv u) as [h' r]. reflexivity.
Qed.

(** ** Names *)

Lemma last_char (a b : string) c d : (a ++ String c "" = b ++ String d "")%string -> c = d.
Proof.
  revert b. induction a as [|x a IH]; intros [|y b] H; simpl in H.
  - now injection H.
  - injection H as _ H. destruct b; discriminate.
  - injection H as _ H. destruct a; discriminate.
  - injection H as _ H. exact (IH b H).
Qed.

Lemma out_in p q : z_out p <> z_in q.
Proof.
  unfold z_out, z_in. intros H. apply append_inj_l_s in H.
  change "_out"%string with ("_ou" ++ "t")%string in H. change "_in"%string with ("_i" ++ "n")%string in H.
  rewrite <- !append_assoc_s in H. apply last_char in H. discriminate.
Qed.
Lemma out_liquid p q : z_out p = z_liquid q -> p = (q ++ "_L")%string.
Proof.
  unfold z_out, z_liquid. intros H. apply append_inj_l_s in H. change "_L_out"%string with ("_L" ++ "_out")%string in H.
  rewrite <- append_assoc_s in H. now apply append_inj_r_s in H.
Qed.
Lemma out_vapour p q : z_out p = z_vapour q -> p = (q ++ "_V")%string.
Proof.
  unfold z_out, z_vapour. intros H. apply append_inj_l_s in H. change "_V_out"%string with ("_V" ++ "_out")%string in H.
  rewrite <- append_assoc_s in H. now apply append_inj_r_s in H.
Qed.

Lemma creating_phases ps : forallb creating (flat_map flash_fractions ps) = true.
Proof. induction ps as [|p ps IH]; [reflexivity|exact IH]. Qed.

Definition flash_phases (k : pack) : list string := if (2 <=? k_number k)%Z then k_names k else [].
Lemma flash_phases_init k : fst (flash_steady_init (Some k)) = flat_map flash_fractions (flash_phases k) ++ flash_steady_vars.
Proof. unfold flash_phases, flash_steady_init. cbn [fst]. now destruct (2 <=? k_number k)%Z. Qed.

Lemma not_declared p ps : (forall q, In q ps -> p <> (q ++ "_L")%string /\ p <> (q ++ "_V")%string) ->
  ~ In (z_out p) (map attr_of (flat_map flash_fractions ps ++ flash_steady_vars)).
Proof.
  intros H. rewrite map_app. intros I. apply in_app_or in I. destruct I as [I|I].
  - induction ps as [|q ps IH]; [destruct I|]. cbn [flat_map] in I. rewrite map_app in I. apply in_app_or in I.
    destruct I as [I|I]; [|apply IH; [intros r Hr; apply H; now right|exact I]].
    destruct (H q (or_introl eq_refl)) as [NL NV].
    cbn [flash_fractions map attr_of hidden named_fraction] in I.
    destruct I as [I|[I|[I|[I|[I|[I|[]]]]]]]; symmetry in I; try (unfold z_out in I; discriminate I).
    + exact (out_in p q I).
    + exact (NL (out_liquid p q I)).
    + exact (NV (out_vapour p q I)).
  - unfold z_out in I. simpl in I. repeat (destruct I as [I|I]; [discriminate|]). exact I.
Qed.

(** A steady flash can be made, whatever the package. *)
Lemma flash_made h u name k : exists w1, run_script (mkW h u (new_model name)) (flash_steady_init (Some k)) = (w1, Ok tt) /\
  (forall p, (forall q, In q (flash_phases k) -> p <> (q ++ "_L")%string /\ p <> (q ++ "_V")%string) -> dget (z_out p) (m_attrs (w_mod w1)) = None).
Proof.
  destruct (create_run (fst (flash_steady_init (Some k))) (mkW h u (new_model name))) as (w1 & R & A).
  { rewrite flash_phases_init, forallb_app, creating_phases. reflexivity. }
  exists w1. split; [unfold run_script; rewrite R; reflexivity|]. intros p Hp. apply A. split; [reflexivity|].
  rewrite flash_phases_init. now apply not_declared.
Qed.

(** With several phases its equations read an attribute that is not there. *)
Lemma flash_phase_refused h u name k p ps : (2 <= k_number k)%Z -> k_names k = p :: ps ->
  (forall q, In q (k_names k) -> p <> (q ++ "_L")%string /\ p <> (q ++ "_V")%string) ->
  exists w1, run_script (mkW h u (new_model name)) (flash_steady_init (Some k)) = (w1, Ok tt) /\
  forall l, Forall is_setting l -> run_script (settle w1 l) (flash_steady_equations (Some k)) = (settle w1 l, Raise EAttribute).
Proof.
  intros N K H. destruct (flash_made h u name k) as (w1 & R & A). exists w1. split; [exact R|]. intros l Hl.
  assert (B : (2 <=? k_number k)%Z = true) by (apply Z.leb_le; exact N).
  assert (D : dget (z_out p) (m_attrs (w_mod (settle w1 l))) = None).
  { rewrite (settle_attrs l w1 Hl). apply A. unfold flash_phases. rewrite B. exact H. }
  unfold run_script, flash_steady_equations. cbn [fst snd]. rewrite B, K. cbn [flat_map flash_phase app run_cmds run_cmd eqc minus resolve_eq resolve].
  unfold attr_qty at 1. rewrite D. reflexivity.
Qed.

(** With one phase an undefined name ends them. *)
Lemma flash_single_refused w k : (k_number k < 2)%Z ->
  run_script w (flash_dynamic_equations (Some k)) = (w, Raise EName).
Proof. intros N. unfold run_script, flash_dynamic_equations, phase_eqs. rewrite (proj2 (Z.leb_gt _ _) N). reflexivity. Qed.

Lemma flash_dynamic_refused lib w k : (2 <= k_number k)%Z -> forall w1, run_cmds w (fractions (k_names k) ++ flash_dynamic_vars) = (w1, Ok tt) ->
  run_script w (flash_dynamic_init lib (Some k)) = (w1, Raise EName).
Proof. intros N w1 R. unfold run_script, flash_dynamic_init. rewrite (proj2 (Z.leb_le _ _) N). cbn [fst snd]. now rewrite R. Qed.

Lemma creating_fractions ps : forallb creating (fractions ps) = true.
Proof. induction ps as [|p ps IH]; [reflexivity|exact IH]. Qed.

Lemma flash_dynamic_never lib w k : (2 <= k_number k)%Z -> exists w1, run_script w (flash_dynamic_init lib (Some k)) = (w1, Raise EName).
Proof.
  intros N. destruct (create_run (fractions (k_names k) ++ flash_dynamic_vars) w) as (w1 & R & _).
  { rewrite forallb_app, creating_fractions. reflexivity. }
  exists w1. now apply flash_dynamic_refused.
Qed.
