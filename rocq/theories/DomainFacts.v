(** Facts about domains. *)
From Verif Require Import Base BaseFacts Num Sympy DomainModel SolverModel SpecSolver ModelFacts SolverFacts.

Section DomainFacts.
Context {V : Type}.
Implicit Types (d : domain V) (m : matrix V).

(** ** Sequences of operations *)
Lemma once_in x l : In x (once l) <-> In x l.
Proof.
  induction l as [|y l IH]; [reflexivity|]. cbn [once In]. rewrite filter_In, IH. split.
  - intros [->|[H _]]; auto.
  - intros [->|H]; [now left|]. destruct (String.eqb_spec y x) as [->|Hne]; [now left|right]. split; [exact H|reflexivity].
Qed.
Lemma once_nodup l : NoDup (once l).
Proof.
  induction l as [|y l IH]; cbn [once]; constructor.
  - rewrite filter_In. intros [_ H]. now rewrite String.eqb_refl in H.
  - now apply NoDup_filter.
Qed.
Lemma once_app l x : once (l ++ [x]) = if mem_str x l then once l else once l ++ [x].
Proof.
  induction l as [|y l IH]; [reflexivity|]. cbn [app once]. rewrite IH.
  replace (mem_str x (y :: l)) with (String.eqb x y || mem_str x l) by reflexivity.
  destruct (mem_str x l) eqn:M; [now rewrite Bool.orb_true_r|]. rewrite Bool.orb_false_r, filter_app. cbn [filter].
  rewrite (String.eqb_sym y x). destruct (String.eqb x y); cbn [negb]; [now rewrite app_nil_r|reflexivity].
Qed.

Lemma dset_keys_unit x l : NoDup l -> dkeys (dset x tt (map (fun y => (y, tt)) l)) = if mem_str x l then l else l ++ [x].
Proof.
  assert (K : dkeys (map (fun y => (y, tt)) l) = l).
  { unfold dkeys. rewrite map_map. cbn. apply map_id. }
  intros N. destruct (mem_str x l) eqn:M.
  - apply mem_str_spec in M. rewrite dkeys_dset_in; [exact K|]. now rewrite K.
  - rewrite dkeys_dset_notin; [now rewrite K|]. rewrite K. intros H. apply mem_str_spec in H. congruence.
Qed.

Definition shape (ind : list string) (done : list (dact V)) (d : domain V) : Prop :=
  d_ind d = ind /\ d_dep d = distributed done.

Lemma do_dact_shape ind done d a : shape ind done d -> shape ind (done ++ [a]) (do_dact d a).
Proof.
  intros [I D]. unfold shape, distributed in *. rewrite flat_map_app. cbn [flat_map].
  destruct a as [x| |m|r]; cbn [app do_dact]; rewrite ?app_nil_r.
  - unfold distribute, DomainModel.set_domain. cbn [d_ind d_dep]. split; [exact I|]. rewrite once_app, D, dset_keys_unit by apply once_nodup.
    set (L := flat_map _ done). assert (E : mem_str x (once L) = mem_str x L).
    { destruct (mem_str x (once L)) eqn:M; destruct (mem_str x L) eqn:M'; try reflexivity.
      - apply mem_str_spec in M. rewrite once_in in M. apply mem_str_spec in M. congruence.
      - apply mem_str_spec in M'. rewrite <- once_in in M'. apply mem_str_spec in M'. congruence. }
    now rewrite E.
  - auto.
  - unfold register. destruct (rev (d_ind d)); [auto|]. destruct (d_values d); [|auto]. destruct (dget _ _); [|auto].
    match goal with |- context [match ?r with Ok _ => _ | Raise _ => _ end] => destruct r end; auto.
  - unfold rename_headers. destruct (d_values d); auto.
Qed.
Lemma run_dacts_shape ind l : NoDup ind -> shape ind l (run_dacts (@new_domain V ind) l).
Proof.
  intros N. assert (G : forall l done d, shape ind done d -> shape ind (done ++ l) (run_dacts d l)).
  { clear l. induction l as [|a l IH]; intros done d S; [now rewrite app_nil_r|]. unfold run_dacts. cbn [fold_left].
    replace (done ++ a :: l) with ((done ++ [a]) ++ l) by (now rewrite <- app_assoc). apply IH. now apply do_dact_shape. }
  apply (G l []). split; [|reflexivity]. unfold new_domain. cbn [d_ind]. rewrite dof_nodup_id.
  - unfold dkeys. rewrite map_map. cbn. apply map_id.
  - unfold dkeys. rewrite map_map. cbn. now rewrite map_id.
Qed.

Lemma set_domain_cleared d : NoDup (d_ind d) -> cleared (DomainModel.set_domain d).
Proof.
  intros N. unfold cleared, DomainModel.set_domain. cbn [d_values d_ind d_dep]. eexists. split; [reflexivity|].
  assert (K : dkeys (map (fun x => (x, prototype d)) (d_ind d)) = d_ind d) by (unfold dkeys; rewrite map_map; cbn; apply map_id).
  rewrite dof_nodup_id by (now rewrite K). split; [exact K|]. intros k f H. apply in_map_iff in H. destruct H as (x & E & _).
  now injection E as <- <-.
Qed.

Lemma reset_exact ind l : NoDup ind ->
  let d := reset (run_dacts (@new_domain V ind) l) in d_ind d = ind /\ d_dep d = distributed l /\ cleared d.
Proof.
  intros N. destruct (run_dacts_shape ind l N) as [I D]. cbv zeta. split; [exact I|]. split; [exact D|].
  apply set_domain_cleared. now rewrite I.
Qed.

(** ** Recording *)
Definition heads (d : domain V) : list label := map LName (d_ind d ++ d_dep d).

Lemma cleared_get d x t : cleared d -> d_values d = Some t -> In x (d_ind d) -> dget x t = Some (mkF (heads d) []).
Proof.
  intros (t' & E & K & F) E' H. rewrite E in E'. injection E' as <-. rewrite <- K in H.
  destruct (dget x t') as [f|] eqn:G.
  - now rewrite (F x f (dget_some_in _ _ _ G)).
  - exfalso. apply dget_none_iff in G. now apply G.
Qed.

Lemma register_cleared d t m : cleared d -> d_ind d = [t] ->
  register d m = if Nat.eqb (mx_width m) (S (List.length (d_dep d)))
                 then (mkD (d_ind d) (d_dep d) (Some [(t, mkF (heads d) (mx_rows m))]), Ok tt) else (d, Raise EValue).
Proof.
  intros C I. assert (C' := C). destruct C' as (tb & E & K & F). unfold register. rewrite E.
  assert (G := cleared_get d t tb C E). rewrite I in *. cbn [rev app]. rewrite G by now left.
  unfold frame_empty. cbn [f_rows f_cols]. unfold data_frame.
  assert (L : List.length (heads d) = S (List.length (d_dep d))) by (unfold heads; rewrite map_length, I; reflexivity). rewrite L.
  destruct (Nat.eqb (mx_width m) (S (List.length (d_dep d)))); [|reflexivity].
  destruct tb as [|[k f] [|]]; try discriminate K. cbn [dkeys map fst] in K. injection K as ->.
  unfold heads. rewrite I. unfold dset. now rewrite String.eqb_refl.
Qed.

Lemma column_at_cons (ts : list V) (rows : list (list V)) : List.length ts = List.length rows -> forall j,
  column_at (S j) (map (fun tr => fst tr :: snd tr) (List.combine ts rows)) = column_at j rows.
Proof.
  revert rows. induction ts as [|t ts IH]; intros [|r rows] L j; try discriminate; [reflexivity|].
  cbn [List.combine map column_at fst snd nth_error]. rewrite IH by (simpl in L; lia). reflexivity.
Qed.
Lemma column_at_times (ts : list V) (rows : list (list V)) : List.length ts = List.length rows ->
  column_at 0 (map (fun tr => fst tr :: snd tr) (List.combine ts rows)) = Some ts.
Proof.
  revert rows. induction ts as [|t ts IH]; intros [|r rows] L; try discriminate; [reflexivity|].
  cbn [List.combine map column_at fst snd nth_error]. now rewrite IH by (simpl in L; lia).
Qed.
Lemma column_at_trajectory j (rows : list (list V)) col : column_at j rows = Some col <-> trajectory j rows col.
Proof.
  unfold trajectory. revert col. induction rows as [|r rows IH]; intros col; cbn [column_at].
  - split; [intros H; injection H as <-; constructor|]. now inversion 1.
  - destruct (nth_error r j) as [v|] eqn:N; [|split; [discriminate|]; inversion 1; congruence].
    destruct (column_at j rows) as [s|].
    + split.
      * intros H. injection H as <-. constructor; [exact N|]. now apply IH.
      * inversion 1; subst. f_equal. assert (v = y) by congruence. subst. f_equal.
        match goal with H : Forall2 _ rows _ |- _ => apply IH in H; now injection H end.
    + split; [discriminate|]. inversion 1; subst. match goal with H : Forall2 _ rows _ |- _ => apply IH in H; discriminate end.
Qed.
Lemma trajectory_exists j (rows : list (list V)) : (forall r, In r rows -> (j < List.length r)%nat) -> exists col, column_at j rows = Some col.
Proof.
  induction rows as [|r rows IH]; intros H; cbn [column_at]; [eauto|].
  assert (Hr := H r (or_introl eq_refl)). apply nth_error_Some in Hr. destruct (nth_error r j) as [v|]; [|congruence].
  destruct IH as (s & ->); [intros r' Hr'; apply H; now right|]. eauto.
Qed.

Lemma label_eqb_spec a b : reflect (a = b) (label_eqb a b).
Proof.
  destruct a as [x|n], b as [y|k]; cbn; try (constructor; discriminate).
  - destruct (String.eqb_spec x y); constructor; congruence.
  - destruct (Nat.eqb_spec n k); constructor; congruence.
Qed.
Lemma col_index_nth l : forall cols i, NoDup cols -> nth_error cols i = Some l -> col_index l cols = Some i.
Proof.
  induction cols as [|c cols IH]; intros i N E; [destruct i; discriminate|]. apply NoDup_cons_iff in N. destruct N as [N1 N2].
  destruct i as [|i]; cbn [nth_error col_index] in *.
  - injection E as ->. now destruct (label_eqb_spec l l).
  - destruct (label_eqb_spec l c) as [->|_]; [exfalso; apply N1; now apply nth_error_In in E|]. now rewrite (IH i).
Qed.

(** The recorded table, with renamed headers. *)
Lemma record_labels d t times y names d' : cleared d -> d_ind d = [t] -> mx_ok y -> record_run d times y names = (d', Ok tt) ->
  NoDup (map (rename_label names) (heads d)) ->
  d_ind d' = d_ind d /\ d_dep d' = d_dep d /\ mx_width y = List.length (d_dep d) /\ List.length times = List.length (mx_rows y) /\
  column d' t (rename_label names (LName t)) = Some times /\
  (forall j x, nth_error (d_dep d) j = Some x ->
     exists col, column d' t (rename_label names (LName x)) = Some col /\ trajectory j (mx_rows y) col).
Proof.
  intros C I O. unfold record_run, hstack. destruct (Nat.eqb_spec (List.length times) (List.length (mx_rows y))) as [L|]; [|discriminate].
  rewrite (register_cleared d t _ C I). cbn [mx_width mx_rows].
  destruct (Nat.eqb_spec (S (mx_width y)) (S (List.length (d_dep d)))) as [W|]; [|discriminate]. injection W as W.
  unfold rename_headers. cbn [d_values d_ind d_dep map fst snd f_cols f_rows]. intros E N. injection E as <-.
  cbn [d_ind d_dep]. repeat split; auto.
  - unfold column. cbn [d_values dget]. rewrite String.eqb_refl. cbn [f_cols f_rows].
    rewrite (col_index_nth _ _ 0 N); [now apply column_at_times|]. unfold heads. now rewrite I.
  - intros j x Hj.
    assert (Hi : nth_error (map (rename_label names) (heads d)) (S j) = Some (rename_label names (LName x))).
    { unfold heads. rewrite I. cbn [app map nth_error]. now rewrite !nth_error_map, Hj. }
    destruct (trajectory_exists j (mx_rows y)) as (col & Ec).
    { intros r Hr. rewrite (O r Hr), W. apply nth_error_Some. congruence. }
    exists col. split; [|now apply column_at_trajectory].
    unfold column. cbn [d_values dget]. rewrite String.eqb_refl. cbn [f_cols f_rows].
    rewrite (col_index_nth _ _ (S j) N Hi). now rewrite column_at_cons by exact L.
Qed.

Lemma relabel names x : rename_label names (LName x) = LName (header names x).
Proof. cbn. unfold header. now destruct (dget x names). Qed.
Lemma relabel_nodup names d : NoDup (map (header names) (d_ind d ++ d_dep d)) -> NoDup (map (rename_label names) (heads d)).
Proof.
  unfold heads. rewrite map_map. intros N. erewrite map_ext by (intros; apply relabel). rewrite <- (map_map (header names) LName).
  revert N. generalize (map (header names) (d_ind d ++ d_dep d)). induction 1 as [|x l H N IH]; cbn [map]; constructor; [|exact IH].
  intros Hin. apply in_map_iff in Hin. destruct Hin as (y & E & Hy). injection E as ->. contradiction.
Qed.
Lemma record_exact d t times y names d' : cleared d -> d_ind d = [t] -> mx_ok y -> record_run d times y names = (d', Ok tt) ->
  NoDup (map (header names) (d_ind d ++ d_dep d)) ->
  d_ind d' = d_ind d /\ d_dep d' = d_dep d /\ mx_width y = List.length (d_dep d) /\ List.length times = List.length (mx_rows y) /\
  column d' t (LName (header names t)) = Some times /\
  (forall j x, nth_error (d_dep d) j = Some x ->
     exists col, column d' t (LName (header names x)) = Some col /\ trajectory j (mx_rows y) col).
Proof.
  intros C I O R N. destruct (record_labels d t times y names d' C I O R (relabel_nodup _ _ N)) as (A & B & E & F & T & K).
  rewrite relabel in T. repeat (split; [assumption|]). intros j x Hj. rewrite <- relabel. exact (K j x Hj).
Qed.

Lemma record_columns d d' t times y names (ode : list (string * sx)) :
  cleared d -> d_ind d = [t] -> mx_ok y -> record_run d times y names = (d', Ok tt) ->
  NoDup (map (header names) (d_ind d ++ d_dep d)) -> d_dep d = map fst ode ->
  column d' t (LName (header names t)) = Some times /\
  forall j x r, nth_error ode j = Some (x, r) ->
    exists col, column d' t (LName (header names x)) = Some col /\ trajectory j (mx_rows y) col.
Proof.
  intros C I O R N E. destruct (record_exact d t times y names d' C I O R N) as (_ & _ & _ & _ & T & K).
  split; [exact T|]. intros j x r H. apply K. now rewrite E, nth_error_map, H.
Qed.

(** A second block of rows. *)
Lemma register_again d t m1 m2 : cleared d -> d_ind d = [t] -> mx_rows m1 <> [] ->
  mx_width m1 = S (List.length (d_dep d)) -> mx_width m2 = mx_width m1 ->
  let d1 := fst (register d m1) in
  register d1 m2 =
    if Nat.eqb (mx_width m1) (List.length (mx_rows m1))
    then (mkD (d_ind d) (d_dep d) (Some [(t, mkF (map LNum (seq 0 (List.length (mx_rows m1)))) (mx_rows m1 ++ mx_rows m2))]), Ok tt)
    else (d1, Raise EValue).
Proof.
  intros C I Nr W1 W2. cbv zeta. rewrite (register_cleared d t m1 C I), W1, Nat.eqb_refl. cbn [fst].
  unfold register. cbn [d_ind d_values d_dep]. rewrite I. cbn [rev app dget]. rewrite String.eqb_refl.
  assert (E : frame_empty (mkF (heads d) (mx_rows m1)) = false).
  { unfold frame_empty. cbn [f_rows f_cols]. destruct (mx_rows m1); [congruence|]. unfold heads. now rewrite I. }
  rewrite E. cbn [List.length Nat.add]. rewrite W2, W1, Nat.eqb_refl. unfold vstack. cbn [mx_width mx_rows f_cols f_rows].
  assert (L : List.length (heads d) = S (List.length (d_dep d))) by (unfold heads; rewrite map_length, I; reflexivity).
  rewrite L, W2, W1, Nat.eqb_refl. cbn [rbind]. unfold data_frame. cbn [mx_width mx_rows]. unfold row_index. cbn [f_rows].
  rewrite map_length, seq_length. destruct (Nat.eqb (S (List.length (d_dep d))) (List.length (mx_rows m1))); [|reflexivity].
  cbn [dset]. now rewrite String.eqb_refl.
Qed.
End DomainFacts.
