(** Proofs about setValue, quantity arithmetic, sessions and Min/Max. *)
From Verif Require Import Base BaseFacts Num NumFacts UnitModel UnitFacts Sympy Node Build SpecUnits UnitThms
  SpecExpr SpecDims BuildFacts ClassFacts SpecQty.
From Coq Require Import Reals Lra.
Notation num := Verif.Num.num.

Lemma set_value_coherent q a u q' :
  is_float_arg a = false ->
  (forall v, In v (tags a u) -> comparable v (q_units q)) ->
  set_value q a u = Ok q' -> forall v, In v (tags a u) -> same_dimension v (q_units q).
Proof.
  intros Hf Hc H v Hv.
  assert (D : forall x, comparable x (q_units q) -> forall k, (let* b := coherent x (q_units q) in if b then Ok k else Raise EDimCoherence) = Ok q' -> same_dimension x (q_units q)).
  { intros x (A & B & N & F1 & F2) k E. destruct (coherent_decides x (q_units q) A B N F1 F2) as [b [Eb Hb]].
    rewrite Eb in E. simpl in E. destruct b; [now apply Hb|discriminate]. }
  destruct a as [p|[z|f]|]; simpl in *; try discriminate.
  - destruct (isinstance_of p q); [|discriminate].
    destruct u as [w|]; [discriminate|]. simpl in Hv. destruct Hv as [<-|[]].
    eapply D; [apply Hc; simpl; auto|exact H].
  - destruct u as [w|]; simpl in Hv; [|tauto]. destruct Hv as [<-|[]].
    destruct (Hc w (or_introl eq_refl)) as (A & B & N & F1 & F2).
    destruct (coherent_decides w (q_units q) A B N F1 F2) as [b [Eb Hb]].
    rewrite Eb in H. simpl in H. destruct b; [now apply Hb|discriminate].
Qed.

Lemma set_value_effect q a u q' :
  set_value q a u = Ok q' ->
  offered a = Some (q_value q') /\ q_spec q' = true /\
  q_units q' = q_units q /\ q_name q' = q_name q /\ q_kind q' = q_kind q /\
  q_owner q' = q_owner q /\ q_domain q' = q_domain q.
Proof.
  destruct a as [p|[z|f]|]; simpl.
  - destruct (isinstance_of p q); [|discriminate]. destruct u; [discriminate|].
    destruct (coherent (q_units p) (q_units q)) as [[]|]; simpl; try discriminate.
    intros H; injection H as <-. now repeat split.
  - destruct u as [v|].
    + destruct (coherent v (q_units q)) as [[]|]; simpl; try discriminate.
      intros H; injection H as <-. now repeat split.
    + intros H; injection H as <-. now repeat split.
  - intros H; injection H as <-. now repeat split.
  - discriminate.
Qed.

Lemma hget_hset_eq h l q : (l < List.length h)%nat -> hget (hset h l q) l = Some q.
Proof.
  unfold hget. revert l. induction h as [|x r IH]; intros l Hl; simpl in *; [lia|].
  destruct l; simpl; [reflexivity|]. apply IH. lia.
Qed.
Lemma hget_hset_neq h l i q : i <> l -> hget (hset h l q) i = hget h i.
Proof.
  unfold hget. revert l i. induction h as [|x r IH]; intros l i Hn; simpl; [reflexivity|].
  destruct l, i; simpl; try congruence. apply IH. congruence.
Qed.
Lemma hget_lt h l q : hget h l = Some q -> (l < List.length h)%nat.
Proof. unfold hget. intros H. apply nth_error_Some. congruence. Qed.
Lemma length_hset h l q : List.length (hset h l q) = List.length h.
Proof. revert l. induction h as [|x r IH]; intros [|l]; simpl; congruence. Qed.

Lemma heap_set_value_frame h l a u h' r :
  heap_set_value h l a u = (h', r) ->
  (forall e, r = Raise e -> h' = h) /\
  (forall i, i <> l -> hget h' i = hget h i) /\
  (r = Ok tt -> exists q q', hget h l = Some q /\ hget h' l = Some q' /\
     offered a = Some (q_value q') /\ q_spec q' = true /\
     q_units q' = q_units q /\ q_name q' = q_name q).
Proof.
  unfold heap_set_value. destruct (hget h l) as [q|] eqn:E.
  - destruct (set_value q a u) as [q'|e] eqn:Es; intros H; injection H as <- <-.
    + split; [discriminate|]. split; [intros; now apply hget_hset_neq|].
      intros _. destruct (set_value_effect _ _ _ _ Es) as (A & B & C & D & _).
      exists q, q'. repeat split; try assumption. apply hget_hset_eq. now apply hget_lt in E.
    + repeat split; discriminate.
  - intros H; injection H as <- <-. repeat split; discriminate.
Qed.

Lemma set_value_int_decided q z v :
  comparable v (q_units q) ->
  (same_dimension v (q_units q) -> exists q', set_value q (SVNum (PInt z)) (Some v) = Ok q') /\
  (~ same_dimension v (q_units q) -> set_value q (SVNum (PInt z)) (Some v) = Raise EUnexpectedValue).
Proof.
  intros (A & B & N & F1 & F2). destruct (coherent_decides v (q_units q) A B N F1 F2) as [b [Eb Hb]].
  simpl. rewrite Eb. simpl. destruct b.
  - split; [eauto|]. intros H. exfalso. apply H. now apply Hb.
  - split; [intros H; apply Hb in H; discriminate|reflexivity].
Qed.

Lemma set_value_qty_decided q p :
  comparable (q_units p) (q_units q) -> isinstance_of p q = true ->
  (same_dimension (q_units p) (q_units q) -> exists q', set_value q (SVQty p) None = Ok q') /\
  (~ same_dimension (q_units p) (q_units q) -> set_value q (SVQty p) None = Raise EDimCoherence).
Proof.
  intros (A & B & N & F1 & F2) Hi.
  destruct (coherent_decides (q_units p) (q_units q) A B N F1 F2) as [b [Eb Hb]].
  simpl. rewrite Hi, Eb. simpl. destruct b.
  - split; [eauto|]. intros H. exfalso. apply H. now apply Hb.
  - split; [intros H; apply Hb in H; discriminate|reflexivity].
Qed.

(** *** Quantity arithmetic *)
Lemma qty_arith_never q p :
  (forall r, qty_add q p <> Ok r) /\ (forall r, qty_sub q p <> Ok r) /\ (forall r, qty_mul q p <> Ok r) /\
  (forall r, qty_div q p <> Ok r) /\ (forall r, qty_pow q p <> Ok r).
Proof.
  repeat split; intros r; unfold qty_add, qty_sub, qty_mul, qty_div, qty_pow; try discriminate;
    destruct (coherent (q_units q) (q_units p)) as [[]|]; simpl; discriminate.
Qed.

Lemma qty_add_incoherent q p :
  comparable (q_units q) (q_units p) -> ~ same_dimension (q_units q) (q_units p) ->
  qty_add q p = Raise EDimCoherence /\ qty_sub q p = Raise EDimCoherence.
Proof.
  intros (A & B & N & F1 & F2) Hd.
  destruct (coherent_decides (q_units q) (q_units p) A B N F1 F2) as [b [Eb Hb]].
  unfold qty_add, qty_sub. rewrite Eb. simpl. destruct b; [|now split].
  exfalso. apply Hd. now apply Hb.
Qed.

(** *** Sessions *)
Lemma sstep_nodes s o : exists l, ss_nodes (sstep s o) = ss_nodes s ++ l.
Proof.
  destruct o as [e|l a u]; simpl.
  - destruct (build (ss_heap s) e); simpl; [eauto|]. exists []. now rewrite app_nil_r.
  - exists []. now rewrite app_nil_r.
Qed.

Lemma srun_nodes s ops : exists l, ss_nodes (srun s ops) = ss_nodes s ++ l.
Proof.
  revert s. induction ops as [|o r IH]; intros s; simpl.
  - exists []. now rewrite app_nil_r.
  - destruct (IH (sstep s o)) as [l ->]. destruct (sstep_nodes s o) as [l' ->].
    rewrite <- app_assoc. eauto.
Qed.

Lemma srun_keeps s ops i n : nth_error (ss_nodes s) i = Some n -> nth_error (ss_nodes (srun s ops)) i = Some n.
Proof.
  intros H. destruct (srun_nodes s ops) as [l ->]. rewrite nth_error_app1; [exact H|].
  apply nth_error_Some. congruence.
Qed.

Lemma snapshot_meaning h e n s ops i v en :
  ss_heap s = h -> build h e = Ok n -> nth_error (ss_nodes (sstep s (SBuild e))) i = Some n ->
  env_for h v en ->
  exists n', nth_error (ss_nodes (srun (sstep s (SBuild e)) ops)) i = Some n' /\
             den (nd_sym n') en = meaning h v e.
Proof.
  intros Hh Hb Hi He. exists n. split; [now apply srun_keeps|]. now apply build_meaning.
Qed.

Lemma rebuild_meaning s ops e n v en :
  let h' := ss_heap (srun s ops) in
  build h' e = Ok n -> env_for h' v en -> den (nd_sym n) en = meaning h' v e.
Proof. intros h' H He. now apply (build_meaning h'). Qed.

(** *** Min and Max *)
Lemma forallb_num l : forallb is_num_opd l = true <-> all_numbers l.
Proof.
  rewrite forallb_forall. unfold all_numbers. split; intros H o Ho; specialize (H o Ho); destruct o; simpl in *;
    try discriminate; eauto; destruct H as [? H]; discriminate.
Qed.
Lemma forallb_node l : forallb is_node_opd l = true <-> all_expressions l.
Proof.
  rewrite forallb_forall. unfold all_expressions. split; intros H o Ho; specialize (H o Ho); destruct o; simpl in *;
    try discriminate; eauto; destruct H as [? H]; discriminate.
Qed.

Lemma minmax_numbers mx l :
  all_numbers l -> exists n, node_minmax mx l = Ok n /\ nd_unit n = u_dimless /\
  (l <> [] -> forall en, den (nd_sym n) en =
     extremum mx (map (fun o => match o with ONum k => num_value k | _ => None end) l)).
Proof.
  intros H. assert (F := proj2 (forallb_num l) H). unfold node_minmax. rewrite F.
  eexists; split; [reflexivity|]. split; [reflexivity|]. intros Hl en. simpl.
  rewrite den_minmax by (destruct l; [congruence|discriminate]).
  rewrite map_map. f_equal. apply map_ext_in. intros o Ho. destruct (H o Ho) as [k ->]. reflexivity.
Qed.

Lemma minmax_expressions mx l :
  l <> [] -> all_expressions l -> node_minmax mx l = Raise EUnexpectedValue.
Proof.
  intros Hl H. unfold node_minmax. destruct (forallb is_num_opd l) eqn:E.
  - exfalso. apply forallb_num in E. destruct l as [|o r]; [congruence|].
    destruct (E o (or_introl eq_refl)) as [k ->]. destruct (H _ (or_introl eq_refl)) as [n Hn]. discriminate.
  - now rewrite (proj2 (forallb_node l) H).
Qed.

Lemma minmax_mixed mx l n0 k0 :
  In (ONode n0) l -> In (ONum k0) l ->
  exists n n1, node_minmax mx l = Ok n /\ In (ONode n1) l /\ nd_unit n = nd_unit n1 /\ nd_ty n = ty_lin.
Proof.
  intros H1 H2. unfold node_minmax.
  destruct (forallb is_num_opd l) eqn:E.
  { apply forallb_num in E. destruct (E _ H1) as [k Hk]. discriminate. }
  destruct (forallb is_node_opd l) eqn:F.
  { apply forallb_node in F. destruct (F _ H2) as [k Hk]. discriminate. }
  clear E F H2.
  assert (G : exists n1, first_unit l = Some (nd_unit n1) /\ In (ONode n1) l).
  { induction l as [|o r IH]; [destruct H1|]. destruct o as [m|k|]; simpl in *.
    - exists m. auto.
    - destruct H1 as [H1|H1]; [discriminate|]. destruct (IH H1) as [n1 [? ?]]. exists n1; auto.
    - destruct H1 as [H1|H1]; [discriminate|]. destruct (IH H1) as [n1 [? ?]]. exists n1; auto. }
  destruct G as [n1 [-> Hin]]. eexists _, n1. repeat split. exact Hin.
Qed.
