(** Proofs about ports. *)
From Verif Require Import Base BaseFacts PackageModel PackageFacts PortsModel SpecPorts.
Open Scope nat_scope.

(** Entries and contents of the ports dictionary [D]. *)
Definition entry (s : portstore) (D : nat) (out : bool) (n : string) : option nat :=
  dget n (if out then p_out (dict_at s D) else p_in (dict_at s D)).
Definition content (s : portstore) (D : nat) (out : bool) (n : string) : option (list stream) :=
  option_map (list_at s) (entry s D out n).

Lemma port_content s i o out n : nth_error (v_objs s) i = Some o -> port_of s i out n = content s (o_ports o) out n.
Proof. intros H. unfold port_of. now rewrite H. Qed.

(** References are valid and no list is used twice. *)
Definition tidy (s : portstore) : Prop :=
  (forall i o, nth_error (v_objs s) i = Some o -> o_ports o < List.length (v_dicts s)) /\
  (forall D out n r, entry s D out n = Some r -> r < List.length (v_lists s)) /\
  (forall D out n D' out' n' r, entry s D out n = Some r -> entry s D' out' n' = Some r ->
     D = D' /\ out = out' /\ n = n').

Definition hit (D0 : nat) (out0 : bool) (n0 : string) (D : nat) (out : bool) (n : string) : bool :=
  (Nat.eqb D D0 && Bool.eqb out out0 && String.eqb n n0)%bool.

Lemma hit_spec D0 out0 n0 D out n : reflect (D = D0 /\ out = out0 /\ n = n0) (hit D0 out0 n0 D out n).
Proof.
  unfold hit. destruct (Nat.eqb_spec D D0); [|constructor; tauto].
  destruct (Bool.eqb_spec out out0); [|constructor; tauto].
  destruct (String.eqb_spec n n0); simpl; constructor; tauto.
Qed.

(** The dictionary after one entry was set. *)
Lemma entry_set lists dicts objs D0 (out0 : bool) n0 r :
  D0 < List.length dicts ->
  let s := mkPS lists dicts objs in
  let d := dict_at s D0 in
  let d' := if out0 then mkPorts (p_in d) (dset n0 r (p_out d)) else mkPorts (dset n0 r (p_in d)) (p_out d) in
  forall lists' objs' D out n,
  entry (mkPS lists' (upd D0 d' dicts) objs') D out n = if hit D0 out0 n0 D out n then Some r else entry s D out n.
Proof.
  intros L s d d' lists' objs' D out n. unfold entry, dict_at. simpl. rewrite nth_upd by exact L.
  destruct (hit_spec D0 out0 n0 D out n) as [[-> [-> ->]]|Hn].
  - rewrite Nat.eqb_refl. unfold d'. destruct out0; simpl; apply dget_dset_eq.
  - destruct (Nat.eqb_spec D D0) as [->|_]; [|reflexivity].
    unfold d', d, dict_at, s. simpl. destruct out0, out; simpl; try reflexivity; apply dget_dset_neq; intros ->; tauto.
Qed.

(** A new list put on a port. *)
Lemma set_fresh (s : portstore) D0 (out0 : bool) (n0 : string) x objs' : tidy s -> D0 < List.length (v_dicts s) ->
  (forall i o, nth_error objs' i = Some o -> o_ports o < List.length (v_dicts s)) ->
  let d := dict_at s D0 in
  let r := List.length (v_lists s) in
  let d' := if out0 then mkPorts (p_in d) (dset n0 r (p_out d)) else mkPorts (dset n0 r (p_in d)) (p_out d) in
  let s' := mkPS (v_lists s ++ [x]) (upd D0 d' (v_dicts s)) objs' in
  tidy s' /\ (forall D out n, content s' D out n = if hit D0 out0 n0 D out n then Some x else content s D out n).
Proof.
  intros [T1 [T2 T3]] L HO d r d' s'.
  pose proof (entry_set (v_lists s) (v_dicts s) (v_objs s) D0 out0 n0 r L) as E. destruct s as [ls ds os]. simpl in *.
  specialize (E (ls ++ [x]) objs'). fold d d' s' in E.
  split; [split; [|split]|].
  - intros i o H. simpl. rewrite upd_length. now apply (HO i).
  - intros D out n r' H. rewrite E in H. simpl. rewrite app_length. simpl.
    destruct (hit _ _ _ _ _ _); [injection H as <-; unfold r; lia|]. apply T2 in H. simpl in H. lia.
  - intros D out n D' out' n' r' H H'. rewrite E in H, H'.
    destruct (hit_spec D0 out0 n0 D out n) as [[-> [-> ->]]|_]; destruct (hit_spec D0 out0 n0 D' out' n') as [[-> [-> ->]]|_].
    + auto.
    + injection H as <-. apply T2 in H'. unfold r in H'. simpl in H'. lia.
    + injection H' as <-. apply T2 in H. unfold r in H. simpl in H. lia.
    + eapply T3; eassumption.
  - intros D out n. unfold content. rewrite E. destruct (hit _ _ _ _ _ _).
    + simpl. unfold list_at. simpl. unfold r. now rewrite app_nth2, Nat.sub_diag by lia.
    + destruct (entry _ D out n) as [r'|] eqn:F; [|reflexivity]. apply T2 in F. simpl in *.
      unfold list_at. simpl. now rewrite app_nth1.
Qed.

(** An existing list extended in place. *)
Lemma set_extend (s : portstore) D0 (n0 : string) (r : nat) x objs' : tidy s -> D0 < List.length (v_dicts s) ->
  (forall i o, nth_error objs' i = Some o -> o_ports o < List.length (v_dicts s)) ->
  entry s D0 false n0 = Some r ->
  let d := dict_at s D0 in
  let d' := mkPorts (dset n0 r (p_in d)) (p_out d) in
  let s' := mkPS (upd r (list_at s r ++ x) (v_lists s)) (upd D0 d' (v_dicts s)) objs' in
  tidy s' /\ (forall D out n, content s' D out n = if hit D0 false n0 D out n then Some (list_at s r ++ x) else content s D out n).
Proof.
  intros [T1 [T2 T3]] L HO HR d d' s'.
  pose proof (entry_set (v_lists s) (v_dicts s) (v_objs s) D0 false n0 r L) as E. destruct s as [ls ds os]. simpl in *.
  specialize (E (upd r (list_at (mkPS ls ds os) r ++ x) ls) objs'). fold d d' s' in E.
  assert (E' : forall D out n, entry s' D out n = entry (mkPS ls ds os) D out n).
  { intros D out n. rewrite E. destruct (hit_spec D0 false n0 D out n) as [[-> [-> ->]]|_]; congruence. }
  pose proof (T2 _ _ _ _ HR) as Lr. simpl in Lr.
  split; [split; [|split]|].
  - intros i o H. simpl. rewrite upd_length. now apply (HO i).
  - intros D out n r' H. rewrite E' in H. simpl. rewrite upd_length. exact (T2 _ _ _ _ H).
  - intros D out n D' out' n' r' H H'. rewrite E' in H, H'. eapply T3; eassumption.
  - intros D out n. unfold content. rewrite E'. destruct (hit_spec D0 false n0 D out n) as [[-> [-> ->]]|Hn].
    + rewrite HR. simpl. unfold list_at. simpl. now rewrite nth_upd, Nat.eqb_refl.
    + destruct (entry _ D out n) as [r'|] eqn:F; [|reflexivity]. simpl. unfold list_at. simpl. rewrite nth_upd by exact Lr.
      destruct (Nat.eqb_spec r' r) as [->|_]; [|reflexivity]. exfalso. apply Hn. eapply T3; eassumption.
Qed.

(** What a call leaves on the port. *)
Definition after_call (unit : bool) (old : option (list stream)) (x : list stream) : list stream :=
  if unit then x else match old with Some l => l ++ x | None => x end.

Lemma set_objs s i (o o' : pobj) : nth_error (v_objs s) i = Some o -> o_ports o' = o_ports o -> tidy s ->
  forall k q, nth_error (upd i o' (v_objs s)) k = Some q -> o_ports q < List.length (v_dicts s).
Proof.
  intros Ho Ep [T _] k q H. rewrite nth_error_upd in H by (apply nth_error_Some; congruence).
  destruct (Nat.eqb k i); [injection H as <-; rewrite Ep; eauto|eauto].
Qed.

Lemma set_port_spec s i o out n a : tidy s -> nth_error (v_objs s) i = Some o ->
  let s' := fst (set_port out s i n a) in
  tidy s' /\
  (forall D out' n', content s' D out' n' =
     if (o_unit o || negb out)%bool && hit (o_ports o) out n D out' n'
     then Some (after_call (o_unit o) (content s (o_ports o) out n) (handed a)) else content s D out' n') /\
  (forall k, option_map o_ports (nth_error (v_objs s') k) = option_map o_ports (nth_error (v_objs s) k)) /\
  (forall k, option_map o_unit (nth_error (v_objs s') k) = option_map o_unit (nth_error (v_objs s) k)) /\
  List.length (v_dicts s') = List.length (v_dicts s) /\
  (forall k, k <> i -> nth_error (v_objs s') k = nth_error (v_objs s) k).
Proof.
  intros T Ho s'. assert (L : i < List.length (v_objs s)) by (apply nth_error_Some; congruence).
  pose proof (proj1 T _ _ Ho) as LD.
  assert (OB : forall f : pobj, o_ports f = o_ports o -> o_unit f = o_unit o ->
    (forall k, option_map o_ports (nth_error (upd i f (v_objs s)) k) = option_map o_ports (nth_error (v_objs s) k)) /\
    (forall k, option_map o_unit (nth_error (upd i f (v_objs s)) k) = option_map o_unit (nth_error (v_objs s) k)) /\
    (forall k, k <> i -> nth_error (upd i f (v_objs s)) k = nth_error (v_objs s) k)).
  { intros f H1 H2. split; [|split]; intros k; [| |intros Hk; apply upd_other; congruence];
      rewrite nth_error_upd by exact L; destruct (Nat.eqb_spec k i) as [->|_]; auto; rewrite Ho; simpl; congruence. }
  unfold s', set_port. rewrite Ho. destruct (o_unit o) eqn:Eu.
  - simpl fst. unfold unit_set. cbv zeta.
    set (o' := if out then mkObj (o_unit o) (o_ports o) (o_inlets o) (o_inref o) _ _ _ else _).
    assert (P1 : o_ports o' = o_ports o) by (unfold o'; destruct out; reflexivity).
    assert (P2 : o_unit o' = true) by (unfold o'; destruct out; exact Eu).
    destruct (set_fresh s (o_ports o) out n (handed a) (upd i o' (v_objs s)) T LD) as [T' C].
    { now apply (set_objs s i o). }
    split; [exact T'|]. split; [intros D out' n'; rewrite C; reflexivity|].
    destruct (OB o' P1) as [A [B C']]; [congruence|]. simpl. rewrite upd_length. auto.
  - destruct out; simpl fst.
    + split; [exact T|]. repeat split; intros; auto.
    + unfold model_set_inlets. destruct (dget n (p_in (dict_at s (o_ports o)))) as [r|] eqn:Er.
      * set (o' := with_inlets o _). assert (P1 : o_ports o' = o_ports o) by reflexivity.
        assert (P2 : o_unit o' = false) by exact Eu.
        destruct (set_extend s (o_ports o) n r (handed a) (upd i o' (v_objs s)) T LD) as [T' C].
        { now apply (set_objs s i o). } { exact Er. }
        split; [exact T'|]. split.
        { intros D out' n'. rewrite C. simpl. unfold content at 2, entry. rewrite Er. reflexivity. }
        destruct (OB o' P1 P2) as [A [B C']]. simpl. rewrite upd_length. auto.
      * set (o' := with_inlets o _). assert (P1 : o_ports o' = o_ports o) by reflexivity.
        assert (P2 : o_unit o' = false) by exact Eu.
        destruct (set_fresh s (o_ports o) false n (handed a) (upd i o' (v_objs s)) T LD) as [T' C].
        { now apply (set_objs s i o). }
        split; [exact T'|]. split.
        { intros D out' n'. rewrite C. simpl. unfold content at 2, entry. rewrite Er. reflexivity. }
        destruct (OB o' P1 P2) as [A [B C']]. simpl. rewrite upd_length. auto.
Qed.

Lemma new_object_tidy u n m s a : tidy s -> tidy (fst (new_object u n m s a)) /\
  (forall D out k, content (fst (new_object u n m s a)) D out k = content s D out k) /\
  (forall k q, nth_error (v_objs s) k = Some q -> nth_error (v_objs (fst (new_object u n m s a))) k = Some q).
Proof.
  intros [T1 [T2 T3]]. unfold new_object.
  destruct (match a with PortsDefault => _ | PortsNew => _ | PortsSame i => _ end) as [dicts i] eqn:Ea.
  destruct (Nat.ltb i (List.length dicts)) eqn:L;
    [|exact (conj (conj T1 (conj T2 T3)) (conj (fun _ _ _ => eq_refl) (fun _ _ H => H)))]. apply Nat.ltb_lt in L. simpl.
  assert (Ed : forall D, nth D dicts (mkPorts [] []) = dict_at s D).
  { intros D. unfold dict_at. destruct a; injection Ea as <- <-; auto.
    destruct (Nat.lt_ge_cases D (List.length (v_dicts s))) as [H|H]; [now rewrite app_nth1|].
    rewrite app_nth2 by exact H. rewrite (nth_overflow (v_dicts s)) by exact H.
    destruct (D - List.length (v_dicts s)) as [|[|?]]; reflexivity. }
  assert (Ee : forall objs D out k, entry (mkPS (v_lists s) dicts objs) D out k = entry s D out k).
  { intros objs D out k. unfold entry, dict_at at 1 2. simpl. now rewrite Ed. }
  assert (Ld : List.length (v_dicts s) <= List.length dicts).
  { destruct a; injection Ea as <- <-; rewrite ?app_length; simpl; lia. }
  split; [split; [|split]|split].
  - intros k q H. simpl in *. apply nth_error_snoc in H as [H|[_ ->]]; [apply T1 in H; lia|exact L].
  - intros D out k r. rewrite Ee. apply T2.
  - intros D out k D' out' k' r. rewrite !Ee. apply T3.
  - intros D out k. unfold content. now rewrite Ee.
  - intros k q H. rewrite nth_error_app1; [exact H|]. apply nth_error_Some. congruence.
Qed.

Lemma tidy_start : tidy ports_start.
Proof.
  split; [|split].
  - intros i o H. destruct i; discriminate.
  - intros [|[|[|D]]] [] n r H; discriminate.
  - intros [|[|[|D]]] [] n D' o' n' r H; discriminate.
Qed.

Lemma tidy_step s a : tidy s -> tidy (portstep s a).
Proof.
  intros T. destruct a as [u n m a|out i n a]; simpl; [now apply new_object_tidy|].
  destruct (nth_error (v_objs s) i) as [o|] eqn:Ho; [now apply (set_port_spec s i o)|].
  unfold set_port. now rewrite Ho.
Qed.

Lemma tidy_run l : tidy (portrun l).
Proof.
  unfold portrun. generalize tidy_start. generalize ports_start.
  induction l as [|a r IH]; simpl; intros s T; [exact T|]. now apply IH, tidy_step.
Qed.

(** ** Frame: ports with another dictionary object are not touched *)

Lemma set_port_frame l out i n a k : let s := portrun l in ~ share_ports s i k ->
  same_ports s (fst (set_port out s i n a)) k.
Proof.
  intros s Hs out' n'. pose proof (tidy_run l : tidy s) as T.
  destruct (nth_error (v_objs s) i) as [o|] eqn:Ho; [|unfold set_port; now rewrite Ho].
  destruct (set_port_spec s i o out n a T Ho) as [_ [C [OP _]]]. specialize (OP k).
  destruct (nth_error (v_objs s) k) as [q|] eqn:Hq; simpl in OP.
  - destruct (nth_error (v_objs (fst (set_port out s i n a))) k) as [q'|] eqn:Hq'; [|discriminate].
    injection OP as Eq. rewrite (port_content _ _ _ _ _ Hq'), (port_content _ _ _ _ _ Hq), Eq, C.
    destruct (hit_spec (o_ports o) out n (o_ports q) out' n') as [[E _]|_]; [|now rewrite andb_false_r].
    exfalso. apply Hs. exists o, q. auto.
  - destruct (nth_error (v_objs (fst (set_port out s i n a))) k) as [q'|] eqn:Hq'; [discriminate|].
    unfold port_of. now rewrite Hq', Hq.
Qed.

(** Objects sharing the dictionary always show the same ports. *)
Lemma shared_ports_same l i k : let s := portrun l in share_ports s i k ->
  forall out n, port_of s i out n = port_of s k out n.
Proof.
  intros s [o [q [Ho [Hq E]]]] out n. now rewrite (port_content _ _ _ _ _ Ho), (port_content _ _ _ _ _ Hq), E.
Qed.

(** ** Histories *)

Lemma map_length_same {A B} (f : A -> B) (l l' : list A) :
  (forall k, option_map f (nth_error l' k) = option_map f (nth_error l k)) -> List.length l' = List.length l.
Proof.
  revert l'. induction l as [|x r IH]; intros [|y r'] H; [reflexivity|specialize (H 0); discriminate|specialize (H 0); discriminate|].
  simpl. f_equal. apply IH. intros k. exact (H (S k)).
Qed.

Lemma creations_app l r : creations (l ++ r) = creations l ++ creations r.
Proof. apply flat_map_app. Qed.

Lemma valid_app l : forall n r, valid n (l ++ r) <-> valid n l /\ valid (n + List.length (creations l)) r.
Proof.
  induction l as [|[u a b p|out i m a] l IH]; intros n r; simpl.
  - rewrite Nat.add_0_r. tauto.
  - rewrite IH, Nat.add_succ_r. simpl. tauto.
  - rewrite IH. unfold creations at 1. simpl. tauto.
Qed.

Lemma portrun_snoc l a : portrun (l ++ [a]) = portstep (portrun l) a.
Proof. unfold portrun. now rewrite fold_left_app. Qed.

Lemma puts_snoc l a out i n : puts (l ++ [a]) out i n = puts l out i n ++ put_on out i n a.
Proof. unfold puts. rewrite flat_map_app. simpl. now rewrite app_nil_r. Qed.

Lemma valid_puts l : forall n out i m, valid n l -> n + List.length (creations l) <= i -> puts l out i m = [].
Proof.
  induction l as [|[u a b p|out' i' m' a] l IH]; intros n out i m V H; [reflexivity| |].
  - simpl in *. apply (IH (S n)); [exact V|]. lia.
  - simpl in V. destruct V as [Hi V]. unfold puts. simpl.
    change (creations (PortSet out' i' m' a :: l)) with (creations l) in H.
    destruct (Nat.eqb_spec i i') as [->|_]; [lia|]. rewrite andb_false_r. simpl. now apply (IH n).
Qed.

Definition own_state (l : list portaction) : Prop :=
  let s := portrun l in
  List.length (v_objs s) = List.length (creations l) /\ List.length (v_dicts s) = 2 + List.length (v_objs s) /\
  (forall i o, nth_error (v_objs s) i = Some o ->
     nth_error (creations l) i = Some (o_unit o, PortsNew) /\ o_ports o = 2 + i /\
     forall out n, content s (2 + i) out n = meant (o_unit o) out (puts l out i n)) /\
  (forall D out n, 2 + List.length (v_objs s) <= D -> content s D out n = None).

Lemma meant_snoc_unit out calls x : meant true out (calls ++ [x]) = Some x.
Proof.
  unfold meant. destruct (calls ++ [x]) as [|y r] eqn:E; [destruct calls; discriminate|].
  rewrite <- E, last_last. reflexivity.
Qed.

Lemma meant_snoc_model calls x :
  meant false false (calls ++ [x]) = Some (match meant false false calls with Some l => l ++ x | None => x end).
Proof.
  unfold meant. destruct (calls ++ [x]) as [|y r] eqn:E; [destruct calls; discriminate|].
  rewrite <- E, concat_app. simpl. rewrite app_nil_r. destruct calls; reflexivity.
Qed.

Lemma meant_model_out calls : meant false true calls = None.
Proof. destruct calls; reflexivity. Qed.

Lemma own_run l : own_ports l -> valid 0 l -> own_state l.
Proof.
  induction l as [|a l IH] using rev_ind; intros HO HV.
  - split; [reflexivity|]. split; [reflexivity|]. split.
    + intros i o H. destruct i; discriminate.
    + intros D out n H. destruct D as [|[|[|D]]]; simpl in H; try lia; destruct out; reflexivity.
  - assert (HO' : own_ports l) by (intros u p H; apply (HO u); rewrite creations_app; apply in_or_app; now left).
    apply valid_app in HV as [HV HV2]. simpl in HV2.
    destruct (IH HO' HV) as [N1 [N2 [N3 N4]]]. clear IH.
    pose proof (tidy_run l) as T. unfold own_state. rewrite portrun_snoc. set (s := portrun l) in *.
    destruct a as [u n m a|out i n a].
    + assert (a = PortsNew) as ->.
      { apply (HO u). rewrite creations_app. apply in_or_app. right. now left. }
      destruct (new_object_tidy u n m s PortsNew T) as [_ [C _]]. simpl portstep.
      assert (EN : fst (new_object u n m s PortsNew) =
        mkPS (v_lists s) (v_dicts s ++ [mkPorts [] []]) (v_objs s ++ [mkObj u (List.length (v_dicts s)) [] None None n m])).
      { unfold new_object.
        assert (Lt : Nat.ltb (List.length (v_dicts s)) (List.length (v_dicts s ++ [mkPorts [] []])) = true)
          by (apply Nat.ltb_lt; rewrite app_length; simpl; lia).
        now rewrite Lt. }
      rewrite EN in *. clear EN. rewrite creations_app. simpl. rewrite !app_length. simpl.
      split; [lia|]. split; [lia|]. split.
      * intros k o H. pose proof H as H0. apply nth_error_snoc in H0 as [H0|[-> ->]].
        -- destruct (N3 _ _ H0) as [M1 [M2 M3]]. split; [|split; [exact M2|]].
           ++ rewrite nth_error_app1; [exact M1|]. apply nth_error_Some. congruence.
           ++ intros out k'. rewrite C, M3, puts_snoc. simpl. now rewrite app_nil_r.
        -- simpl. split; [rewrite nth_error_app2, N1, Nat.sub_diag by lia; reflexivity|]. split; [lia|].
           intros out k'. rewrite C, puts_snoc. simpl. rewrite app_nil_r.
           rewrite (valid_puts l 0) by (simpl; auto; lia). apply N4. lia.
      * intros D out k H. rewrite C. apply N4. lia.
    + simpl in HV2. destruct HV2 as [Hi _]. rewrite <- N1 in Hi.
      destruct (nth_error (v_objs s) i) as [o|] eqn:Ho; [|apply nth_error_None in Ho; lia].
      destruct (N3 _ _ Ho) as [K1 [K2 K3]].
      destruct (set_port_spec s i o out n a T Ho) as [_ [C [OP [OU [LD OK]]]]]. simpl portstep.
      set (s' := fst (set_port out s i n a)) in *.
      assert (LO : List.length (v_objs s') = List.length (v_objs s)).
      { now apply (map_length_same o_ports). }
      rewrite creations_app. change (creations [PortSet out i n a]) with (@nil (bool * ports_arg)). rewrite app_nil_r.
      split; [lia|]. split; [lia|]. split.
      * intros k q Hq. specialize (OP k). specialize (OU k). rewrite Hq in OP, OU.
        destruct (nth_error (v_objs s) k) as [q0|] eqn:Hq0; [|discriminate]. simpl in OP, OU. injection OP as OP. injection OU as OU.
        destruct (N3 _ _ Hq0) as [M1 [M2 M3]]. rewrite OU, OP. split; [exact M1|]. split; [exact M2|].
        intros out' n'. rewrite C, puts_snoc. rewrite K2.
        destruct (hit_spec (2 + i) out n (2 + k) out' n') as [[E1 [-> ->]]|Hn].
        -- assert (k = i) as -> by lia. rewrite Hq0 in Ho. injection Ho as ->.
           assert (PO : put_on out i n (PortSet out i n a) = [handed a]).
           { simpl. rewrite eqb_reflx, Nat.eqb_refl, String.eqb_refl. reflexivity. }
           rewrite PO. rewrite M3. destruct (o_unit o); simpl.
           ++ now rewrite meant_snoc_unit.
           ++ destruct out; simpl; [now rewrite !meant_model_out, ?M3, ?meant_model_out|]. now rewrite meant_snoc_model.
        -- rewrite andb_false_r.
           assert (PO : put_on out' k n' (PortSet out i n a) = []).
           { simpl. destruct (Bool.eqb_spec out' out) as [->|]; [|reflexivity].
             destruct (Nat.eqb_spec k i) as [->|]; [|reflexivity].
             destruct (String.eqb_spec n' n) as [->|]; [|reflexivity]. exfalso. apply Hn. auto. }
           rewrite PO, app_nil_r. apply M3.
      * intros D out' n' H. rewrite C, K2.
        destruct (hit_spec (2 + i) out n D out' n') as [[-> _]|_]; [lia|]. rewrite andb_false_r. apply N4. lia.
Qed.

Lemma own_ports_shown l i u : own_ports l -> valid 0 l -> nth_error (creations l) i = Some (u, PortsNew) ->
  forall out n, port_of (portrun l) i out n = meant u out (puts l out i n).
Proof.
  intros HO HV Hi out n. destruct (own_run l HO HV) as [N1 [N2 [N3 N4]]].
  assert (L : i < List.length (v_objs (portrun l))).
  { rewrite N1. apply nth_error_Some. congruence. }
  destruct (nth_error (v_objs (portrun l)) i) as [o|] eqn:Ho; [|apply nth_error_None in Ho; lia].
  destruct (N3 _ _ Ho) as [M1 [M2 M3]]. rewrite (port_content _ _ _ _ _ Ho), M2, M3.
  rewrite M1 in Hi. injection Hi as <-. reflexivity.
Qed.

(** Models with the default ports: one set of ports for all. *)
Lemma default_run l : default_models l -> valid 0 l ->
  let s := portrun l in
  List.length (v_objs s) = List.length (creations l) /\ List.length (v_dicts s) = 2 /\
  (forall i o, nth_error (v_objs s) i = Some o -> o_unit o = false /\ o_ports o = 0) /\
  (forall n, content s 0 false n = meant false false (puts_anywhere l n)).
Proof.
  induction l as [|a l IH] using rev_ind; intros HO HV s.
  - split; [reflexivity|]. split; [reflexivity|]. split; [intros i o H; destruct i; discriminate|reflexivity].
  - assert (HO' : default_models l) by (intros u p H; apply (HO u); rewrite creations_app; apply in_or_app; now left).
    apply valid_app in HV as [HV HV2]. simpl in HV2.
    destruct (IH HO' HV) as [N1 [N2 [N3 N4]]]. clear IH.
    pose proof (tidy_run l) as T. unfold s. clear s. rewrite portrun_snoc. set (s := portrun l) in *.
    assert (PS : forall n, puts_anywhere (l ++ [a]) n = puts_anywhere l n ++ put_anywhere n a).
    { intros n. unfold puts_anywhere. rewrite flat_map_app. simpl. now rewrite app_nil_r. }
    destruct a as [u n m a|out i n a].
    + assert (u = false /\ a = PortsDefault) as [-> ->].
      { apply (HO u). rewrite creations_app. apply in_or_app. right. now left. }
      destruct (new_object_tidy false n m s PortsDefault T) as [_ [C _]]. simpl portstep.
      assert (EN : fst (new_object false n m s PortsDefault) =
        mkPS (v_lists s) (v_dicts s) (v_objs s ++ [mkObj false 0 [] None None n m])).
      { unfold new_object. unfold model_default. simpl. rewrite N2. reflexivity. }
      rewrite EN in *. clear EN. rewrite creations_app. simpl. rewrite !app_length. simpl.
      split; [lia|]. split; [lia|]. split.
      * intros k o H. apply nth_error_snoc in H as [H|[_ ->]]; [now apply (N3 k)|auto].
      * intros k. rewrite C, N4, PS. simpl. now rewrite app_nil_r.
    + simpl in HV2. destruct HV2 as [Hi _]. rewrite <- N1 in Hi.
      destruct (nth_error (v_objs s) i) as [o|] eqn:Ho; [|apply nth_error_None in Ho; lia].
      destruct (N3 _ _ Ho) as [K1 K2].
      destruct (set_port_spec s i o out n a T Ho) as [_ [C [OP [OU [LD OK]]]]]. simpl portstep.
      set (s' := fst (set_port out s i n a)) in *.
      assert (LO : List.length (v_objs s') = List.length (v_objs s)).
      { now apply (map_length_same o_ports). }
      rewrite creations_app. change (creations [PortSet out i n a]) with (@nil (bool * ports_arg)). rewrite app_nil_r.
      split; [lia|]. split; [lia|]. split.
      * intros k q Hq. specialize (OP k). specialize (OU k). rewrite Hq in OP, OU.
        destruct (nth_error (v_objs s) k) as [q0|] eqn:Hq0; [|discriminate]. simpl in OP, OU. injection OP as OP. injection OU as OU.
        destruct (N3 _ _ Hq0) as [M1 M2]. split; congruence.
      * intros k. rewrite C, PS, K1, K2. simpl.
        destruct out; simpl; [now rewrite app_nil_r|].
        unfold hit. simpl. destruct (String.eqb_spec k n) as [->|_]; simpl.
        -- rewrite meant_snoc_model, N4. reflexivity.
        -- now rewrite app_nil_r.
Qed.

Lemma default_shown l i : default_models l -> valid 0 l -> (i < List.length (creations l)) ->
  forall n, port_of (portrun l) i false n = meant false false (puts_anywhere l n).
Proof.
  intros HO HV L n. destruct (default_run l HO HV) as [N1 [N2 [N3 N4]]]. rewrite <- N1 in L.
  destruct (nth_error (v_objs (portrun l)) i) as [o|] eqn:Ho; [|apply nth_error_None in Ho; lia].
  destruct (N3 _ _ Ho) as [M1 M2]. now rewrite (port_content _ _ _ _ _ Ho), M2, N4.
Qed.

(** ** The streams taken as inlets *)

Lemma streams_in_snoc l a i : streams_in (l ++ [a]) i = streams_in l i ++ put_in i a.
Proof. unfold streams_in. rewrite flat_map_app. simpl. now rewrite app_nil_r. Qed.

Lemma calls_in_snoc l a i : calls_in (l ++ [a]) i = calls_in l i ++ call_in i a.
Proof. unfold calls_in. rewrite flat_map_app. simpl. now rewrite app_nil_r. Qed.

Lemma streams_puts l i x : In x (streams_in l i) <-> exists n, In x (List.concat (puts l false i n)).
Proof.
  induction l as [|a l IH] using rev_ind.
  - simpl. split; [tauto|intros [n []]].
  - rewrite streams_in_snoc, in_app_iff, IH. split.
    + intros [[n H]|H].
      * exists n. rewrite puts_snoc, concat_app, in_app_iff. now left.
      * destruct a as [|[] i' n' y]; simpl in H; try tauto. destruct (Nat.eqb_spec i i') as [->|]; [|destruct H].
        exists n'. rewrite puts_snoc, concat_app, in_app_iff. right. simpl. rewrite Nat.eqb_refl, String.eqb_refl. simpl.
        now rewrite app_nil_r.
    + intros [n H]. rewrite puts_snoc, concat_app, in_app_iff in H. destruct H as [H|H]; [left; now exists n|right].
      destruct a as [|[] i' n' y]; simpl in H; try tauto. destruct (Nat.eqb_spec i i') as [->|]; [|destruct H].
      destruct (String.eqb n n'); [|destruct H]. simpl in *. rewrite Nat.eqb_refl. now rewrite app_nil_r in H.
Qed.

Lemma dget_all_none {V} (d : dict V) : (forall n, dget n d = None) -> d = [].
Proof. destruct d as [|[k v] r]; [auto|]. intros H. specialize (H k). simpl in H. rewrite String.eqb_refl in H. discriminate. Qed.

Lemma valid_calls l : forall n i, valid n l -> n + List.length (creations l) <= i -> calls_in l i = [] /\ streams_in l i = [].
Proof.
  induction l as [|[u a b p|out' i' m' a] l IH]; intros n i V H; [auto| |].
  - simpl in *. apply (IH (S n)); [exact V|]. lia.
  - simpl in V. destruct V as [Hi V].
    change (creations (PortSet out' i' m' a :: l)) with (creations l) in H.
    destruct (IH n i V H) as [H1 H2]. unfold calls_in, streams_in in *. simpl.
    destruct (Nat.eqb_spec i i') as [->|_]; [lia|]. destruct out'; auto.
Qed.

(** Streams found on the ports of a dictionary. *)
Lemma in_contents s D x : NoDup (dkeys (p_in (dict_at s D))) ->
  (In x (List.concat (map (fun kv => nth (snd kv) (v_lists s) []) (p_in (dict_at s D)))) <->
   exists n c, content s D false n = Some c /\ In x c).
Proof.
  intros ND. rewrite in_concat. split.
  - intros [c [Hc Hx]]. apply in_map_iff in Hc as [[n r] [<- Hr]]. exists n, (list_at s r).
    split; [|exact Hx]. unfold content, entry. now rewrite (in_dget_nodup _ _ _ ND Hr).
  - intros [n [c [Hc Hx]]]. unfold content, entry in Hc.
    destruct (dget n (p_in (dict_at s D))) as [r|] eqn:E; [|discriminate]. injection Hc as <-.
    exists (list_at s r). split; [|exact Hx]. apply in_map_iff. exists (n, r). split; [reflexivity|]. now apply dget_some_in.
Qed.

Definition nodup_ports (s : portstore) : Prop := forall D, NoDup (dkeys (p_in (dict_at s D))).

Lemma nodup_step s a : tidy s -> nodup_ports s -> nodup_ports (portstep s a).
Proof.
  intros T H D. destruct a as [u n m p|out i n a]; simpl.
  - unfold new_object. destruct (match p with PortsDefault => _ | PortsNew => _ | PortsSame i => _ end) as [ds i] eqn:E.
    destruct (negb _); [apply H|]. simpl. unfold dict_at. simpl.
    destruct p; injection E as <- <-; try apply H.
    destruct (Nat.lt_ge_cases D (List.length (v_dicts s))) as [L|L]; [rewrite app_nth1 by exact L; apply H|].
    rewrite app_nth2 by exact L. destruct (D - List.length (v_dicts s)) as [|[|?]]; constructor.
  - unfold set_port. destruct (nth_error (v_objs s) i) as [o|] eqn:Ho; [|apply H].
    pose proof (proj1 T _ _ Ho) as L.
    destruct (o_unit o); simpl; [|destruct out; [apply H|]].
    + unfold dict_at at 1. simpl. rewrite nth_upd by exact L. destruct (Nat.eqb_spec D (o_ports o)) as [->|_]; [|apply H].
      destruct out; simpl; [apply H|]. apply nodup_dset, H.
    + unfold model_set_inlets. destruct (dget n (p_in (dict_at s (o_ports o)))) as [r|];
        unfold dict_at at 1; simpl; rewrite nth_upd by exact L;
        (destruct (Nat.eqb_spec D (o_ports o)) as [->|_]; [|apply H]); simpl; apply nodup_dset, H.
Qed.

Lemma nodup_run l : nodup_ports (portrun l).
Proof.
  induction l as [|a l IH] using rev_ind.
  - intros [|[|[|D]]]; constructor.
  - rewrite portrun_snoc. apply nodup_step; [apply tidy_run|exact IH].
Qed.

(** [_inlets] of a model after a call: what it was, and the streams of all its
    inlet ports. *)
Lemma model_inlets_call s i o n a : nth_error (v_objs s) i = Some o -> o_unit o = false -> tidy s ->
  let s' := fst (set_port false s i n a) in
  inlets_of s' i = inlets_of s i ++
    List.concat (map (fun kv => nth (snd kv) (v_lists s') []) (p_in (dict_at s' (o_ports o)))).
Proof.
  intros Ho Hu T. pose proof (proj1 T _ _ Ho) as L.
  assert (Li : i < List.length (v_objs s)) by (apply nth_error_Some; congruence).
  unfold inlets_of. rewrite Ho, Hu. unfold set_port. rewrite Ho, Hu. cbv zeta. cbn [fst].
  unfold model_set_inlets. destruct (dget n (p_in (dict_at s (o_ports o)))) as [r|];
    cbn [v_objs v_lists]; rewrite upd_same by exact Li; simpl; rewrite Hu; f_equal; f_equal; f_equal;
    unfold dict_at at 2; simpl; rewrite nth_upd, Nat.eqb_refl by exact L; reflexivity.
Qed.

Lemma set_port_others out s i n a k : k <> i -> tidy s ->
  nth_error (v_objs (fst (set_port out s i n a))) k = nth_error (v_objs s) k.
Proof.
  intros Hk T. destruct (nth_error (v_objs s) i) as [o|] eqn:Ho.
  - apply (set_port_spec s i o out n a T Ho). exact Hk.
  - unfold set_port. now rewrite Ho.
Qed.

Lemma own_kind l i o : own_ports l -> valid 0 l -> nth_error (v_objs (portrun l)) i = Some o ->
  nth_error (creations l) i = Some (o_unit o, PortsNew).
Proof. intros HO HV H. destruct (own_run l HO HV) as [_ [_ [N3 _]]]. exact (proj1 (N3 _ _ H)). Qed.

Lemma own_prefix l a : own_ports (l ++ [a]) -> valid 0 (l ++ [a]) -> own_ports l /\ valid 0 l.
Proof.
  intros HO HV. apply valid_app in HV as [HV _]. split; [|exact HV].
  intros u p H; apply (HO u); rewrite creations_app; apply in_or_app; now left.
Qed.

(** The inlets of a model with ports of its own. *)
Lemma own_model_inlets l i : own_ports l -> valid 0 l -> nth_error (creations l) i = Some (false, PortsNew) ->
  (forall x, In x (inlets_of (portrun l) i) <-> In x (streams_in l i)) /\
  (forall c, calls_in l i = [c] -> inlets_of (portrun l) i = c) /\
  (calls_in l i = [] -> inlets_of (portrun l) i = []).
Proof.
  induction l as [|a l IH] using rev_ind; intros HO HV Hc; [destruct i; discriminate|].
  destruct (own_prefix _ _ HO HV) as [HO' HV'].
  pose proof (tidy_run l) as T. pose proof (own_run l HO' HV') as [N1 [N2 [N3 N4]]].
  pose proof (own_run _ HO HV) as [N1' [N2' [N3' N4']]].
  pose proof (nodup_run (l ++ [a])) as ND.
  assert (Li : i < List.length (v_objs (portrun (l ++ [a])))) by (rewrite N1'; apply nth_error_Some; congruence).
  destruct (nth_error (v_objs (portrun (l ++ [a]))) i) as [o'|] eqn:Ho'; [|apply nth_error_None in Ho'; lia].
  destruct (N3' _ _ Ho') as [Kc [Kp Kv]]. rewrite Hc in Kc. injection Kc as Ku. rewrite <- Ku in Kv.
  rewrite streams_in_snoc, calls_in_snoc. rewrite portrun_snoc in *. set (s := portrun l) in *.
  destruct a as [u n m p|out j n a].
  - (* a new object: this one, or another *)
    simpl put_in. simpl call_in. rewrite !app_nil_r.
    destruct (Nat.eq_dec i (List.length (v_objs s))) as [->|Hne].
    + destruct (valid_calls l 0 (List.length (v_objs s)) HV') as [E1 E2]; [simpl; lia|]. rewrite E1, E2.
      assert (EI : inlets_of (portstep s (PortNew u n m p)) (List.length (v_objs s)) = []).
      { unfold inlets_of. rewrite Ho', <- Ku. revert Ho'. simpl. unfold new_object.
        destruct (match p with PortsDefault => _ | PortsNew => _ | PortsSame _ => _ end) as [ds k].
        destruct (negb _); simpl.
        - intros H. assert (List.length (v_objs s) < List.length (v_objs s)) by (apply nth_error_Some; congruence). lia.
        - rewrite nth_error_app2, Nat.sub_diag by lia. simpl. now intros [= <-]. }
      rewrite EI. split; [reflexivity|]. split; [discriminate|auto].
    + assert (Hi : i < List.length (v_objs s)).
      { revert Ho' Hne. simpl. unfold new_object.
        destruct (match p with PortsDefault => _ | PortsNew => _ | PortsSame _ => _ end) as [ds k].
        destruct (negb _); simpl; intros H Hne; [apply nth_error_Some; congruence|].
        assert (i < List.length (v_objs s ++ [mkObj u k [] None None n m])) by (apply nth_error_Some; congruence).
        rewrite app_length in *. simpl in *. lia. }
      destruct (nth_error (v_objs s) i) as [o|] eqn:Ho; [|apply nth_error_None in Ho; lia].
      destruct (new_object_tidy u n m s p T) as [_ [_ K]]. specialize (K _ _ Ho).
      change (fst (new_object u n m s p)) with (portstep s (PortNew u n m p)) in K.
      assert (EI : inlets_of (portstep s (PortNew u n m p)) i = inlets_of s i).
      { unfold inlets_of. rewrite K, Ho. rewrite Ho' in K. injection K as ->. now rewrite <- Ku. }
      rewrite EI. apply IH; auto. apply N3 in Ho as [M _]. rewrite M.
      rewrite Ho' in K. injection K as ->. now rewrite <- Ku.
  - assert (Hcr : nth_error (creations l) i = Some (false, PortsNew)).
    { rewrite creations_app in Hc. change (creations [PortSet out j n a]) with (@nil (bool * ports_arg)) in Hc.
      now rewrite app_nil_r in Hc. }
    destruct (IH HO' HV' Hcr) as [I1 [I2 I3]]. clear IH.
    assert (Hi : i < List.length (v_objs s)) by (rewrite N1; apply nth_error_Some; congruence).
    destruct (nth_error (v_objs s) i) as [o|] eqn:Ho; [|apply nth_error_None in Ho; lia].
    destruct (N3 _ _ Ho) as [M1 [M2 M3]]. rewrite Hcr in M1. injection M1 as Mu.
    destruct (Nat.eq_dec i j) as [<-|Hne].
    + destruct out.
      * (* outlets: nothing *)
        assert (ES : portstep s (PortSet true i n a) = s).
        { simpl. unfold set_port. now rewrite Ho, <- Mu. }
        rewrite ES. simpl. rewrite !app_nil_r. auto.
      * pose proof (model_inlets_call s i o n a Ho (eq_sym Mu) T) as EI. simpl in EI.
        change (fst (set_port false s i n a)) with (portstep s (PortSet false i n a)) in EI.
        set (s' := portstep s (PortSet false i n a)) in *.
        assert (Kv' : forall n', content s' (o_ports o) false n' = meant false false (puts (l ++ [PortSet false i n a]) false i n')).
        { intros n'. rewrite M2. apply Kv. }
        rewrite EI. split; [|split].
        -- intros x. rewrite in_app_iff, I1, in_contents by apply ND.
           rewrite <- streams_in_snoc.
           split.
           ++ intros [H|[n' [c [Hc' Hx]]]].
              ** rewrite streams_in_snoc. apply in_or_app. now left.
              ** rewrite Kv' in Hc'. apply streams_puts. exists n'. unfold meant in Hc'.
                 destruct (puts _ false i n'); [discriminate|]. injection Hc' as <-. exact Hx.
           ++ intros H. right. apply streams_puts in H as [n' H]. exists n'.
              rewrite Kv'. unfold meant. destruct (puts _ false i n') as [|y r]; [destruct H|]. eexists. split; [reflexivity|exact H].
        -- intros c Hcall. simpl in Hcall. rewrite Nat.eqb_refl in Hcall.
           assert (calls_in l i = []) as E0.
           { destruct (calls_in l i) as [|y [|z r]]; [reflexivity|discriminate|discriminate]. }
           rewrite E0 in Hcall. injection Hcall as <-. rewrite (I3 E0). simpl.
           assert (S0 : forall x, ~ In x (streams_in l i)).
           { intros x Hx. assert (Es : streams_in l i = List.concat (calls_in l i)).
             { clear. unfold streams_in, calls_in. induction l as [|b r IH]; [reflexivity|]. simpl. rewrite concat_app, <- IH. f_equal.
               destruct b as [|[] i' n' y]; simpl; auto. destruct (Nat.eqb i i'); simpl; now rewrite ?app_nil_r. }
             rewrite Es, E0 in Hx. exact Hx. }
           assert (P0 : forall n', puts l false i n' = []).
           { intros n'. assert (G : forall b, In b l -> put_on false i n' b = []).
             { intros b Hb. destruct b as [|[] i' n'' y]; simpl; auto.
               destruct (Nat.eqb_spec i i') as [<-|]; [|reflexivity]. exfalso.
               assert (In (handed y) (calls_in l i)).
               { unfold calls_in. apply in_flat_map. eexists. split; [exact Hb|]. simpl. rewrite Nat.eqb_refl. now left. }
               rewrite E0 in H. exact H. }
             unfold puts. clear -G. induction l as [|b r IH]; [reflexivity|]. simpl. rewrite G by now left.
             apply IH. intros b' Hb'. apply G. now right. }
           assert (D0 : p_in (dict_at s (o_ports o)) = []).
           { apply dget_all_none. intros n'. pose proof (M3 false n') as Hm. rewrite P0 in Hm. rewrite M2.
             unfold content, entry in Hm. simpl in Hm.
             change (S (S i)) with (2 + i) in Hm.
             destruct (dget n' (p_in (dict_at s (2 + i)))); [discriminate|reflexivity]. }
           assert (LP : o_ports o < List.length (v_dicts s)) by exact (proj1 T _ _ Ho).
           unfold s', portstep, set_port. rewrite Ho, <- Mu. unfold model_set_inlets. rewrite D0. simpl.
           unfold dict_at. simpl. rewrite nth_upd, Nat.eqb_refl by exact LP. simpl.
           rewrite app_nth2, Nat.sub_diag by lia. simpl. now rewrite app_nil_r.
        -- intros H. simpl in H. rewrite Nat.eqb_refl in H. destruct (calls_in l i); discriminate.
    + assert (ES : inlets_of (portstep s (PortSet out j n a)) i = inlets_of s i).
      { unfold inlets_of. simpl. rewrite set_port_others by assumption. rewrite Ho, <- Mu. reflexivity. }
      rewrite ES. apply Nat.eqb_neq in Hne. simpl. rewrite Hne.
      destruct out; simpl; rewrite !app_nil_r; auto.
Qed.

(** The inlets of a unit operation with ports of its own: the last call. *)
Lemma own_unit_inlets l i : own_ports l -> valid 0 l -> nth_error (creations l) i = Some (true, PortsNew) ->
  inlets_of (portrun l) i = last (calls_in l i) [].
Proof.
  intros HO HV Hc.
  assert (G : forall o, nth_error (v_objs (portrun l)) i = Some o -> o_unit o = true ->
     match o_inref o with
     | None => calls_in l i = []
     | Some r => (exists n, entry (portrun l) (o_ports o) false n = Some r) /\ list_at (portrun l) r = last (calls_in l i) []
     end).
  { clear Hc. induction l as [|a l IH] using rev_ind; [intros o H; destruct i; discriminate|].
    destruct (own_prefix _ _ HO HV) as [HO' HV']. specialize (IH HO' HV').
    pose proof (tidy_run l) as T. pose proof (own_run l HO' HV') as [N1 [N2 [N3 N4]]].
    pose proof HV as HV0. apply valid_app in HV0 as [_ HV2].
    rewrite calls_in_snoc, portrun_snoc. set (s := portrun l) in *. intros o Ho Hu.
    destruct a as [u n m p|out j n a].
    - simpl call_in. rewrite app_nil_r. simpl in Ho. unfold portstep.
      destruct (Nat.lt_ge_cases i (List.length (v_objs s))) as [Hi|Hi].
      + destruct (nth_error (v_objs s) i) as [o0|] eqn:Ho0; [|apply nth_error_None in Ho0; lia].
        destruct (new_object_tidy u n m s p T) as [_ [C K]]. pose proof (K _ _ Ho0) as K'. rewrite Ho in K'. injection K' as ->.
        specialize (IH _ eq_refl Hu). destruct (o_inref o0) as [r|]; [|exact IH]. destruct IH as [[n' E] L].
        assert (p = PortsNew) as ->.
        { apply (HO u). rewrite creations_app. apply in_or_app. right. now left. }
        assert (LS : v_lists (fst (new_object u n m s PortsNew)) = v_lists s) by (unfold new_object; destruct (negb _); reflexivity).
        unfold list_at. rewrite LS. split; [|exact L]. exists n'.
        pose proof (proj1 T _ _ Ho0) as LD. unfold entry, dict_at in *. unfold new_object.
        destruct (negb _); [exact E|]. simpl. now rewrite app_nth1 by exact LD.
      + destruct (valid_calls l 0 i HV') as [E1 _]; [simpl; lia|]. rewrite E1.
        unfold new_object in Ho. destruct (match p with PortsDefault => _ | PortsNew => _ | PortsSame _ => _ end) as [ds k].
        destruct (negb _); simpl in Ho.
        * assert (i < List.length (v_objs s)) by (apply nth_error_Some; congruence). lia.
        * apply nth_error_snoc in Ho as [Ho|[_ ->]]; [|reflexivity].
          assert (i < List.length (v_objs s)) by (apply nth_error_Some; congruence). lia.
    - simpl in HV2. destruct HV2 as [Hj _]. rewrite <- N1 in Hj.
      destruct (nth_error (v_objs s) j) as [oj|] eqn:Hoj; [|apply nth_error_None in Hoj; lia].
      pose proof (proj1 T _ _ Hoj) as LD.
      destruct (N3 _ _ Hoj) as [_ [Pj _]].
      destruct (Nat.eq_dec i j) as [<-|Hne].
      + destruct (N3 _ _ Hoj) as [_ _].
        assert (Uj : o_unit oj = true).
        { destruct (set_port_spec s i oj out n a T Hoj) as [_ [_ [_ [OU _]]]]. specialize (OU i).
          simpl in Ho. rewrite Ho, Hoj in OU. simpl in OU. congruence. }
        simpl in Ho. unfold set_port in Ho. rewrite Hoj, Uj in Ho. simpl in Ho. rewrite upd_same in Ho by exact Hj.
        injection Ho as <-. unfold portstep, set_port. rewrite Hoj, Uj. cbn [fst].
        specialize (IH _ Hoj Uj).
        destruct out.
        * simpl. rewrite app_nil_r. destruct (o_inref oj) as [r|]; [|exact IH]. destruct IH as [[n' E] L].
          split.
          { exists n'. unfold unit_set. unfold entry, dict_at in *. simpl. rewrite nth_upd, Nat.eqb_refl by exact LD. exact E. }
          { unfold unit_set, list_at in *. simpl. rewrite app_nth1; [exact L|]. exact (proj1 (proj2 T) _ _ _ _ E). }
        * simpl. rewrite Nat.eqb_refl. split.
          { exists n. unfold unit_set, entry, dict_at. simpl. rewrite nth_upd, Nat.eqb_refl by exact LD. simpl. apply dget_dset_eq. }
          { unfold unit_set, list_at. simpl. rewrite app_nth2, Nat.sub_diag, last_last by lia. reflexivity. }
      + simpl in Ho. rewrite set_port_others in Ho by assumption.
        assert (EC : call_in i (PortSet out j n a) = []).
        { simpl. apply Nat.eqb_neq in Hne. rewrite Hne. destruct out; reflexivity. }
        rewrite EC, app_nil_r. specialize (IH _ Ho Hu).
        destruct (o_inref o) as [r|]; [|exact IH]. destruct IH as [[n' E] L].
        destruct (N3 _ _ Ho) as [_ [Pi _]].
        pose proof (proj1 (proj2 T) _ _ _ _ E) as Lr.
        assert (NE : o_ports o <> o_ports oj) by (rewrite Pi, Pj; lia).
        unfold portstep, set_port. rewrite Hoj. cbn [fst]. destruct (o_unit oj); [|destruct out; [split; [now exists n'|exact L]|]].
        * split.
          { exists n'. unfold unit_set, entry, dict_at in *. simpl. rewrite nth_upd by exact LD.
            destruct (Nat.eqb_spec (o_ports o) (o_ports oj)); [contradiction|exact E]. }
          { unfold unit_set, list_at in *. simpl. now rewrite app_nth1. }
        * unfold model_set_inlets. destruct (dget n (p_in (dict_at s (o_ports oj)))) as [r'|] eqn:Er.
          -- assert (Hr : r <> r').
             { intros ->. destruct (proj2 (proj2 T) _ _ _ (o_ports oj) false n _ E Er) as [? _]. contradiction. }
             split.
             { exists n'. unfold entry, dict_at in *. simpl. rewrite nth_upd by exact LD.
               destruct (Nat.eqb_spec (o_ports o) (o_ports oj)); [contradiction|exact E]. }
             { unfold list_at in *. simpl. rewrite nth_upd by exact (proj1 (proj2 T) _ _ _ _ (Er : entry s (o_ports oj) false n = Some r')).
               destruct (Nat.eqb_spec r r'); [contradiction|exact L]. }
          -- split.
             { exists n'. unfold entry, dict_at in *. simpl. rewrite nth_upd by exact LD.
               destruct (Nat.eqb_spec (o_ports o) (o_ports oj)); [contradiction|exact E]. }
             { unfold list_at in *. simpl. now rewrite app_nth1. } }
  destruct (own_run l HO HV) as [N1 [_ [N3 _]]].
  assert (L : i < List.length (v_objs (portrun l))) by (rewrite N1; apply nth_error_Some; congruence).
  destruct (nth_error (v_objs (portrun l)) i) as [o|] eqn:Ho; [|apply nth_error_None in Ho; lia].
  destruct (N3 _ _ Ho) as [M _]. rewrite Hc in M. injection M as Mu.
  specialize (G _ eq_refl (eq_sym Mu)). unfold inlets_of. rewrite Ho, <- Mu.
  destruct (o_inref o) as [r|]; [apply G|]. now rewrite G.
Qed.

(** [n_inputs] and [n_outputs] count the streams of all calls. *)
Lemma counts_call l out i o n a : nth_error (v_objs (portrun l)) i = Some o -> o_unit o = true ->
  let s := portrun l in let s' := fst (set_port out s i n a) in
  n_inputs_of s' i = n_inputs_of s i + (if out then 0 else List.length (handed a)) /\
  n_outputs_of s' i = n_outputs_of s i + (if out then List.length (handed a) else 0) /\
  forall k, k <> i -> n_inputs_of s' k = n_inputs_of s k /\ n_outputs_of s' k = n_outputs_of s k.
Proof.
  intros Ho Hu s s'. assert (L : i < List.length (v_objs s)) by (apply nth_error_Some; unfold s; congruence). repeat apply conj.
  - unfold n_inputs_of, s'. unfold s in *. rewrite Ho. unfold set_port. rewrite Ho, Hu. simpl. rewrite upd_same by exact L.
    destruct out; simpl; [now rewrite Nat.add_0_r|reflexivity].
  - unfold n_outputs_of, s'. unfold s in *. rewrite Ho. unfold set_port. rewrite Ho, Hu. simpl. rewrite upd_same by exact L.
    destruct out; simpl; [reflexivity|now rewrite Nat.add_0_r].
  - intros k Hk. unfold n_inputs_of, n_outputs_of, s'. now rewrite set_port_others by (exact Hk || apply tidy_run).
Qed.

(** ** Which objects share a dictionary *)
Fixpoint given_dicts (n : nat) (cs : list (bool * ports_arg)) : list nat :=
  match cs with
  | [] => []
  | (u, PortsDefault) :: r => (if u then 1 else 0) :: given_dicts n r
  | (_, PortsNew) :: r => n :: given_dicts (S n) r
  | (_, PortsSame j) :: r => j :: given_dicts n r
  end.
Definition fresh_count (cs : list (bool * ports_arg)) : nat := List.length (filter (fun c => match snd c with PortsNew => true | _ => false end) cs).
Lemma given_app a b : forall n, given_dicts n (a ++ b) = given_dicts n a ++ given_dicts (n + fresh_count a) b.
Proof.
  unfold fresh_count. induction a as [|[u p] a IH]; intros n; cbn [app given_dicts filter snd List.length]; [now rewrite Nat.add_0_r|].
  destruct p; cbn [app List.length]; rewrite IH; [reflexivity| |reflexivity]. now rewrite Nat.add_succ_comm.
Qed.
Lemma map_same {A B} (f : A -> B) (l l' : list A) :
  (forall k, option_map f (nth_error l' k) = option_map f (nth_error l k)) -> map f l' = map f l.
Proof.
  revert l'. induction l as [|x r IH]; intros [|y r'] H; [reflexivity|specialize (H 0); discriminate|specialize (H 0); discriminate|].
  simpl. f_equal; [specialize (H 0); now injection H|]. apply IH. intros k. exact (H (S k)).
Qed.
Lemma usual_run l : usual_ports l ->
  map o_ports (v_objs (portrun l)) = given_dicts 2 (creations l) /\ List.length (v_dicts (portrun l)) = 2 + fresh_count (creations l).
Proof.
  induction l as [|a l IH] using rev_ind; intros U; [split; reflexivity|].
  assert (U0 : usual_ports l) by (intros u p H; apply (U u p); rewrite creations_app; apply in_or_app; now left).
  destruct (IH U0) as [H1 H2]. assert (T := tidy_run l). rewrite portrun_snoc, creations_app. set (s := portrun l) in *. destruct a as [u n m p|out i nm x]; cbn [portstep].
  - destruct (U u p) as [->| ->]; [rewrite creations_app; apply in_or_app; right; now left| |]; unfold new_object.
    + rewrite app_length. cbn [List.length]. destruct (Nat.ltb_spec (List.length (v_dicts s)) (List.length (v_dicts s) + 1)); [|lia].
      cbn [negb fst v_objs v_dicts]. rewrite map_app, H1, given_app, app_length, H2. cbn. unfold fresh_count. rewrite filter_app, app_length. cbn. split; [reflexivity|lia].
    + assert (L : (if u then unit_default else model_default) < List.length (v_dicts s)) by (unfold unit_default, model_default; rewrite H2; destruct u; lia).
      destruct (Nat.ltb_spec (if u then unit_default else model_default) (List.length (v_dicts s))); [|lia].
      cbn [negb fst v_objs v_dicts]. rewrite map_app, H1, given_app, H2. unfold fresh_count. rewrite filter_app, app_length. cbn. split; [destruct u; reflexivity|lia].
  - unfold set_port. cbn [creations flat_map creation app]. rewrite app_nil_r.
    destruct (nth_error (v_objs s) i) as [o|] eqn:Ho; [|cbn [fst]; auto].
    destruct (set_port_spec s i o out nm x T Ho) as (_ & _ & P & _ & D & _). unfold set_port in P, D. rewrite Ho in P, D.
    split; [rewrite <- H1; now apply map_same|now rewrite D].
Qed.
Lemma given_entry cs : forall n i u p, nth_error cs i = Some (u, p) -> p = PortsNew \/ p = PortsDefault ->
  nth_error (given_dicts n cs) i = Some (match p with PortsDefault => if u then 1 else 0 | _ => n + fresh_count (firstn i cs) end).
Proof.
  induction cs as [|[v q] cs IH]; intros n [|i] u p H U; try discriminate.
  - injection H as -> ->. destruct U as [->| ->]; cbn; [now rewrite Nat.add_0_r|reflexivity].
  - cbn [nth_error] in H. cbn [given_dicts firstn]. destruct q; cbn [nth_error]; rewrite (IH _ i u p H U); unfold fresh_count; cbn [filter snd List.length].
    + reflexivity.
    + destruct p; f_equal; lia.
    + reflexivity.
Qed.
Lemma fresh_lt cs i k u : nth_error cs i = Some (u, PortsNew) -> i < k -> fresh_count (firstn i cs) < fresh_count (firstn k cs).
Proof.
  unfold fresh_count. revert i k. induction cs as [|[v q] cs IH]; intros [|i] [|k] H L; try discriminate; try lia.
  - injection H as -> ->. cbn. lia.
  - cbn [nth_error] in H. specialize (IH i k H ltac:(lia)). cbn [firstn filter snd]. destruct q; cbn [List.length]; lia.
Qed.
Lemma sharing l i k u p v q : usual_ports l -> nth_error (creations l) i = Some (u, p) -> nth_error (creations l) k = Some (v, q) -> i <> k ->
  (share_ports (portrun l) i k <-> p = PortsDefault /\ q = PortsDefault /\ u = v).
Proof.
  intros U Hi Hk Ne. destruct (usual_run l U) as [M _].
  assert (Up := U u p (nth_error_In _ _ Hi)). assert (Uq := U v q (nth_error_In _ _ Hk)).
  assert (Ei := given_entry _ 2 _ _ _ Hi Up). assert (Ek := given_entry _ 2 _ _ _ Hk Uq). rewrite <- M in Ei, Ek. rewrite nth_error_map in Ei, Ek.
  unfold share_ports. destruct (nth_error (v_objs (portrun l)) i) as [o|]; [|discriminate]. destruct (nth_error (v_objs (portrun l)) k) as [o'|]; [|discriminate].
  cbn in Ei, Ek. injection Ei as Ei. injection Ek as Ek. transitivity (o_ports o = o_ports o').
  { split; [intros (a & b & A & B & E); congruence|eauto]. }
  rewrite Ei, Ek. destruct Up as [->| ->], Uq as [->| ->].
  - split; [|intros (X & _); discriminate]. intros E. exfalso. destruct (Nat.lt_gt_cases i k) as [X _]. destruct (X Ne) as [Lt|Lt].
    + assert (F := fresh_lt _ _ k _ Hi Lt). lia.
    + assert (F := fresh_lt _ _ i _ Hk Lt). lia.
  - split; [|intros (X & _); discriminate]. destruct v; lia.
  - split; [|intros (_ & X & _); discriminate]. destruct u; lia.
  - destruct u, v; split; intros; try (repeat split; reflexivity); try discriminate; try (destruct H as (_ & _ & X); discriminate); reflexivity.
Qed.
(** Setting the ports of one object leaves those of the other. *)
Lemma default_kinds l i k u p v q out name x : usual_ports l -> nth_error (creations l) i = Some (u, p) -> nth_error (creations l) k = Some (v, q) -> i <> k ->
  ~ (p = PortsDefault /\ q = PortsDefault /\ u = v) -> same_ports (portrun l) (fst (set_port out (portrun l) i name x)) k.
Proof. intros U Hi Hk Ne N. apply set_port_frame. now rewrite (sharing l i k u p v q U Hi Hk Ne). Qed.
