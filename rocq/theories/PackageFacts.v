(** Proofs about property packages. *)
From Verif Require Import Base BaseFacts Num PackageModel SpecPackage.
Notation num := Verif.Num.num.
Open Scope nat_scope.

(** ** Lists *)

Lemma upd_length {A} i (x : A) l : List.length (upd i x l) = List.length l.
Proof. revert i; induction l as [|y r IH]; intros [|i]; simpl; auto. Qed.

Lemma upd_same {A} i (x : A) l : i < List.length l -> nth_error (upd i x l) i = Some x.
Proof. revert i; induction l as [|y r IH]; intros [|i]; simpl; intros H; auto; try lia. apply IH. lia. Qed.

Lemma upd_other {A} i k (x : A) l : i <> k -> nth_error (upd i x l) k = nth_error l k.
Proof.
  revert i k; induction l as [|y r IH]; intros [|i] [|k] H; simpl; auto; congruence.
Qed.

Lemma upd_id {A} i (x : A) l : nth_error l i = Some x -> upd i x l = l.
Proof.
  revert i; induction l as [|y r IH]; intros [|i]; simpl; intros H; auto; try discriminate.
  - now injection H as ->.
  - now rewrite (IH _ H).
Qed.

Lemma nth_error_nth' {A} i (l : list A) d x : nth_error l i = Some x -> nth i l d = x.
Proof. revert i; induction l as [|y r IH]; intros [|i]; simpl; intros H; try discriminate; [now injection H|auto]. Qed.

Lemma nth_upd {A} i k (x : A) l d : i < List.length l ->
  nth k (upd i x l) d = if Nat.eqb k i then x else nth k l d.
Proof.
  revert i k; induction l as [|y r IH]; intros [|i] [|k]; simpl; intros H; auto; try lia.
  apply IH. lia.
Qed.

Lemma phase_eqb_spec a b : phase_eqb a b = true <-> a = b.
Proof.
  destruct a as [x|], b as [y|]; simpl; try (split; (discriminate || congruence)).
  rewrite String.eqb_eq. split; congruence.
Qed.

Lemma has_phase_spec p l : has_phase p l = true <-> In p l.
Proof.
  unfold has_phase. rewrite existsb_exists. split.
  - intros [x [Hx He]]. apply phase_eqb_spec in He. now subst.
  - intros H. exists p. split; [exact H|now apply phase_eqb_spec].
Qed.

Lemma phase_dec (a b : phase) : {a = b} + {a <> b}.
Proof. decide equality. apply string_dec. Qed.

(** ** The loop of [__add__] *)

Lemma merge_nothing l d e todo : (forall p, In p todo -> In p l) -> merge l d e todo = (l, d, Ok tt).
Proof.
  induction todo as [|p r IH]; simpl; intros H; [reflexivity|].
  assert (Hp : has_phase p l = true) by (apply has_phase_spec; auto).
  rewrite Hp. auto.
Qed.

Lemma merge_prefix l d e todo : exists more, fst (fst (merge l d e todo)) = l ++ more /\
  (more = [] <-> forall p, In p todo -> In p l).
Proof.
  revert l d; induction todo as [|p r IH]; simpl; intros l d.
  - exists []. rewrite app_nil_r. split; [reflexivity|]. split; [intros _ ? []|reflexivity].
  - destruct (has_phase p l) eqn:Hp.
    + apply has_phase_spec in Hp. destruct (IH l d) as [more [Hm Hi]]. exists more. split; [exact Hm|].
      rewrite Hi. split; intros H; [intros q [<-|Hq]; auto|auto].
    + assert (Hn : ~ In p l) by (rewrite <- has_phase_spec, Hp; discriminate).
      destruct p as [n|].
      * destruct (dget n e) as [c|].
        -- destruct (IH (l ++ [Some n]) (dset n c d)) as [more [Hm _]].
           exists (Some n :: more). rewrite Hm, <- app_assoc. split; [reflexivity|].
           split; [discriminate|]. intros H. exfalso. auto.
        -- exists [Some n]. simpl. split; [reflexivity|]. split; [discriminate|]. intros H. exfalso. auto.
      * exists [None]. simpl. split; [reflexivity|]. split; [discriminate|]. intros H. exfalso. auto.
Qed.

(** A loop that finds a chemical for every name. *)
Lemma merge_ok todo : forall l d e, ~ In None todo -> (forall n, In (Some n) todo -> dget n e <> None) ->
  NoDup l -> exists l' d', merge l d e todo = (l', d', Ok tt) /\ (exists more, l' = l ++ more) /\ NoDup l' /\
    (forall p, In p l' <-> In p l \/ In p todo) /\
    (forall n, In (Some n) l -> dget n d' = dget n d) /\
    (forall n, ~ In (Some n) l -> In (Some n) todo -> dget n d' = dget n e) /\
    (forall n, ~ In (Some n) l -> ~ In (Some n) todo -> dget n d' = dget n d).
Proof.
  induction todo as [|p r IH]; intros l d e HN He ND.
  - exists l, d. simpl. split; [reflexivity|]. split; [exists []; now rewrite app_nil_r|]. split; [exact ND|].
    split; [intros p; tauto|]. split; [auto|]. split; [tauto|auto].
  - simpl. destruct (has_phase p l) eqn:Hp.
    + apply has_phase_spec in Hp.
      destruct (IH l d e) as [l' [d' [E [Hm [ND' [Hi [H1 [H2 H3]]]]]]]]; auto.
      { intros H; apply HN; now right. } { intros n Hn; apply He; now right. }
      exists l', d'. split; [exact E|]. split; [exact Hm|]. split; [exact ND'|].
      split; [intros q; rewrite Hi; split; [tauto|intros [?|[<-|?]]; auto]|].
      split; [exact H1|]. split.
      * intros n Hn [->|Ht]; [contradiction|auto].
      * intros n Hn Ht. apply H3; [exact Hn|]. intros H; apply Ht; now right.
    + assert (Hn : ~ In p l) by (rewrite <- has_phase_spec, Hp; discriminate).
      destruct p as [m|]; [|exfalso; apply HN; now left].
      destruct (dget m e) as [c|] eqn:Em; [|exfalso; apply (He m); [now left|exact Em]].
      destruct (IH (l ++ [Some m]) (dset m c d) e) as [l' [d' [E [[more Hm] [ND' [Hi [H1 [H2 H3]]]]]]]].
      { intros H; apply HN; now right. } { intros n Hx; apply He; now right. }
      { now apply NoDup_app_one. }
      exists l', d'. split; [exact E|]. split; [exists (Some m :: more); now rewrite Hm, <- app_assoc|].
      split; [exact ND'|].
      split; [intros q; rewrite Hi, in_app_iff; simpl; tauto|].
      split.
      { intros n Hx. rewrite H1 by (rewrite in_app_iff; now left).
        apply dget_dset_neq. intros ->. contradiction. }
      split.
      * intros n Hx Hy. destruct (string_dec n m) as [->|Hne].
        { rewrite H1 by (rewrite in_app_iff; right; now left). now rewrite dget_dset_eq, Em. }
        apply H2; [rewrite in_app_iff; simpl; intros [?|[[= ->]|[]]]; [contradiction|now apply Hne]|].
        destruct Hy as [[= ->]|Hy]; [now elim Hne|exact Hy].
      * intros n Hx Hy. rewrite H3.
        { apply dget_dset_neq. intros ->. apply Hy. now left. }
        { rewrite in_app_iff; simpl; intros [?|[[= ->]|[]]]; [contradiction|]. apply Hy. now left. }
        { intros H; apply Hy; now right. }
Qed.

(** ** Adding packages *)

Lemma sound_list s i p : sound s -> nth_error (s_pkgs s) i = Some p -> pk_names p < List.length (s_lists s).
Proof. intros H E. exact (proj1 (H _ _ E)). Qed.

Lemma names_eq s i p : nth_error (s_pkgs s) i = Some p -> names_of s i = the_list s (pk_names p).
Proof. unfold names_of. now intros ->. Qed.

Lemma exists_some s i : exists_pkg s i -> exists p, nth_error (s_pkgs s) i = Some p.
Proof.
  unfold exists_pkg. intros H. destruct (nth_error (s_pkgs s) i) as [p|] eqn:E; [now exists p|].
  apply nth_error_None in E. lia.
Qed.

Lemma some_exists s i p : nth_error (s_pkgs s) i = Some p -> exists_pkg s i.
Proof. unfold exists_pkg. intros E. apply nth_error_Some. congruence. Qed.

(** The store after [__add__], whatever the result. *)
Lemma add_store s i j p q : nth_error (s_pkgs s) i = Some p -> nth_error (s_pkgs s) j = Some q ->
  let m := merge (the_list s (pk_names p)) (pk_phases p) (pk_phases q) (the_list s (pk_names q)) in
  fst (add_package s i (AddPkg j)) =
    mkStore (upd (pk_names p) (fst (fst m)) (s_lists s)) (s_chems s)
            (upd i (mkPkg (pk_number p) (pk_names p) (snd (fst m)) (pk_T p) (pk_P p)) (s_pkgs s)).
Proof.
  intros Hp Hq m. unfold add_package. rewrite Hp, Hq. fold m. destruct m as [[l d] [x|e]]; reflexivity.
Qed.

Lemma consistent_phases s i p : consistent s i -> nth_error (s_pkgs s) i = Some p ->
  forall n, In (Some n) (the_list s (pk_names p)) -> dget n (pk_phases p) <> None.
Proof.
  intros [_ [_ H]] E n Hn. rewrite <- (names_eq _ _ _ E) in Hn. apply H in Hn.
  unfold chem_of in Hn. rewrite E in Hn. destruct (dget n (pk_phases p)); [discriminate|congruence].
Qed.

Lemma consistent_back s i p : sound s -> consistent s i -> nth_error (s_pkgs s) i = Some p ->
  forall n, ~ In (Some n) (the_list s (pk_names p)) -> dget n (pk_phases p) = None.
Proof.
  intros HS [_ [_ H]] E n Hn. rewrite <- (names_eq _ _ _ E) in Hn.
  destruct (dget n (pk_phases p)) as [c|] eqn:D; [|reflexivity]. exfalso. apply Hn, H.
  unfold chem_of. rewrite E, D. pose proof (proj2 (HS _ _ E) _ _ D) as L.
  now apply nth_error_Some in L.
Qed.

Lemma add_union s i j : sound s -> exists_pkg s i -> exists_pkg s j -> consistent s i -> consistent s j ->
  exists s', add_package s i (AddPkg j) = (s', Ok i) /\ union_of s s' i j /\ number_of s' i = number_of s i.
Proof.
  intros HS Hi Hj Ci Cj. destruct (exists_some _ _ Hi) as [p Hp]. destruct (exists_some _ _ Hj) as [q Hq].
  pose proof (names_eq _ _ _ Hp) as Np. pose proof (names_eq _ _ _ Hq) as Nq.
  destruct (merge_ok (the_list s (pk_names q)) (the_list s (pk_names p)) (pk_phases p) (pk_phases q))
    as [l' [d' [E [Hm [ND [Hin [H1 [H2 H3]]]]]]]].
  { rewrite <- Nq. apply Cj. } { now apply (consistent_phases s j). } { rewrite <- Np. apply Ci. }
  unfold add_package. rewrite Hp, Hq, E. eexists. split; [reflexivity|].
  set (s' := mkStore _ _ _).
  assert (P' : nth_error (s_pkgs s') i = Some (mkPkg (pk_number p) (pk_names p) d' (pk_T p) (pk_P p)))
    by (apply upd_same, Hi).
  assert (N' : names_of s' i = l').
  { unfold names_of. rewrite P'. unfold the_list. simpl. rewrite nth_upd, Nat.eqb_refl; auto.
    now apply (sound_list s i). }
  assert (C' : forall n, chem_of s' i n = match dget n d' with Some c => nth_error (s_chems s) c | None => None end).
  { intros n. unfold chem_of. now rewrite P'. }
  assert (Cp : forall n, chem_of s i n = match dget n (pk_phases p) with Some c => nth_error (s_chems s) c | None => None end).
  { intros n. unfold chem_of. now rewrite Hp. }
  assert (Cq : forall n, chem_of s j n = match dget n (pk_phases q) with Some c => nth_error (s_chems s) c | None => None end).
  { intros n. unfold chem_of. now rewrite Hq. }
  assert (Old : forall n, In (Some n) (names_of s i) -> chem_of s' i n = chem_of s i n).
  { intros n Hn. rewrite C', Cp, H1; [reflexivity|now rewrite <- Np]. }
  assert (New : forall n, ~ In (Some n) (names_of s i) -> chem_of s' i n = chem_of s j n).
  { intros n Hn. rewrite C', Cq. rewrite Np in Hn.
    destruct (in_dec phase_dec (Some n) (the_list s (pk_names q))) as [Hy|Hy].
    - now rewrite H2.
    - rewrite H3 by assumption. rewrite (consistent_back s i p), (consistent_back s j q); auto. }
  split; [|unfold number_of; now rewrite P', Hp].
  split; [rewrite N', Np; exact Hm|]. split; [now rewrite N'|].
  split; [intros n; rewrite N', Np, Nq; apply Hin|].
  split; [exact Old|]. split; [exact New|].
  split; [now rewrite N'|]. split.
  - rewrite N', Hin. rewrite <- Np, <- Nq. destruct Ci as [_ [Ci _]]. destruct Cj as [_ [Cj _]]. tauto.
  - intros n. rewrite N', Hin, <- Np, <- Nq.
    destruct (in_dec phase_dec (Some n) (names_of s i)) as [Hy|Hy].
    + rewrite (Old _ Hy). destruct Ci as [_ [_ Ci]]. rewrite <- Ci. tauto.
    + rewrite (New _ Hy). destruct Cj as [_ [_ Cj]]. rewrite <- Cj. tauto.
Qed.

(** Which other packages see a change: those with the same list, when a name is
    new to it. *)
Lemma add_others s i j k : sound s -> exists_pkg s i -> exists_pkg s j -> i <> k -> exists_pkg s k ->
  let s' := fst (add_package s i (AddPkg j)) in
  nth_error (s_pkgs s') k = nth_error (s_pkgs s) k /\ (forall n, chem_of s' k n = chem_of s k n) /\
  (names_of s' k = names_of s k <-> ~ (share_list s i k /\ exists n, In n (names_of s j) /\ ~ In n (names_of s i))).
Proof.
  intros HS Hi Hj Hk Ek s'. destruct (exists_some _ _ Hi) as [p Hp]. destruct (exists_some _ _ Hj) as [q Hq].
  destruct (exists_some _ _ Ek) as [r Hr].
  pose proof (names_eq _ _ _ Hp) as Np. pose proof (names_eq _ _ _ Hq) as Nq. pose proof (names_eq _ _ _ Hr) as Nr.
  unfold s'. rewrite (add_store _ _ _ _ _ Hp Hq).
  set (m := merge _ _ _ _).
  assert (Pk : nth_error (upd i (mkPkg (pk_number p) (pk_names p) (snd (fst m)) (pk_T p) (pk_P p)) (s_pkgs s)) k = Some r)
    by (rewrite upd_other; auto).
  split; [simpl; now rewrite Pk, Hr|]. split; [intros n; unfold chem_of; simpl; now rewrite Pk, Hr|].
  assert (E : names_of (mkStore (upd (pk_names p) (fst (fst m)) (s_lists s)) (s_chems s)
       (upd i (mkPkg (pk_number p) (pk_names p) (snd (fst m)) (pk_T p) (pk_P p)) (s_pkgs s))) k =
       if Nat.eqb (pk_names r) (pk_names p) then fst (fst m) else names_of s k).
  { unfold names_of. simpl. rewrite Pk, Hr. unfold the_list. simpl. apply nth_upd.
    now apply (sound_list s i). }
  rewrite E. clear E.
  destruct (merge_prefix (the_list s (pk_names p)) (pk_phases p) (pk_phases q) (the_list s (pk_names q))) as [more [Hm Hi']].
  fold m in Hm. rewrite <- Np, <- Nq in Hi'. rewrite <- Np in Hm.
  destruct (Nat.eqb_spec (pk_names r) (pk_names p)) as [Same|Diff].
  - assert (Nrp : names_of s k = names_of s i) by (rewrite Nr, Np, Same; reflexivity).
    rewrite Hm, Nrp. split.
    + intros H [_ [n [Hn Hn']]]. rewrite <- (app_nil_r (names_of s i)) in H at 2. apply app_inv_head in H.
      apply Hn', (proj1 Hi' H), Hn.
    + intros H. rewrite <- (app_nil_r (names_of s i)) at 2. f_equal. apply Hi'. intros n Hn.
      destruct (in_dec phase_dec n (names_of s i)) as [?|Hx]; [assumption|].
      exfalso. apply H. split; [now exists p, r|now exists n].
  - split; [|reflexivity]. intros _ [[p' [r' [E1 [E2 E3]]]] _]. congruence.
Qed.

(** ** Programs *)

Lemma make_phases_spec known l : forall cs d cs' d', make_phases known cs d l = (cs', Ok d') ->
  (exists more, cs' = cs ++ more) /\
  (forall n, dget n d' <> None <-> dget n d <> None \/ In (Some n) l) /\
  ((forall n c, dget n d = Some c -> c < List.length cs) -> forall n c, dget n d' = Some c -> c < List.length cs').
Proof.
  induction l as [|[m|] r IH]; simpl; intros cs d cs' d' H.
  - injection H as <- <-. split; [exists []; now rewrite app_nil_r|]. split; [intros n; tauto|auto].
  - destruct (known m); [|discriminate]. destruct (IH _ _ _ _ H) as [[more Hm] [Hd Hs]].
    split; [exists (mkChem m T_default P_default :: more); now rewrite Hm, <- app_assoc|].
    split.
    + intros n. rewrite Hd, dget_dset. destruct (String.eqb_spec n m) as [->|Hne].
      * split; [auto|intros _; left; discriminate].
      * split; [tauto|]. intros [?|[[= ->]|?]]; [tauto|now elim Hne|tauto].
    + intros Hc. apply Hs. intros n c. rewrite dget_dset, app_length. simpl.
      destruct (String.eqb n m); [intros [= <-]; lia|]. intros Hx. specialize (Hc _ _ Hx). lia.
  - destruct (IH _ _ _ _ H) as [Hm [Hd Hs]]. split; [exact Hm|]. split; [|exact Hs].
    intros n. rewrite Hd. split; [tauto|]. intros [?|[?|?]]; [tauto|discriminate|tauto].
Qed.

Lemma make_phases_chems known l : forall cs d cs' r, make_phases known cs d l = (cs', r) -> exists more, cs' = cs ++ more.
Proof.
  induction l as [|[m|] r IH]; simpl; intros cs d cs' x H.
  - injection H as <- <-. exists []. now rewrite app_nil_r.
  - destruct (known m).
    + destruct (IH _ _ _ _ H) as [more Hm]. exists (mkChem m T_default P_default :: more). now rewrite Hm, <- app_assoc.
    + injection H as <- <-. exists []. now rewrite app_nil_r.
  - eauto.
Qed.

Lemma calc_phases_length d T P l : forall cs, List.length (fst (calc_phases cs d T P l)) = List.length cs.
Proof.
  induction l as [|[m|] r IH]; simpl; intros cs; auto. destruct (dget m d); simpl; auto.
  rewrite IH. apply upd_length.
Qed.

(** Shape facts kept by every careful program. *)
Definition good (s : pstore) : Prop :=
  sound s /\ separate s /\ (forall i, exists_pkg s i -> consistent s i) /\
  (forall i p, nth_error (s_pkgs s) i = Some p -> pk_names p <> default_list).

Lemma consistent_iff s i p : sound s -> nth_error (s_pkgs s) i = Some p ->
  (consistent s i <-> NoDup (the_list s (pk_names p)) /\ ~ In None (the_list s (pk_names p)) /\
     forall n, In (Some n) (the_list s (pk_names p)) <-> dget n (pk_phases p) <> None).
Proof.
  intros HS E. unfold consistent. rewrite (names_eq _ _ _ E).
  assert (forall n, chem_of s i n <> None <-> dget n (pk_phases p) <> None) as H.
  { intros n. unfold chem_of. rewrite E. destruct (dget n (pk_phases p)) as [c|] eqn:D; [|tauto].
    pose proof (proj2 (HS _ _ E) _ _ D) as L. apply nth_error_Some in L. split; [discriminate|auto]. }
  setoid_rewrite H. tauto.
Qed.

Lemma separate_lists s : separate s <-> forall i k p q, i <> k -> nth_error (s_pkgs s) i = Some p ->
  nth_error (s_pkgs s) k = Some q -> pk_names p <> pk_names q.
Proof.
  split.
  - intros H i k p q Hne Hp Hq E. apply (H i k Hne (some_exists _ _ _ Hp) (some_exists _ _ _ Hq)). now exists p, q.
  - intros H i k Hne _ _ [p [q [Hp [Hq E]]]]. exact (H _ _ _ _ Hne Hp Hq E).
Qed.

Lemma nth_error_snoc {A} (l : list A) x i y : nth_error (l ++ [x]) i = Some y ->
  nth_error l i = Some y \/ (i = List.length l /\ y = x).
Proof.
  intros H. destruct (Nat.lt_ge_cases i (List.length l)) as [L|L].
  - rewrite nth_error_app1 in H by exact L. now left.
  - rewrite nth_error_app2 in H by exact L. destruct (i - List.length l) eqn:D.
    + simpl in H. injection H as <-. right. split; [lia|reflexivity].
    + simpl in H. destruct n; discriminate.
Qed.

Lemma good_initial : good initial_store.
Proof.
  split; [intros i p H; destruct i; discriminate|].
  split; [apply separate_lists; intros i k p q _ H; destruct i; discriminate|].
  split; [intros i H; unfold exists_pkg in H; simpl in H; lia|intros i p H; destruct i; discriminate].
Qed.

Lemma good_new known s n l : NoDup l -> ~ In None l -> s_lists s <> [] -> good s ->
  good (fst (new_package known s n (LNew l))).
Proof.
  intros ND NN NE [HS [HP [HC HD]]]. unfold new_package.
  assert (Lt : Nat.ltb (List.length (s_lists s)) (List.length (s_lists s ++ [l])) = true)
    by (apply Nat.ltb_lt; rewrite app_length; simpl; lia).
  rewrite Lt. clear Lt. cbn [negb]. rewrite app_nth2, Nat.sub_diag by lia. cbn [nth].
  destruct (make_phases known (s_chems s) [] l) as [cs [d|e]] eqn:E; simpl.
  - destruct (make_phases_spec _ _ _ _ _ _ E) as [[more Hm] [Hd Hs]].
    assert (HS' : sound (mkStore (s_lists s ++ [l]) cs
       (s_pkgs s ++ [mkPkg n (List.length (s_lists s)) d T_default P_default]))).
    { intros i p H. simpl in *. rewrite !app_length. simpl.
      apply nth_error_snoc in H as [H|[_ ->]].
      - destruct (HS _ _ H) as [H1 H2]. split; [lia|]. intros x c Hx. specialize (H2 _ _ Hx).
        rewrite Hm, app_length. lia.
      - simpl. split; [lia|]. apply Hs. intros x c Hx. discriminate. }
    split; [exact HS'|]. split; [|split].
    + apply separate_lists. simpl. intros i k p q Hne Hp Hq.
      apply nth_error_snoc in Hp as [Hp|[-> ->]]; apply nth_error_snoc in Hq as [Hq|[-> ->]]; simpl.
      * now apply (proj1 (separate_lists s) HP i k).
      * pose proof (sound_list _ _ _ HS Hp). lia.
      * pose proof (sound_list _ _ _ HS Hq). lia.
      * congruence.
    + intros i Hi. destruct (exists_some _ _ Hi) as [p Hp]. apply (consistent_iff _ _ _ HS' Hp).
      simpl in Hp. apply nth_error_snoc in Hp as [Hp|[-> ->]].
      * pose proof (HC i (some_exists _ _ _ Hp)) as C. apply (consistent_iff _ _ _ HS Hp) in C.
        unfold the_list in *. simpl. rewrite app_nth1 by (now apply (sound_list s i)). exact C.
      * unfold the_list. simpl. rewrite app_nth2, Nat.sub_diag by lia. simpl.
        split; [exact ND|]. split; [exact NN|]. intros x. rewrite Hd. simpl. tauto.
    + intros i p Hp. simpl in Hp. apply nth_error_snoc in Hp as [Hp|[-> ->]]; [now apply (HD i)|].
      simpl. unfold default_list. destruct (s_lists s); [congruence|simpl; lia].
  - destruct (make_phases_chems _ _ _ _ _ _ E) as [more Hm].
    assert (HS' : sound (mkStore (s_lists s ++ [l]) cs (s_pkgs s))).
    { intros i p H. simpl in *. destruct (HS _ _ H) as [H1 H2]. rewrite app_length. split; [lia|].
      intros x c Hx. specialize (H2 _ _ Hx). rewrite Hm, app_length. lia. }
    split; [exact HS'|]. split; [|split; [|exact HD]].
    + apply separate_lists. exact (proj1 (separate_lists s) HP).
    + intros i Hi. destruct (exists_some _ _ Hi) as [p Hp]. apply (consistent_iff _ _ _ HS' Hp).
      pose proof (HC i Hi) as C. apply (consistent_iff _ _ _ HS Hp) in C.
      unfold the_list in *. simpl. rewrite app_nth1 by (now apply (sound_list s i)). exact C.
Qed.

Lemma nth_error_upd {A} i k (x : A) l : i < List.length l ->
  nth_error (upd i x l) k = if Nat.eqb k i then Some x else nth_error l k.
Proof.
  intros H. destruct (Nat.eqb_spec k i) as [->|Hne]; [now apply upd_same|]. apply upd_other. congruence.
Qed.

Lemma good_add s i a : good s -> good (fst (add_package s i a)).
Proof.
  intros G. pose proof G as [HS [HP [HC HD]]].
  destruct (nth_error (s_pkgs s) i) as [p|] eqn:Hp; [|unfold add_package; rewrite Hp; exact G].
  destruct a as [j|]; [|unfold add_package; rewrite Hp; exact G].
  destruct (nth_error (s_pkgs s) j) as [q|] eqn:Hq; [|unfold add_package; rewrite Hp, Hq; exact G].
  pose proof (some_exists _ _ _ Hp) as Ei. pose proof (some_exists _ _ _ Hq) as Ej.
  destruct (add_union s i j HS Ei Ej (HC i Ei) (HC j Ej)) as [s' [E [[_ [_ [_ [_ [_ C']]]]] _]]].
  rewrite E. simpl.
  pose proof (add_store _ _ _ _ _ Hp Hq) as Est. rewrite E in Est. simpl in Est.
  pose proof (merge_ok (the_list s (pk_names q)) (the_list s (pk_names p)) (pk_phases p) (pk_phases q)) as MK.
  destruct MK as [l' [d' [Em [_ [_ [Hin [H1 [H2 H3]]]]]]]].
  { rewrite <- (names_eq _ _ _ Hq). apply (HC j Ej). } { now apply (consistent_phases s j); auto. }
  { rewrite <- (names_eq _ _ _ Hp). apply (HC i Ei). }
  rewrite Em in Est. simpl in Est.
  assert (PK : forall k r, nth_error (s_pkgs s') k = Some r ->
     (k = i /\ r = mkPkg (pk_number p) (pk_names p) d' (pk_T p) (pk_P p)) \/ (k <> i /\ nth_error (s_pkgs s) k = Some r)).
  { intros k r. rewrite Est. simpl. rewrite nth_error_upd by exact Ei.
    destruct (Nat.eqb_spec k i) as [->|Hne]; [intros [= <-]; now left|now right]. }
  assert (NM : forall k r, nth_error (s_pkgs s') k = Some r -> exists r0, nth_error (s_pkgs s) k = Some r0 /\ pk_names r0 = pk_names r).
  { intros k r H. apply PK in H as [[-> ->]|[_ H]]; [now exists p|now exists r]. }
  assert (HS' : sound s').
  { intros k r Hr. destruct (PK _ _ Hr) as [[-> ->]|[Hne Hk]].
    - rewrite Est. simpl. rewrite upd_length. split; [now apply (sound_list s i)|].
      intros n c Hc. destruct (in_dec phase_dec (Some n) (the_list s (pk_names p))) as [Hy|Hy].
      + rewrite H1 in Hc by exact Hy. exact (proj2 (HS _ _ Hp) _ _ Hc).
      + destruct (in_dec phase_dec (Some n) (the_list s (pk_names q))) as [Hz|Hz].
        * rewrite H2 in Hc by assumption. exact (proj2 (HS _ _ Hq) _ _ Hc).
        * rewrite H3 in Hc by assumption. exact (proj2 (HS _ _ Hp) _ _ Hc).
    - rewrite Est. simpl. rewrite upd_length. exact (HS _ _ Hk). }
  split; [exact HS'|]. split; [|split].
  - apply separate_lists. intros k1 k2 r1 r2 Hne Hr1 Hr2.
    destruct (NM _ _ Hr1) as [a1 [Ha1 <-]]. destruct (NM _ _ Hr2) as [a2 [Ha2 <-]].
    now apply (proj1 (separate_lists s) HP k1 k2).
  - intros k Hk. destruct (Nat.eq_dec k i) as [->|Hne]; [exact C'|].
    destruct (exists_some _ _ Hk) as [r Hr]. destruct (PK _ _ Hr) as [[? _]|[_ Hk']]; [contradiction|].
    apply (consistent_iff _ _ _ HS' Hr). pose proof (HC k (some_exists _ _ _ Hk')) as C.
    apply (consistent_iff _ _ _ HS Hk') in C.
    replace (the_list s' (pk_names r)) with (the_list s (pk_names r)); [exact C|].
    rewrite Est. unfold the_list. simpl. rewrite nth_upd by (now apply (sound_list s i)).
    destruct (Nat.eqb_spec (pk_names r) (pk_names p)) as [Eq|_]; [|reflexivity].
    exfalso. exact (proj1 (separate_lists s) HP k i r p Hne Hk' Hp Eq).
  - intros k r Hr. destruct (NM _ _ Hr) as [a1 [Ha1 <-]]. now apply (HD k).
Qed.

Lemma good_transfer s s' : List.length (s_chems s') = List.length (s_chems s) -> s_lists s' = s_lists s ->
  (forall k r, nth_error (s_pkgs s') k = Some r -> exists r0, nth_error (s_pkgs s) k = Some r0 /\
      pk_names r0 = pk_names r /\ pk_phases r0 = pk_phases r) -> good s -> good s'.
Proof.
  intros HL HE HK [HS [HP [HC HD]]].
  assert (HS' : sound s').
  { intros k r Hr. destruct (HK _ _ Hr) as [r0 [H0 [H1 H2]]]. rewrite HL, HE, <- H1, <- H2. exact (HS _ _ H0). }
  split; [exact HS'|]. split; [|split].
  - apply separate_lists. intros k1 k2 r1 r2 Hne Hr1 Hr2.
    destruct (HK _ _ Hr1) as [a1 [Ha1 [<- _]]]. destruct (HK _ _ Hr2) as [a2 [Ha2 [<- _]]].
    now apply (proj1 (separate_lists s) HP k1 k2).
  - intros k Hk. destruct (exists_some _ _ Hk) as [r Hr]. destruct (HK _ _ Hr) as [r0 [H0 [H1 H2]]].
    apply (consistent_iff _ _ _ HS' Hr). pose proof (HC k (some_exists _ _ _ H0)) as C.
    apply (consistent_iff _ _ _ HS H0) in C. unfold the_list in *. rewrite HE, <- H1, <- H2. exact C.
  - intros k r Hr. destruct (HK _ _ Hr) as [a1 [Ha1 [<- _]]]. now apply (HD k).
Qed.

Lemma good_step known s a : careful_action a -> s_lists s <> [] -> good s -> good (pstep known s a).
Proof.
  intros Ha NE G. destruct a as [n [|l|i]|i a|i T P|w i v]; simpl in *; try contradiction.
  - destruct Ha. now apply good_new.
  - now apply good_add.
  - unfold calculate. destruct (nth_error (s_pkgs s) i) as [p|]; [|exact G].
    pose proof (calc_phases_length (pk_phases p) T P (the_list s (pk_names p)) (s_chems s)) as L.
    destruct (calc_phases _ _ _ _ _) as [cs r]. simpl in *. apply (good_transfer s); simpl; auto.
    intros k x Hx. now exists x.
  - unfold set_TP. destruct (nth_error (s_pkgs s) i) as [p|] eqn:Hp; [|exact G].
    destruct (is_pfloat v); [|exact G]. apply (good_transfer s); simpl; auto.
    intros k x. rewrite nth_error_upd by (apply nth_error_Some; congruence).
    destruct (Nat.eqb_spec k i) as [->|_].
    + intros [= <-]. exists p. destruct w; auto.
    + intros Hx. now exists x.
Qed.

Lemma step_lists known s a : s_lists s <> [] -> s_lists (pstep known s a) <> [].
Proof.
  intros H. destruct a as [n [|l|i]|i a|i T P|w i v]; simpl.
  - unfold new_package. destruct (negb _); [exact H|]. destruct (make_phases _ _ _ _) as [? [?|?]]; exact H.
  - unfold new_package. destruct (negb _); [exact H|]. destruct (make_phases _ _ _ _) as [? [?|?]]; simpl; destruct (s_lists s); discriminate.
  - unfold new_package. destruct (negb _); [exact H|]. destruct (make_phases _ _ _ _) as [? [?|?]]; exact H.
  - unfold add_package. destruct (nth_error (s_pkgs s) i); [|exact H]. destruct a as [j|]; [|exact H].
    destruct (nth_error (s_pkgs s) j); [|exact H].
    destruct (merge _ _ _ _) as [[l d] [x|e]]; simpl; intros E; apply (f_equal (@List.length _)) in E;
      rewrite upd_length in E; destruct (s_lists s); (congruence || discriminate).
  - unfold calculate. destruct (nth_error (s_pkgs s) i); [|exact H]. destruct (calc_phases _ _ _ _ _); exact H.
  - unfold set_TP. destruct (nth_error (s_pkgs s) i); [|exact H]. destruct (is_pfloat v); exact H.
Qed.

Lemma good_run known l : careful l -> good (prun known l).
Proof.
  intros H. unfold prun.
  assert (N0 : s_lists initial_store <> []) by discriminate.
  revert N0. generalize good_initial. generalize initial_store.
  induction H as [|a r Ha _ IH]; simpl; intros s G N; [exact G|].
  apply IH; [now apply good_step|now apply step_lists].
Qed.

(** In a careful program [+] gives the union and touches no other package. *)
Lemma careful_union known l i j : careful l ->
  let s := prun known l in exists_pkg s i -> exists_pkg s j ->
  exists s', add_package s i (AddPkg j) = (s', Ok i) /\ union_of s s' i j /\
    number_of s' i = number_of s i /\ forall k, k <> i -> exists_pkg s k -> unchanged s s' k.
Proof.
  intros Hl s Hi Hj. destruct (good_run known l Hl) as [HS [HP [HC _]]]. fold s in HS, HP, HC.
  destruct (add_union s i j HS Hi Hj (HC i Hi) (HC j Hj)) as [s' [E [U N]]].
  exists s'. split; [exact E|]. split; [exact U|]. split; [exact N|].
  intros k Hne Hk. destruct (add_others s i j k HS Hi Hj (not_eq_sym Hne) Hk) as [H1 [H2 H3]].
  rewrite E in H1, H2, H3. simpl in H1, H2, H3. split; [exact H1|]. split; [|exact H2].
  apply H3. intros [Sh _]. exact (HP i k (not_eq_sym Hne) Hi Hk Sh).
Qed.

(** Every program keeps its references valid. *)
Lemma sound_step known s a : s_lists s <> [] -> sound s -> sound (pstep known s a).
Proof.
  intros NE HS. destruct a as [n a|i a|i T P|w i v]; simpl.
  - unfold new_package.
    destruct (match a with LDefault => _ | LNew l => _ | LSame i => _ end) as [lists i] eqn:Ea.
    assert (exists more, lists = s_lists s ++ more) as [ml El].
    { destruct a; injection Ea as <- <-; [exists []; now rewrite app_nil_r|now exists [l]|exists []; now rewrite app_nil_r]. }
    destruct (Nat.ltb i (List.length lists)) eqn:L; [|exact HS]. apply Nat.ltb_lt in L. cbn [negb].
    destruct (make_phases known (s_chems s) [] (nth i lists [])) as [cs [d|e]] eqn:E.
    + destruct (make_phases_spec _ _ _ _ _ _ E) as [[more Hm] [_ Hs]].
      intros k p H. simpl in *. apply nth_error_snoc in H as [H|[_ ->]].
      * destruct (HS _ _ H) as [H1 H2]. split; [rewrite El, app_length; lia|].
        intros x c Hx. specialize (H2 _ _ Hx). rewrite Hm, app_length. lia.
      * simpl. split; [exact L|]. apply Hs. discriminate.
    + destruct (make_phases_chems _ _ _ _ _ _ E) as [more Hm].
      intros k p H. simpl in *. destruct (HS _ _ H) as [H1 H2]. split; [rewrite El, app_length; lia|].
      intros x c Hx. specialize (H2 _ _ Hx). rewrite Hm, app_length. lia.
  - destruct (nth_error (s_pkgs s) i) as [p|] eqn:Hp; [|unfold add_package; now rewrite Hp].
    destruct a as [j|]; [|unfold add_package; now rewrite Hp].
    destruct (nth_error (s_pkgs s) j) as [q|] eqn:Hq; [|unfold add_package; now rewrite Hp, Hq].
    rewrite (add_store _ _ _ _ _ Hp Hq).
    assert (M : forall todo l d e N, (forall n c, dget n d = Some c -> c < N) -> (forall n c, dget n e = Some c -> c < N) ->
              forall n c, dget n (snd (fst (merge l d e todo))) = Some c -> c < N).
    { induction todo as [|x r IH]; simpl; intros l d e N Hd He; [exact Hd|].
      destruct (has_phase x l); [now apply IH|]. destruct x as [y|]; [|exact Hd].
      destruct (dget y e) as [c|] eqn:Ey; [|exact Hd]. apply IH; [|exact He].
      intros n' c'. rewrite dget_dset. destruct (String.eqb n' y); [intros [= <-]; eauto|apply Hd]. }
    intros k r Hr. simpl in Hr. rewrite nth_error_upd in Hr by (apply nth_error_Some; congruence).
    simpl. rewrite upd_length. destruct (Nat.eqb_spec k i) as [->|_]; [|exact (HS _ _ Hr)].
    injection Hr as <-. simpl. split; [now apply (sound_list s i)|].
    apply M; [exact (proj2 (HS _ _ Hp))|exact (proj2 (HS _ _ Hq))].
  - unfold calculate. destruct (nth_error (s_pkgs s) i) as [p|]; [|exact HS].
    pose proof (calc_phases_length (pk_phases p) T P (the_list s (pk_names p)) (s_chems s)) as L.
    destruct (calc_phases _ _ _ _ _) as [cs r]. simpl in *. intros k x Hx. simpl in *. rewrite L. exact (HS _ _ Hx).
  - unfold set_TP. destruct (nth_error (s_pkgs s) i) as [p|] eqn:Hp; [|exact HS].
    destruct (is_pfloat v); [|exact HS]. intros k x Hx. simpl in *.
    rewrite nth_error_upd in Hx by (apply nth_error_Some; congruence).
    destruct (Nat.eqb_spec k i) as [->|_]; [|exact (HS _ _ Hx)].
    injection Hx as <-. destruct w; exact (HS _ _ Hp).
Qed.

(** [number_of_phases] is what the constructor was given. *)
Lemma step_number known s a i n : number_of s i = Some n -> number_of (pstep known s a) i = Some n.
Proof.
  unfold number_of. intros H. destruct (nth_error (s_pkgs s) i) as [p|] eqn:Hp; [|discriminate].
  injection H as <-.
  assert (L : i < List.length (s_pkgs s)) by (apply nth_error_Some; congruence).
  destruct a as [m a|j a|j T P|w j v]; simpl.
  - unfold new_package. destruct a as [|l|k]; (destruct (negb _); [simpl; simpl; now rewrite Hp|]); destruct (make_phases _ _ _ _) as [cs [d|e]]; simpl;
      try (rewrite nth_error_app1 by exact L); simpl; now rewrite Hp.
  - unfold add_package. destruct (nth_error (s_pkgs s) j) as [q|] eqn:Hq; [|simpl; now rewrite Hp].
    destruct a as [k|]; [|simpl; now rewrite Hp]. destruct (nth_error (s_pkgs s) k) as [r|]; [|simpl; now rewrite Hp].
    destruct (merge _ _ _ _) as [[l d] [x|e]]; simpl; rewrite nth_error_upd by (apply nth_error_Some; congruence);
      destruct (Nat.eqb_spec i j) as [->|_]; simpl; [congruence|now rewrite Hp|congruence|now rewrite Hp].
  - unfold calculate. destruct (nth_error (s_pkgs s) j); [|simpl; now rewrite Hp]. destruct (calc_phases _ _ _ _ _). simpl. simpl; now rewrite Hp.
  - unfold set_TP. destruct (nth_error (s_pkgs s) j) as [q|] eqn:Hq; [|simpl; now rewrite Hp]. destruct (is_pfloat v); [|simpl; now rewrite Hp].
    simpl. rewrite nth_error_upd by (apply nth_error_Some; congruence).
    destruct (Nat.eqb_spec i j) as [->|_]; [|simpl; now rewrite Hp]. destruct w; simpl; congruence.
Qed.

(** The same for all programs. *)
Lemma run_ind (Q : pstore -> Prop) known : Q initial_store ->
  (forall s a, s_lists s <> [] -> Q s -> Q (pstep known s a)) -> forall l, Q (prun known l).
Proof.
  intros H0 HS l. unfold prun.
  assert (N0 : s_lists initial_store <> []) by discriminate.
  revert H0 N0. generalize initial_store.
  induction l as [|a r IH]; simpl; intros s H N; [exact H|]. apply IH; [auto|now apply step_lists].
Qed.

Lemma sound_run known l : sound (prun known l).
Proof. apply run_ind; [intros i p H; destruct i; discriminate|]. intros s a. apply sound_step. Qed.

Lemma any_union known l i j : let s := prun known l in exists_pkg s i -> exists_pkg s j ->
  consistent s i -> consistent s j ->
  exists s', add_package s i (AddPkg j) = (s', Ok i) /\ union_of s s' i j /\ number_of s' i = number_of s i.
Proof. intros s. apply add_union, sound_run. Qed.

Lemma any_others known l i j k : let s := prun known l in exists_pkg s i -> exists_pkg s j -> i <> k -> exists_pkg s k ->
  let s' := fst (add_package s i (AddPkg j)) in
  nth_error (s_pkgs s') k = nth_error (s_pkgs s) k /\ (forall n, chem_of s' k n = chem_of s k n) /\
  (names_of s' k = names_of s k <-> ~ (share_list s i k /\ exists n, In n (names_of s j) /\ ~ In n (names_of s i))).
Proof. intros s. apply add_others, sound_run. Qed.

Lemma number_run known l r i n : number_of (prun known l) i = Some n -> number_of (prun known (l ++ r)) i = Some n.
Proof.
  unfold prun. rewrite fold_left_app. generalize (fold_left (pstep known) l initial_store).
  induction r as [|a r IH]; simpl; intros s H; [exact H|]. now apply IH, step_number.
Qed.

(** A package keeps its list object; packages made with the default one show the
    same names for ever. *)
Lemma step_list known s a i p : nth_error (s_pkgs s) i = Some p ->
  exists q, nth_error (s_pkgs (pstep known s a)) i = Some q /\ pk_names q = pk_names p.
Proof.
  intros Hp. assert (L : i < List.length (s_pkgs s)) by (apply nth_error_Some; congruence).
  destruct a as [m a|j a|j T P|w j v]; simpl.
  - unfold new_package. destruct a as [|l|k]; (destruct (negb _); [now exists p|]);
      destruct (make_phases _ _ _ _) as [cs [d|e]]; simpl; exists p;
      try (rewrite nth_error_app1 by exact L); auto.
  - unfold add_package. destruct (nth_error (s_pkgs s) j) as [q|] eqn:Hq; [|now exists p].
    destruct a as [k|]; [|now exists p]. destruct (nth_error (s_pkgs s) k) as [r|]; [|now exists p].
    destruct (merge _ _ _ _) as [[l d] [x|e]]; simpl; rewrite nth_error_upd by (apply nth_error_Some; congruence);
      destruct (Nat.eqb_spec i j) as [->|_]; try (now exists p); eexists; (split; [reflexivity|]); simpl; congruence.
  - unfold calculate. destruct (nth_error (s_pkgs s) j); [|now exists p]. destruct (calc_phases _ _ _ _ _). now exists p.
  - unfold set_TP. destruct (nth_error (s_pkgs s) j) as [q|] eqn:Hq; [|now exists p]. destruct (is_pfloat v); [|now exists p].
    simpl. rewrite nth_error_upd by (apply nth_error_Some; congruence).
    destruct (Nat.eqb_spec i j) as [->|_]; [|now exists p]. eexists; split; [reflexivity|]. destruct w; simpl; congruence.
Qed.

Lemma shared_for_ever known l r i k : share_list (prun known l) i k -> share_list (prun known (l ++ r)) i k /\
  names_of (prun known (l ++ r)) i = names_of (prun known (l ++ r)) k.
Proof.
  assert (H : forall s, share_list s i k -> share_list (fold_left (pstep known) r s) i k).
  { induction r as [|a r IH]; simpl; intros s H; [exact H|]. apply IH. destruct H as [p [q [Hp [Hq E]]]].
    destruct (step_list known s a i p Hp) as [p' [Hp' Ep]]. destruct (step_list known s a k q Hq) as [q' [Hq' Eq]].
    exists p', q'. repeat split; auto. congruence. }
  intros Hs. assert (Hf : share_list (prun known (l ++ r)) i k).
  { unfold prun. rewrite fold_left_app. apply H, Hs. }
  split; [exact Hf|]. destruct Hf as [p [q [Hp [Hq E]]]]. now rewrite (names_eq _ _ _ Hp), (names_eq _ _ _ Hq), E.
Qed.

(** ** Looking a phase up *)

(** The phases are kept in the order of the names. *)
Definition ordered (s : pstore) : Prop :=
  forall i p, nth_error (s_pkgs s) i = Some p -> the_list s (pk_names p) = map Some (dkeys (pk_phases p)).

Lemma make_phases_order known l : forall cs d cs' d', NoDup l -> ~ In None l ->
  (forall n, In n (dkeys d) -> ~ In (Some n) l) -> make_phases known cs d l = (cs', Ok d') ->
  map Some (dkeys d') = map Some (dkeys d) ++ l.
Proof.
  induction l as [|[m|] r IH]; simpl; intros cs d cs' d' ND NN HD H.
  - injection H as _ <-. now rewrite app_nil_r.
  - destruct (known m); [|discriminate]. inversion ND as [|x y Hx Hy]; subst.
    assert (K : ~ In m (dkeys d)) by (intros K; apply (HD m K); now left).
    apply IH in H; [|assumption|tauto|].
    + rewrite H, dkeys_dset_notin, map_app, <- app_assoc by exact K. reflexivity.
    + intros n Hn. apply in_dkeys_dset in Hn as [->|Hn]; [exact Hx|].
      intros Hr. apply (HD n Hn). now right.
  - exfalso. apply NN. now left.
Qed.

Lemma merge_order todo : forall l d e l' d', l = map Some (dkeys d) -> merge l d e todo = (l', d', Ok tt) ->
  l' = map Some (dkeys d').
Proof.
  induction todo as [|p r IH]; simpl; intros l d e l' d' E H.
  - now injection H as <- <-.
  - destruct (has_phase p l) eqn:Hp; [eauto|]. destruct p as [n|]; [|discriminate].
    destruct (dget n e) as [c|]; [|discriminate].
    apply (IH _ _ _ _ _) in H; [exact H|].
    assert (K : ~ In n (dkeys d)).
    { intros K. assert (X : has_phase (Some n) l = true); [|congruence].
      apply has_phase_spec. rewrite E. now apply in_map. }
    rewrite dkeys_dset_notin, map_app, E by exact K. reflexivity.
Qed.

Lemma ordered_step known s a : careful_action a -> s_lists s <> [] -> good s -> ordered s -> ordered (pstep known s a).
Proof.
  intros Ha NE G O. pose proof G as [HS [HP [HC HD]]].
  destruct a as [n [|l|i]|i a|i T P|w i v]; simpl in *; try contradiction.
  - destruct Ha as [ND NN]. unfold new_package.
    assert (Lt : Nat.ltb (List.length (s_lists s)) (List.length (s_lists s ++ [l])) = true)
      by (apply Nat.ltb_lt; rewrite app_length; simpl; lia).
    rewrite Lt. clear Lt. cbn [negb]. rewrite app_nth2, Nat.sub_diag by lia. cbn [nth].
    assert (Old : forall k q x y, nth_error (s_pkgs s) k = Some q ->
      the_list (mkStore (s_lists s ++ [l]) x y) (pk_names q) = map Some (dkeys (pk_phases q))).
    { intros k q x y Hq. unfold the_list. simpl. rewrite app_nth1 by (now apply (sound_list s k)). exact (O k q Hq). }
    destruct (make_phases known (s_chems s) [] l) as [cs [d|e]] eqn:E; intros k q Hq; simpl in Hq.
    + apply nth_error_snoc in Hq as [Hq|[-> ->]]; [now apply (Old k)|].
      unfold the_list. simpl. rewrite app_nth2, Nat.sub_diag by lia. simpl.
      assert (Z0 : forall m, In m (dkeys (@nil (string * nat))) -> ~ In (Some m) l) by (intros m []).
      now rewrite (make_phases_order _ _ _ _ _ _ ND NN Z0 E).
    + now apply (Old k).
  - destruct (nth_error (s_pkgs s) i) as [p|] eqn:Hp; [|unfold add_package; rewrite Hp; exact O].
    destruct a as [j|]; [|unfold add_package; rewrite Hp; exact O].
    destruct (nth_error (s_pkgs s) j) as [q|] eqn:Hq; [|unfold add_package; rewrite Hp, Hq; exact O].
    pose proof (some_exists _ _ _ Hp) as Ei. pose proof (some_exists _ _ _ Hq) as Ej.
    destruct (merge_ok (the_list s (pk_names q)) (the_list s (pk_names p)) (pk_phases p) (pk_phases q)) as [l' [d' [Em _]]].
    { rewrite <- (names_eq _ _ _ Hq). apply (HC j Ej). } { now apply (consistent_phases s j); auto. }
    { rewrite <- (names_eq _ _ _ Hp). apply (HC i Ei). }
    pose proof (merge_order _ _ _ _ _ _ (O i p Hp) Em) as EO.
    rewrite (add_store _ _ _ _ _ Hp Hq), Em. simpl. intros k r Hr. simpl in Hr.
    rewrite nth_error_upd in Hr by exact Ei. unfold the_list. simpl.
    rewrite nth_upd by (now apply (sound_list s i)).
    destruct (Nat.eqb_spec k i) as [->|Hne].
    + injection Hr as <-. simpl. now rewrite Nat.eqb_refl.
    + pose proof (proj1 (separate_lists s) HP k i r p Hne Hr Hp) as X.
      destruct (Nat.eqb_spec (pk_names r) (pk_names p)) as [Y|_]; [contradiction|]. exact (O k r Hr).
  - unfold calculate. destruct (nth_error (s_pkgs s) i) as [p|]; [|exact O].
    destruct (calc_phases _ _ _ _ _) as [cs r]. exact O.
  - unfold set_TP. destruct (nth_error (s_pkgs s) i) as [p|] eqn:Hp; [|exact O].
    destruct (is_pfloat v); [|exact O]. intros k x Hx. simpl in Hx.
    rewrite nth_error_upd in Hx by (apply nth_error_Some; congruence).
    destruct (Nat.eqb_spec k i) as [->|_]; [|exact (O k x Hx)].
    injection Hx as <-. destruct w; exact (O i p Hp).
Qed.

Lemma ordered_run known l : careful l -> ordered (prun known l).
Proof.
  intros H. unfold prun.
  assert (N0 : s_lists initial_store <> []) by discriminate.
  assert (O0 : ordered initial_store) by (intros i p Hp; destruct i; discriminate).
  revert N0 O0. generalize good_initial. generalize initial_store.
  induction H as [|a r Ha _ IH]; simpl; intros s G N O; [exact O|].
  apply IH; [now apply good_step|now apply step_lists|now apply ordered_step].
Qed.

Lemma phase_last known l i n front : careful l -> let s := prun known l in exists_pkg s i ->
  names_of s i = front ++ [Some n] -> exists c, chem_of s i n = Some c /\ get_phase s i "*" = Ok c.
Proof.
  intros H s E HN. destruct (exists_some _ _ E) as [p Hp].
  destruct (good_run known l H) as [_ [_ [HC _]]]. destruct (HC i E) as [_ [_ C]].
  assert (X : chem_of s i n <> None) by (apply C; fold s; rewrite HN, in_app_iff; right; now left).
  pose proof (ordered_run known l H i p Hp) as O. fold s in O. rewrite <- (names_eq _ _ _ Hp), HN in O.
  unfold get_phase. unfold chem_of in *. rewrite Hp in *. cbn [String.eqb Ascii.eqb Bool.eqb].
  assert (L : exists k, dkeys (pk_phases p) = k ++ [n]).
  { destruct (dkeys (pk_phases p)) as [|a k] using rev_ind.
    - destruct front; discriminate.
    - rewrite map_app in O. simpl in O. apply app_inj_tail in O as [_ [= ->]]. now exists k. }
  destruct L as [k ->]. rewrite rev_app_distr. simpl.
  destruct (dget n (pk_phases p)) as [c|]; [|now elim X].
  destruct (nth_error (s_chems s) c) as [x|]; [|now elim X]. now exists x.
Qed.

Lemma phase_named s i n : n <> "*" -> exists_pkg s i ->
  get_phase s i n = match chem_of s i n with Some c => Ok c | None => Raise EKey end.
Proof.
  intros Hn E. destruct (exists_some _ _ E) as [p Hp]. unfold get_phase, chem_of. rewrite Hp.
  destruct (String.eqb_spec n "*") as [->|_]; [now elim Hn|]. cbn [rbind].
  destruct (dget n (pk_phases p)) as [c|]; [|reflexivity]. now destruct (nth_error (s_chems s) c).
Qed.
