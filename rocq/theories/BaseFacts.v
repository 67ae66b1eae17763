(** Lemmas about the Python basics. *)
From Verif Require Import Base.

Lemma dget_dset_eq {V} k (v : V) d : dget k (dset k v d) = Some v.
Proof.
  induction d as [|[k' v'] r IH]; simpl.
  - now rewrite String.eqb_refl.
  - destruct (String.eqb k k') eqn:E; simpl.
    + now rewrite String.eqb_refl.
    + now rewrite E.
Qed.

Lemma dget_dset_neq {V} k k' (v : V) d : k <> k' -> dget k (dset k' v d) = dget k d.
Proof.
  intros Hne; induction d as [|[k2 v2] r IH]; simpl.
  - apply String.eqb_neq in Hne. now rewrite Hne.
  - destruct (String.eqb k' k2) eqn:E; simpl.
    + apply String.eqb_eq in E; subst k2.
      apply String.eqb_neq in Hne. now rewrite Hne.
    + destruct (String.eqb k k2); [reflexivity|exact IH].
Qed.

Lemma dget_dset {V} k k' (v : V) d :
  dget k (dset k' v d) = if String.eqb k k' then Some v else dget k d.
Proof.
  destruct (String.eqb_spec k k') as [->|Hne].
  - apply dget_dset_eq.
  - now apply dget_dset_neq.
Qed.

Lemma dget_app {V} k (d e : dict V) :
  dget k (d ++ e) = match dget k d with Some v => Some v | None => dget k e end.
Proof.
  induction d as [|[k' v'] r IH]; simpl; [reflexivity|].
  destruct (String.eqb k k'); [reflexivity|exact IH].
Qed.

Lemma dget_none_iff {V} k (d : dict V) : dget k d = None <-> ~ In k (dkeys d).
Proof.
  induction d as [|[k' v'] r IH]; simpl; [tauto|].
  destruct (String.eqb_spec k k') as [->|Hne].
  - split; [discriminate|intros H; exfalso; apply H; now left].
  - rewrite IH. split; intros H; [intros [H'|H']; [now subst|tauto]|tauto].
Qed.

Lemma dget_some_in {V} k v (d : dict V) : dget k d = Some v -> In (k, v) d.
Proof.
  induction d as [|[k' v'] r IH]; simpl; [discriminate|].
  destruct (String.eqb_spec k k') as [->|Hne].
  - intros H; injection H as ->; now left.
  - intros H; right; now apply IH.
Qed.

Lemma dget_in_keys {V} k v (d : dict V) : dget k d = Some v -> In k (dkeys d).
Proof. intros H. apply dget_some_in in H. now apply (in_map fst) in H. Qed.

Lemma in_keys_dget {V} k (d : dict V) : In k (dkeys d) -> exists v, dget k d = Some v.
Proof.
  intros H. destruct (dget k d) as [v|] eqn:E; [now exists v|].
  now apply dget_none_iff in E.
Qed.

Lemma in_dget_nodup {V} k v (d : dict V) :
  NoDup (dkeys d) -> In (k, v) d -> dget k d = Some v.
Proof.
  induction d as [|[k' v'] r IH]; simpl; [tauto|].
  intros ND [H|H].
  - injection H as -> ->. now rewrite String.eqb_refl.
  - inversion ND as [|? ? Hni ND' E]; subst.
    destruct (String.eqb_spec k k') as [->|Hne].
    + exfalso. apply Hni. now apply (in_map fst) in H.
    + now apply IH.
Qed.

Lemma dmem_spec {V} k (d : dict V) : dmem k d = true <-> In k (dkeys d).
Proof.
  unfold dmem. destruct (dget k d) as [v|] eqn:E.
  - split; [intros _; now apply dget_in_keys in E|reflexivity].
  - apply dget_none_iff in E. split; [discriminate|tauto].
Qed.

Lemma dkeys_dset_in {V} k (v : V) d : In k (dkeys d) -> dkeys (dset k v d) = dkeys d.
Proof.
  induction d as [|[k' v'] r IH]; simpl; [tauto|].
  intros H. destruct (String.eqb_spec k k') as [->|Hne]; simpl; [reflexivity|].
  f_equal. apply IH. destruct H as [H|H]; [now symmetry in H|exact H].
Qed.

Lemma dkeys_dset_notin {V} k (v : V) d : ~ In k (dkeys d) -> dkeys (dset k v d) = dkeys d ++ [k].
Proof.
  induction d as [|[k' v'] r IH]; simpl; [reflexivity|].
  intros H. destruct (String.eqb_spec k k') as [->|Hne]; simpl; [tauto|].
  f_equal. apply IH. tauto.
Qed.

Lemma dset_notin {V} k (v : V) d : ~ In k (dkeys d) -> dset k v d = d ++ [(k, v)].
Proof.
  induction d as [|[k' v'] r IH]; simpl; [reflexivity|].
  intros H. destruct (String.eqb_spec k k') as [->|Hne]; simpl; [tauto|].
  f_equal. apply IH. tauto.
Qed.

Lemma in_dkeys_dset {V} x k (v : V) d : In x (dkeys (dset k v d)) <-> x = k \/ In x (dkeys d).
Proof.
  destruct (in_dec string_dec k (dkeys d)) as [H|H].
  - rewrite dkeys_dset_in by exact H. split; [tauto|intros [->|?]; assumption].
  - rewrite dkeys_dset_notin by exact H. rewrite in_app_iff. simpl.
    split; [intros [?|[?|[]]]|intros [?|?]]; auto.
Qed.

Lemma NoDup_app_one {A} (l : list A) x : NoDup l -> ~ In x l -> NoDup (l ++ [x]).
Proof.
  intros ND Hx. induction ND as [|y l Hy ND IH]; simpl.
  - constructor; [tauto|constructor].
  - constructor.
    + rewrite in_app_iff. simpl. intros [H|[H|[]]]; [tauto|]. apply Hx. now left.
    + apply IH. intros H; apply Hx; now right.
Qed.

Lemma nodup_dset {V} k (v : V) d : NoDup (dkeys d) -> NoDup (dkeys (dset k v d)).
Proof.
  intros ND. destruct (in_dec string_dec k (dkeys d)) as [H|H].
  - now rewrite dkeys_dset_in.
  - rewrite dkeys_dset_notin by exact H. now apply NoDup_app_one.
Qed.

Lemma dupdate_cons {V} (d : dict V) k v e : dupdate d ((k, v) :: e) = dupdate (dset k v d) e.
Proof. reflexivity. Qed.

Lemma dupdate_app {V} (d e f : dict V) : dupdate d (e ++ f) = dupdate (dupdate d e) f.
Proof. unfold dupdate. apply fold_left_app. Qed.

Lemma nodup_dupdate {V} (d e : dict V) : NoDup (dkeys d) -> NoDup (dkeys (dupdate d e)).
Proof.
  revert d. induction e as [|[k v] e IH]; intros d ND; [exact ND|].
  rewrite dupdate_cons. apply IH. now apply nodup_dset.
Qed.

Lemma dget_dupdate {V} k (d e : dict V) :
  NoDup (dkeys e) ->
  dget k (dupdate d e) = match dget k e with Some v => Some v | None => dget k d end.
Proof.
  revert d. induction e as [|[k' v'] e IH]; intros d ND; [reflexivity|].
  inversion ND as [|? ? Hni ND' E]; subst.
  rewrite dupdate_cons, IH by exact ND'. simpl.
  destruct (String.eqb_spec k k') as [->|Hne].
  - assert (dget k' e = None) as -> by now apply dget_none_iff.
    apply dget_dset_eq.
  - destruct (dget k e); [reflexivity|]. now apply dget_dset_neq.
Qed.

Lemma in_dkeys_dupdate {V} x (d e : dict V) :
  In x (dkeys (dupdate d e)) <-> In x (dkeys d) \/ In x (dkeys e).
Proof.
  revert d. induction e as [|[k v] e IH]; intros d.
  - unfold dupdate; simpl; tauto.
  - rewrite dupdate_cons, IH, in_dkeys_dset. simpl.
    split; intros H; repeat (destruct H as [H|H]); auto.
Qed.

Lemma dkeys_dupdate_sub {V} (d e : dict V) :
  (forall k, In k (dkeys e) -> In k (dkeys d)) -> dkeys (dupdate d e) = dkeys d.
Proof.
  revert d. induction e as [|[k v] e IH]; intros d H; [reflexivity|].
  rewrite dupdate_cons, IH.
  - apply dkeys_dset_in. apply H. now left.
  - intros x Hx. apply in_dkeys_dset. right. apply H. now right.
Qed.

Lemma dupdate_disjoint {V} (d e : dict V) :
  NoDup (dkeys e) -> (forall k, In k (dkeys e) -> ~ In k (dkeys d)) -> dupdate d e = d ++ e.
Proof.
  revert d. induction e as [|[k v] e IH]; intros d ND H.
  - unfold dupdate; simpl. now rewrite app_nil_r.
  - inversion ND as [|? ? Hni ND' E]; subst.
    rewrite dupdate_cons, dset_notin by (apply H; now left).
    rewrite IH; [now rewrite <- app_assoc|exact ND'|].
    intros x Hx. unfold dkeys. rewrite map_app, in_app_iff. simpl.
    intros [Hd|[He|[]]].
    + apply (H x); [now right|exact Hd].
    + subst x. tauto.
Qed.

Lemma dof_nodup_id {V} (l : dict V) : NoDup (dkeys l) -> dof l = l.
Proof.
  intros ND. unfold dof. rewrite dupdate_disjoint; [reflexivity|exact ND|].
  intros k _ [].
Qed.

(* sorting *)
Lemma insert_item_in {V} (x y : string * V) l : In y (insert_item x l) <-> y = x \/ In y l.
Proof.
  induction l as [|z r IH]; simpl; [intuition|].
  destruct (String.leb (fst x) (fst z)); simpl; [intuition|].
  rewrite IH. intuition.
Qed.

Lemma sort_items_in {V} (y : string * V) l : In y (sort_items l) <-> In y l.
Proof.
  induction l as [|x r IH]; simpl; [tauto|].
  rewrite insert_item_in, IH. intuition.
Qed.

Lemma insert_item_keys {V} (x : string * V) l k :
  In k (dkeys (insert_item x l)) <-> k = fst x \/ In k (dkeys l).
Proof.
  induction l as [|z r IH]; simpl; [intuition|].
  destruct (String.leb (fst x) (fst z)); simpl; [intuition|].
  rewrite IH. intuition.
Qed.

Lemma sort_items_keys {V} (l : dict V) k : In k (dkeys (sort_items l)) <-> In k (dkeys l).
Proof.
  induction l as [|x r IH]; simpl; [tauto|].
  rewrite insert_item_keys, IH. intuition.
Qed.

Lemma insert_item_nodup {V} (x : string * V) l :
  NoDup (dkeys l) -> ~ In (fst x) (dkeys l) -> NoDup (dkeys (insert_item x l)).
Proof.
  induction l as [|z r IH]; simpl; intros ND Hx.
  - constructor; [tauto|constructor].
  - destruct (String.leb (fst x) (fst z)); simpl.
    + constructor; [exact Hx|exact ND].
    + inversion ND as [|? ? Hni ND' E]; subst. constructor.
      * rewrite insert_item_keys. intros [H|H]; [apply Hx; now left|tauto].
      * apply IH; [exact ND'|tauto].
Qed.

Lemma sort_items_nodup {V} (l : dict V) : NoDup (dkeys l) -> NoDup (dkeys (sort_items l)).
Proof.
  induction l as [|x r IH]; simpl; intros ND; [constructor|].
  inversion ND as [|? ? Hni ND' E]; subst.
  apply insert_item_nodup; [now apply IH|]. now rewrite sort_items_keys.
Qed.

Lemma dget_sort_items {V} k (l : dict V) : NoDup (dkeys l) -> dget k (sort_items l) = dget k l.
Proof.
  intros ND. destruct (dget k l) as [v|] eqn:E.
  - apply in_dget_nodup; [now apply sort_items_nodup|].
    apply sort_items_in. now apply dget_some_in.
  - apply dget_none_iff. rewrite sort_items_keys. now apply dget_none_iff in E.
Qed.

(* map over values *)
Lemma dget_map {V W} (f : V -> W) k (d : dict V) :
  dget k (map (fun kv => (fst kv, f (snd kv))) d) = option_map f (dget k d).
Proof.
  induction d as [|[k' v'] r IH]; simpl; [reflexivity|].
  destruct (String.eqb k k'); [reflexivity|exact IH].
Qed.

Lemma dkeys_map {V W} (f : string * V -> W) (d : dict V) :
  dkeys (map (fun kv => (fst kv, f kv)) d) = dkeys d.
Proof. unfold dkeys. rewrite map_map. simpl. reflexivity. Qed.

Lemma all_res_ok_true {A} (f : A -> res bool) l :
  all_res f l = Ok true <-> (forall x, In x l -> f x = Ok true).
Proof.
  induction l as [|x r IH]; simpl.
  - split; [intros _ y []|reflexivity].
  - destruct (f x) as [[|]|e] eqn:E; simpl.
    + rewrite IH. split.
      * intros H y [<-|Hy]; [exact E|now apply H].
      * intros H y Hy. apply H. now right.
    + split; [discriminate|]. intros H. specialize (H x (or_introl eq_refl)). congruence.
    + split; [discriminate|]. intros H. specialize (H x (or_introl eq_refl)). congruence.
Qed.

Lemma all_res_total {A} (f : A -> res bool) (g : A -> bool) l :
  (forall x, In x l -> f x = Ok (g x)) -> all_res f l = Ok (forallb g l).
Proof.
  induction l as [|x r IH]; simpl; intros H; [reflexivity|].
  rewrite (H x (or_introl eq_refl)). simpl.
  destruct (g x); simpl; [|reflexivity]. apply IH. intros y Hy. apply H. now right.
Qed.

(* strings *)
Lemma append_assoc_s (a b c : string) : ((a ++ b) ++ c = a ++ (b ++ c))%string.
Proof. induction a as [|x a IH]; simpl; [reflexivity|now rewrite IH]. Qed.

Lemma append_nil_r_s (a : string) : (a ++ "" = a)%string.
Proof. induction a as [|x a IH]; simpl; [reflexivity|now rewrite IH]. Qed.

Lemma length_append_s (a b : string) : String.length (a ++ b) = String.length a + String.length b.
Proof. induction a as [|x a IH]; simpl; [reflexivity|now rewrite IH]. Qed.

Lemma substring_prefix_s (a b : string) : substring 0 (String.length a) (a ++ b) = a.
Proof.
  induction a as [|x a IH]; simpl; [now destruct b|now rewrite IH].
Qed.

Lemma drop_last_append (a b : string) : drop_last (String.length b) (a ++ b) = a.
Proof.
  unfold drop_last. rewrite length_append_s.
  replace (String.length a + String.length b - String.length b) with (String.length a) by lia.
  apply substring_prefix_s.
Qed.

Lemma append_inj_l_s (a b c : string) : (a ++ b = a ++ c)%string -> b = c.
Proof. induction a as [|x a IH]; simpl; intros H; [exact H|]. injection H as H. now apply IH. Qed.

Lemma append_inj_r_s (a b c : string) : (a ++ c = b ++ c)%string -> a = b.
Proof.
  intros H. rewrite <- (drop_last_append a c), H. apply drop_last_append.
Qed.
