(** Facts about incorporation (C21, C22). *)
From Verif Require Import Base BaseFacts Num NumFacts UnitModel UnitFacts Sympy Node Build EquationModel ModelModel
  SpecUnits UnitThms SpecExpr SpecQty SpecModel SpecInc BuildFacts QtyFacts EquationFacts ModelFacts.
From Coq Require Import Reals.
Notation num := Verif.Num.num.

(** ** Substitution *)
Fixpoint rename (f : string -> string) (e : sx) : sx :=
  match e with
  | SNum n => SNum n
  | SSym x => SSym (f x)
  | SAdd a b => SAdd (rename f a) (rename f b)
  | SSub a b => SSub (rename f a) (rename f b)
  | SMul a b => SMul (rename f a) (rename f b)
  | SDiv a b => SDiv (rename f a) (rename f b)
  | SPow a b => SPow (rename f a) (rename f b)
  | SFun g a => SFun g (rename f a)
  | SMin a b => SMin (rename f a) (rename f b)
  | SMax a b => SMax (rename f a) (rename f b)
  | SDer x t => SDer (f x) (f t)
  end.

Lemma rename_ext f g e : (forall x, f x = g x) -> rename f e = rename g e.
Proof. intros H. induction e; simpl; congruence. Qed.

Lemma rename_id e : rename (fun x => x) e = e.
Proof. induction e; simpl; congruence. Qed.

Lemma rename1_rename o n f e : rename1 o n (rename f e) = rename (fun x => ren1 o n (f x)) e.
Proof. induction e; simpl; congruence. Qed.

Definition chain (m : list (string * string)) (x : string) : string :=
  fold_left (fun a on => ren1 (fst on) (snd on) a) m x.

Lemma subs_rename m : forall e f, subs m (rename f e) = rename (fun x => chain m (f x)) e.
Proof.
  induction m as [|[o n] m IH]; intros e f; [reflexivity|].
  change (subs ((o, n) :: m) (rename f e)) with (subs m (rename1 o n (rename f e))).
  rewrite rename1_rename, IH. reflexivity.
Qed.

Lemma chain_lookup m : NoDup (map fst m) ->
  (forall k v, In (k, v) m -> In v (map fst m) -> v = k) ->
  forall x, chain m x = match dget x m with Some v => v | None => x end.
Proof.
  induction m as [|[o n] m IH]; intros ND HC x; [reflexivity|].
  simpl in ND. inversion ND as [|? ? Hni ND' E]; subst.
  assert (IH' : forall x, chain m x = match dget x m with Some v => v | None => x end).
  { apply IH; [exact ND'|]. intros k v Hkv Hv. apply HC; [now right|now right]. }
  change (chain ((o, n) :: m) x) with (chain m (ren1 o n x)). rewrite IH'. simpl.
  unfold ren1. destruct (String.eqb_spec x o) as [->|Hne]; [|reflexivity].
  destruct (dget n m) eqn:G; [|reflexivity].
  assert (Hk := dget_in_keys _ _ _ G). assert (n = o) by (apply HC; [now left|now right]). subst n. contradiction.
Qed.

Lemma den_rename f e en en' :
  (forall x, e_sym en' (f x) = e_sym en x) -> (forall x t, e_der en' (f x) (f t) = e_der en x t) ->
  den (rename f e) en' = den e en.
Proof.
  intros H1 H2. induction e; simpl; rewrite ?IHe1, ?IHe2, ?IHe, ?H1, ?H2; reflexivity.
Qed.

Lemma fsyms_rename f e : fsyms (rename f e) = map f (fsyms e).
Proof. induction e; simpl; rewrite ?map_app; congruence. Qed.

Lemma raw_fsyms e : is_raw e = true -> fsyms e = [].
Proof.
  induction e; simpl; try discriminate; try reflexivity; intros H; apply andb_prop in H; destruct H;
    now rewrite IHe1, IHe2.
Qed.

Lemma raw_rename f e : is_raw e = true -> rename f e = e.
Proof.
  induction e; simpl; try discriminate; try reflexivity; intros H; apply andb_prop in H; destruct H;
    now rewrite IHe1, IHe2.
Qed.

(** ** The renaming map *)
Lemma dget_dof_map {V} (f : string -> V) ks : forall d x,
  dget x (dupdate d (map (fun k => (k, f k)) ks)) = if mem_str x ks then Some (f x) else dget x d.
Proof.
  induction ks as [|k ks IH]; intros d x; [reflexivity|].
  simpl map. rewrite dupdate_cons, IH. simpl. unfold mem_str. simpl. fold (mem_str x ks).
  destruct (mem_str x ks).
  - now rewrite Bool.orb_true_r.
  - rewrite Bool.orb_false_r, dget_dset. destruct (String.eqb_spec x k); [now subst|reflexivity].
Qed.

Lemma names_map_get d host x :
  dget x (names_map d host) = if mem_str x (declared d) then Some (full_name (strip_name x (m_name d)) host) else None.
Proof. unfold names_map, dof. rewrite dget_dof_map. reflexivity. Qed.

Lemma names_map_nodup d host : NoDup (dkeys (names_map d host)).
Proof. apply nodup_dupdate. constructor. Qed.

Lemma declared_suffix h d x : objects_ok h (m_name d) (m_vars d) -> objects_ok h (m_name d) (m_pars d) ->
  objects_ok h (m_name d) (m_cons d) -> In x (declared d) -> exists a, x = full_name a (m_name d).
Proof.
  intros [_ H1] [_ H2] [_ H3] Hx. unfold declared in Hx. rewrite !in_app_iff in Hx.
  assert (G : forall dd : dict loc, (forall k l, In (k, l) dd -> exists q a, hget h l = Some q /\ q_name q = k /\
                k = full_name a (m_name d) /\ q_owner q = m_name d) -> In x (dkeys dd) -> exists a, x = full_name a (m_name d)).
  { intros dd HH Hk. destruct (in_keys_dget _ _ Hk) as [l Hl]. apply dget_some_in in Hl.
    destruct (HH _ _ Hl) as [q [a [_ [_ [E _]]]]]. eauto. }
  destruct Hx as [Hx|[Hx|Hx]]; eauto.
Qed.

Lemma subs_names h d host e : donor_ok h d -> no_capture d host ->
  subs (sort_items (names_map d host)) e = rename (new_name d host) e.
Proof.
  intros [Hne [O1 [O2 [O3 _]]]] HC. rewrite <- (rename_id e) at 1. rewrite subs_rename. apply rename_ext. intros x.
  rewrite chain_lookup.
  - rewrite dget_sort_items by apply names_map_nodup. rewrite names_map_get. unfold new_name.
    destruct (mem_str x (declared d)); reflexivity.
  - apply sort_items_nodup, names_map_nodup.
  - intros k v Hkv Hv. rewrite sort_items_in in Hkv. change (In v (dkeys (sort_items (names_map d host)))) in Hv.
    rewrite sort_items_keys in Hv.
    apply in_dget_nodup in Hkv; [|apply names_map_nodup]. rewrite names_map_get in Hkv.
    destruct (mem_str k (declared d)) eqn:Mk; [|discriminate]. injection Hkv as <-. apply mem_str_spec in Mk.
    destruct (in_keys_dget _ _ Hv) as [v2 Hv2]. rewrite names_map_get in Hv2.
    destruct (mem_str (full_name _ host) (declared d)) eqn:Mv; [|discriminate]. apply mem_str_spec in Mv.
    destruct (declared_suffix h d k O1 O2 O3 Mk) as [a ->]. rewrite strip_full in *.
    destruct (declared_suffix h d _ O1 O2 O3 Mv) as [b Eb]. rewrite Eb in *.
    f_equal. symmetry. exact (HC a b Mk Mv Eb).
Qed.

Lemma new_name_full h d host a : donor_ok h d -> In (full_name a (m_name d)) (declared d) ->
  new_name d host (full_name a (m_name d)) = full_name a host.
Proof. intros _ H. unfold new_name. apply mem_str_spec in H. now rewrite H, strip_full. Qed.

(** ** Copying the objects *)
Definition rq (host : string) (q : qty) : qty := reown q host true.

Definition fresh_entries (h : heap) (host : string) (qs : list qty) : dict loc :=
  List.combine (map (fun q => q_name (rq host q)) qs) (seq (List.length h) (List.length qs)).

Lemma fresh_cons h host q qs :
  fresh_entries h host (q :: qs) = (q_name (rq host q), List.length h) :: fresh_entries (h ++ [rq host q]) host qs.
Proof. unfold fresh_entries. simpl. rewrite app_length. simpl. now rewrite Nat.add_1_r. Qed.

Lemma hget_app h t l q : hget h l = Some q -> hget (h ++ t) l = Some q.
Proof. intros H. assert (L := hget_lt _ _ _ H). unfold hget in *. now rewrite nth_error_app1. Qed.

Lemma gets_app h t ls qs : map (hget h) ls = map Some qs -> map (hget (h ++ t)) ls = map Some qs.
Proof.
  revert qs. induction ls as [|l ls IH]; intros [|q qs]; simpl; try discriminate; [reflexivity|].
  intros H. injection H as H1 H2. rewrite (hget_app _ _ _ _ H1). f_equal. now apply IH.
Qed.

Lemma add_vars ls : forall h m qs, map (hget h) ls = map Some qs -> forallb (fun q => negb (q_exposed q)) qs = true ->
  exists at', add_all add_variable h m ls true =
    (h ++ map (rq (m_name m)) qs,
     mkM (m_name m) (dupdate (m_vars m) (fresh_entries h (m_name m) qs)) (m_pars m) (m_cons m) (m_eqs m) (m_in m) (m_out m) at', Ok tt).
Proof.
  induction ls as [|l ls IH]; intros h m [|q qs] H Hx; simpl in H; try discriminate.
  - exists (m_attrs m). simpl. rewrite app_nil_r. destruct m; reflexivity.
  - injection H as H1 H2. simpl in Hx. apply andb_prop in Hx. destruct Hx as [X1 X2].
    rewrite fresh_cons, dupdate_cons. cbn [add_all map]. unfold add_variable at 1. rewrite H1. destruct (q_exposed q); [discriminate|].
    fold (rq (m_name m) q).
    destruct (IH (h ++ [rq (m_name m) q])
                 (set_attr (with_vars m (dset (q_name (rq (m_name m) q)) (List.length h) (m_vars m)))
                           (object_name (q_name q) (q_owner q)) (AQty (List.length h))) qs
                 (gets_app _ _ _ _ H2) X2) as [at' E].
    exists at'. rewrite E, <- app_assoc. reflexivity.
Qed.

Lemma add_pars ls : forall h m qs, map (hget h) ls = map Some qs ->
  exists at', add_all add_parameter h m ls true =
    (h ++ map (rq (m_name m)) qs,
     mkM (m_name m) (m_vars m) (dupdate (m_pars m) (fresh_entries h (m_name m) qs)) (m_cons m) (m_eqs m) (m_in m) (m_out m) at', Ok tt).
Proof.
  induction ls as [|l ls IH]; intros h m [|q qs] H; simpl in H; try discriminate.
  - exists (m_attrs m). simpl. rewrite app_nil_r. destruct m; reflexivity.
  - injection H as H1 H2.
    rewrite fresh_cons, dupdate_cons. cbn [add_all map]. unfold add_parameter at 1. rewrite H1. fold (rq (m_name m) q).
    destruct (IH (h ++ [rq (m_name m) q])
                 (set_attr (with_pars m (dset (q_name (rq (m_name m) q)) (List.length h) (m_pars m)))
                           (object_name (q_name q) (q_owner q)) (AQty (List.length h))) qs
                 (gets_app _ _ _ _ H2)) as [at' E].
    exists at'. rewrite E, <- app_assoc. reflexivity.
Qed.

Lemma add_cons ls : forall h m qs, map (hget h) ls = map Some qs ->
  exists at', add_all add_constant h m ls true =
    (h ++ map (rq (m_name m)) qs,
     mkM (m_name m) (m_vars m) (m_pars m) (dupdate (m_cons m) (fresh_entries h (m_name m) qs)) (m_eqs m) (m_in m) (m_out m) at', Ok tt).
Proof.
  induction ls as [|l ls IH]; intros h m [|q qs] H; simpl in H; try discriminate.
  - exists (m_attrs m). simpl. rewrite app_nil_r. destruct m; reflexivity.
  - injection H as H1 H2.
    rewrite fresh_cons, dupdate_cons. cbn [add_all map]. unfold add_constant at 1. rewrite H1. fold (rq (m_name m) q).
    destruct (IH (h ++ [rq (m_name m) q])
                 (set_attr (with_cons m (dset (q_name (rq (m_name m) q)) (List.length h) (m_cons m)))
                           (object_name (q_name q) (q_owner q)) (AQty (List.length h))) qs
                 (gets_app _ _ _ _ H2)) as [at' E].
    exists at'. rewrite E, <- app_assoc. reflexivity.
Qed.

(** The list of a dictionary's objects. *)
Lemma dict_objects h model (d : dict loc) : objects_ok h model d ->
  exists qs, map (hget h) (dvals d) = map Some qs /\ map q_name qs = dkeys d /\ (forall q, In q qs -> q_owner q = model) /\
    (forall k l q, dget k d = Some l -> hget h l = Some q -> In q qs).
Proof.
  intros [ND H]. clear ND. induction d as [|[k l] d IH].
  - exists []. repeat split. intros q []. intros; discriminate.
  - destruct IH as [qs [E1 [E2 [E3 E4]]]]; [intros k' l' Hin; apply H; now right|].
    destruct (H k l (or_introl eq_refl)) as [q [a [G [N [_ O]]]]].
    exists (q :: qs). simpl. rewrite G. split; [now f_equal|]. split; [now f_equal|].
    split; [intros q' [<-|Hq]; [exact O|now apply E3]|].
    intros k' l' q' Hd Hh. simpl in Hd. destruct (String.eqb k' k).
    + injection Hd as <-. left. congruence.
    + right. exact (E4 k' l' q' Hd Hh).
Qed.

Lemma objects_exist h model (d : dict loc) t : objects_ok h model d -> objects_ok (h ++ t) model d.
Proof.
  intros [ND H]. split; [exact ND|]. intros k l Hin. destruct (H k l Hin) as [q [a [G R]]].
  exists q, a. split; [now apply hget_app|exact R].
Qed.

Lemma in_combine_seq {A} (xs : list A) : forall n x l, In (x, l) (List.combine xs (seq n (List.length xs))) ->
  (n <= l)%nat /\ nth_error xs (l - n) = Some x.
Proof.
  induction xs as [|y xs IH]; intros n x l; simpl; [tauto|].
  intros [E|H]; [injection E as <- <-; rewrite Nat.sub_diag; split; [lia|reflexivity]|].
  apply IH in H. destruct H as [H1 H2]. split; [lia|].
  replace (l - n)%nat with (S (l - S n)) by lia. exact H2.
Qed.

Lemma keys_combine {A} (xs : list string) (ys : list A) : List.length xs = List.length ys -> dkeys (List.combine xs ys) = xs.
Proof.
  revert ys. induction xs as [|x xs IH]; intros [|y ys]; simpl; try discriminate; [reflexivity|].
  intros H. unfold dkeys in *. simpl. f_equal. apply IH. lia.
Qed.

Lemma fresh_keys h host qs : dkeys (fresh_entries h host qs) = map (fun q => q_name (rq host q)) qs.
Proof. unfold fresh_entries. apply keys_combine. now rewrite map_length, seq_length. Qed.

Section Copy.
Variables (h : heap) (t1 t2 : heap) (donor host : string) (d : dict loc) (qs : list qty).
Hypothesis Hne : donor <> "".
Hypothesis Hok : objects_ok h donor d.
Hypothesis Q1 : map q_name qs = dkeys d.
Hypothesis Q2 : forall q, In q qs -> q_owner q = donor.
Hypothesis Q3 : forall k l q, dget k d = Some l -> hget h l = Some q -> In q qs.

Lemma qs_suffix q : In q qs -> exists a, q_name q = full_name a donor /\ q_name (rq host q) = full_name a host.
Proof.
  intros Hq. assert (Hk : In (q_name q) (dkeys d)) by (rewrite <- Q1; now apply in_map).
  destruct (in_keys_dget _ _ Hk) as [l Hl]. apply dget_some_in in Hl.
  destruct (proj2 Hok _ _ Hl) as [q' [a [_ [_ [E _]]]]]. exists a. split; [exact E|].
  unfold rq, reown. simpl. rewrite (Q2 q Hq), E, object_full; [reflexivity|exact Hne].
Qed.

Lemma new_names_nodup : NoDup (map (fun q => q_name (rq host q)) qs).
Proof.
  assert (ND : NoDup (map q_name qs)) by (rewrite Q1; apply (proj1 Hok)).
  assert (G : forall q, In q qs -> exists a, q_name q = full_name a donor /\ q_name (rq host q) = full_name a host)
    by exact qs_suffix.
  clear Q1 Q2 Q3. induction qs as [|q r IH]; [constructor|].
  simpl in *. inversion ND as [|? ? Hni ND' E]; subst. constructor.
  - intros Hin. apply in_map_iff in Hin. destruct Hin as [q' [E' Hq']].
    destruct (G q (or_introl eq_refl)) as [a [A1 A2]]. destruct (G q' (or_intror Hq')) as [b [B1 B2]].
    rewrite A2, B2 in E'. apply full_inj_same in E'. subst b. apply Hni. rewrite A1, <- B1. now apply in_map.
  - apply IH; [exact ND'|]. intros q' Hq'. apply G. now right.
Qed.

Lemma copies_there (before : dict loc) :
  copied h ((h ++ t1) ++ map (rq host) qs ++ t2) donor host d (dupdate before (fresh_entries (h ++ t1) host qs)).
Proof.
  intros a l q Hl Hq. assert (Hin := Q3 _ _ _ Hl Hq).
  destruct (qs_suffix q Hin) as [a' [A1 A2]].
  destruct (proj2 Hok _ _ (dget_some_in _ _ _ Hl)) as [q0 [a0 [G0 [N0 [E0 O0]]]]].
  replace q0 with q in * by congruence. rewrite A1 in N0. apply full_inj_same in N0. subst a'. clear q0 G0 E0 O0 a0.
  assert (Hk : In (full_name a host) (dkeys (fresh_entries (h ++ t1) host qs))).
  { rewrite fresh_keys, <- A2. now apply (in_map (fun q => q_name (rq host q))). }
  destruct (in_keys_dget _ _ Hk) as [l' Hl']. exists l'.
  rewrite dget_dupdate by (rewrite fresh_keys; exact new_names_nodup). rewrite Hl'.
  apply dget_some_in in Hl'. unfold fresh_entries in Hl'.
  rewrite <- (map_length (fun q => q_name (rq host q)) qs) in Hl'.
  apply in_combine_seq in Hl'. destruct Hl' as [L1 L2].
  rewrite nth_error_map in L2. destruct (nth_error qs (l' - List.length (h ++ t1))) as [q2|] eqn:N; [|discriminate].
  cbn [option_map] in L2. injection L2 as L2.
  assert (Hq2 := nth_error_In _ _ N). destruct (qs_suffix q2 Hq2) as [b [B1 B2]].
  change (q_name (rq host q2) = full_name a host) in L2. rewrite B2 in L2. apply full_inj_same in L2. subst b.
  assert (q2 = q).
  { assert (ND : NoDup (map q_name qs)) by (rewrite Q1; apply (proj1 Hok)).
    clear - ND Hq2 Hin A1 B1. induction qs as [|x r IH]; [destruct Hin|]. simpl in ND.
    inversion ND as [|? ? Hni ND' E]; subst. destruct Hin as [<-|Hin], Hq2 as [<-|Hq2]; auto.
    - exfalso. apply Hni. rewrite A1, <- B1. now apply in_map.
    - exfalso. apply Hni. rewrite B1, <- A1. now apply in_map. }
  subst q2. exists (rq host q). split; [reflexivity|].
  split.
  { unfold hget. rewrite nth_error_app2 by exact L1. rewrite nth_error_app1.
    - rewrite nth_error_map, N. reflexivity.
    - rewrite map_length. apply nth_error_Some. congruence. }
  split; [rewrite app_length in L1; lia|].
  repeat split. exact A2.
Qed.

Lemma others_kept (before : dict loc) :
  kept donor host d before (dupdate before (fresh_entries (h ++ t1) host qs)).
Proof.
  intros k Hk. rewrite dget_dupdate by (rewrite fresh_keys; exact new_names_nodup).
  assert (dget k (fresh_entries (h ++ t1) host qs) = None) as ->; [|reflexivity].
  apply dget_none_iff. rewrite fresh_keys. intros Hin. apply in_map_iff in Hin. destruct Hin as [q [E Hq]].
  destruct (qs_suffix q Hq) as [a [A1 A2]]. apply (Hk a); [congruence|].
  rewrite <- Q1, <- A1. now apply in_map.
Qed.

Lemma fresh_objects k l : In (k, l) (fresh_entries (h ++ t1) host qs) ->
  exists q, In q qs /\ hget ((h ++ t1) ++ map (rq host) qs ++ t2) l = Some (rq host q) /\
    q_name (rq host q) = k /\ (exists a, k = full_name a host) /\ q_owner (rq host q) = host.
Proof.
  intros Hin. unfold fresh_entries in Hin.
  rewrite <- (map_length (fun q => q_name (rq host q)) qs) in Hin.
  apply in_combine_seq in Hin. destruct Hin as [L1 L2].
  rewrite nth_error_map in L2. destruct (nth_error qs (l - List.length (h ++ t1))) as [q2|] eqn:N; [|discriminate].
  assert (Hq2 := nth_error_In _ _ N). destruct (qs_suffix q2 Hq2) as [b [B1 B2]].
  exists q2. split; [exact Hq2|]. split.
  { unfold hget. rewrite nth_error_app2 by exact L1. rewrite nth_error_app1.
    - rewrite nth_error_map, N. reflexivity.
    - rewrite map_length. apply nth_error_Some. congruence. }
  assert (E : q_name (rq host q2) = k) by (injection L2 as L2; exact L2).
  split; [exact E|]. split; [exists b; congruence|reflexivity].
Qed.
End Copy.

Lemma in_dupdate {V} (d e : dict V) k v : In (k, v) (dupdate d e) -> In (k, v) e \/ In (k, v) d.
Proof.
  revert d. induction e as [|[k' v'] e IH]; intros d H; [now right|].
  rewrite dupdate_cons in H. apply IH in H. destruct H as [H|H]; [left; now right|].
  apply in_dset in H. destruct H as [[-> ->]|H]; [left; now left|now right].
Qed.

Lemma objects_update h host (d e : dict loc) :
  objects_ok h host d ->
  (forall k l, In (k, l) e -> exists q, hget h l = Some q /\ q_name q = k /\ (exists a, k = full_name a host) /\ q_owner q = host) ->
  objects_ok h host (dupdate d e).
Proof.
  intros [ND H] He. split; [now apply nodup_dupdate|]. intros k l Hin. apply in_dupdate in Hin.
  destruct Hin as [Hin|Hin]; [|now apply H]. destruct (He k l Hin) as [q [A [B [[a C] D]]]]. exists q, a. auto.
Qed.

Lemma raw_renamed f e : is_raw (rename f e) = is_raw e.
Proof. induction e; simpl; congruence. Qed.

(** ** Copying the equations *)
Lemma uniq_in x l : In x (uniq l) <-> In x l.
Proof.
  induction l as [|y l IH]; simpl; [tauto|]. rewrite filter_In, IH.
  destruct (String.eqb_spec y x) as [->|Hne]; simpl; intuition.
Qed.

Lemma pick_all_ok w ks : (forall k, In k ks -> dget k w <> None) ->
  exists d, pick_all w ks = Ok d /\ dkeys d = ks /\ forall x l, dget x d = Some l -> dget x w = Some l.
Proof.
  induction ks as [|k ks IH]; intros H; simpl.
  - exists []. repeat split. discriminate.
  - destruct (dget k w) as [l|] eqn:E; [|now destruct (H k (or_introl eq_refl))].
    destruct IH as [d [D1 [D2 D3]]]; [intros k' Hk'; apply H; now right|].
    rewrite D1. simpl. exists ((k, l) :: d). split; [reflexivity|]. split; [unfold dkeys in *; simpl; now f_equal|].
    intros x l'. simpl. destruct (String.eqb_spec x k) as [->|Hne]; [congruence|apply D3].
Qed.

(** What one equation becomes. *)
Lemma convert_ok h d host w e :
  donor_ok h d -> no_capture d host -> incorporable d e ->
  (forall x, In x (declared d) -> dget (new_name d host x) w <> None) ->
  exists e', convert_symbolic (names_map d host) w e = Ok e' /\ eq_name e' = eq_name e /\
    eq_owner e' = eq_owner e /\ eq_type e' = eq_type e /\ eq_elementary e' = eq_elementary e /\
    same_sides d host e e' /\
    (forall a' b', eq_elem e' = Some (a', b') -> exists a b, eq_elem e = Some (a, b) /\
       nd_repr a' = rename (new_name d host) (nd_repr a) /\ nd_repr b' = rename (new_name d host) (nd_repr b)) /\
    exists n n', eq_expr e = Some n /\ eq_expr e' = Some n' /\
      nd_sym n' = rename (new_name d host) (nd_sym n) /\ nd_repr n' = rename (new_name d host) (nd_repr n) /\
      eq_objs e' = Some (nd_smap n') /\ incl (fsyms (nd_repr n')) (dkeys (nd_smap n')) /\
      forall x l, dget x (nd_smap n') = Some l -> dget x w = Some l.
Proof.
  intros Hd HC [[n [En [S1 [S2 [S3 S4]]]]] HE] Hw. unfold convert_symbolic. rewrite En.
  assert (Sub : forall s, is_raw s = false -> subs_obj (names_map d host) s = Ok (rename (new_name d host) s)).
  { intros s Hs. unfold subs_obj. now rewrite Hs, (subs_names h). }
  assert (Pick : forall s, incl (fsyms s) (declared d) ->
            exists m, pick_all w (uniq (fsyms (rename (new_name d host) s))) = Ok m /\
              dkeys m = uniq (fsyms (rename (new_name d host) s)) /\ forall x l, dget x m = Some l -> dget x w = Some l).
  { intros s Hs. apply pick_all_ok. intros k Hk. apply (proj1 (uniq_in _ _)) in Hk. rewrite fsyms_rename in Hk.
    apply in_map_iff in Hk. destruct Hk as [x [<- Hx]]. now apply Hw, Hs. }
  rewrite (Sub _ S2), (Sub _ S1). cbn [rbind].
  destruct (Pick _ S4) as [sm [P1 [P2 P3]]].
  assert (Try : forall s en en', renamed_env d host en en' -> den (subs_try (names_map d host) s) en' = den s en).
  { intros s en en' [R1 R2]. unfold subs_try. destruct (is_raw s) eqn:Er.
    - unfold subs_obj. rewrite Er. rewrite <- (raw_rename (new_name d host) s Er) at 1. now apply den_rename.
    - rewrite (Sub _ Er). now apply den_rename. }
  destruct (eq_elem e) as [[a b]|] eqn:Ee.
  - destruct (HE a b eq_refl) as [A1 [A2 [A3 A4]]]. unfold convert_sides.
    rewrite (Sub _ A1), (Sub _ A2). cbn [rbind].
    destruct (Pick _ A3) as [ma [M1 _]]. destruct (Pick _ A4) as [mb [M2 _]]. rewrite M1, M2. cbn [rbind]. rewrite P1.
    cbn [rbind]. eexists. split; [reflexivity|]. do 4 (split; [reflexivity|]). split.
    { unfold same_sides. rewrite Ee. cbn. intros en en' R. split; now apply Try. }
    split; [intros a' b' Hab; injection Hab as <- <-; exists a, b; now repeat split|].
    exists n. eexists. split; [reflexivity|]. split; [reflexivity|]. do 3 (split; [reflexivity|]). simpl. split; [|exact P3].
    rewrite P2. intros x. now rewrite uniq_in.
  - cbn [rbind]. rewrite P1. cbn [rbind]. eexists. split; [reflexivity|]. do 4 (split; [reflexivity|]).
    split; [unfold same_sides; now rewrite Ee|]. split; [intros; discriminate|].
    exists n. eexists. split; [reflexivity|]. split; [reflexivity|]. do 3 (split; [reflexivity|]). simpl. split; [|exact P3].
    rewrite P2. intros x. now rewrite uniq_in.
Qed.

(** All of them: [es'] lists what the equations become. *)
Lemma add_equations_ok names w es : forall m (es' : list eqn),
  Forall2 (fun e e' => convert_symbolic names w
             (with_eowner (with_ename e (full_name (object_name (eq_name e) (eq_owner e)) (m_name m))) (m_name m)) = Ok e') es es' ->
  exists at', add_equations m es names w true =
    (mkM (m_name m) (m_vars m) (m_pars m) (m_cons m) (dupdate (m_eqs m) (map (fun e => (eq_name e, e)) es')) (m_in m) (m_out m) at', Ok tt).
Proof.
  induction es as [|e es IH]; intros m es' H; inversion H as [|? e' ? r' Hc Hr]; subst.
  - exists (m_attrs m). simpl. destruct m; reflexivity.
  - simpl. unfold add_equation. rewrite Hc. 
    destruct (IH (set_attr (with_eqs m (dset (eq_name e') e' (m_eqs m))) (object_name (eq_name e) (eq_owner e)) (AEqn e')) r' Hr) as [at' E].
    exists at'. rewrite E. reflexivity.
Qed.

Lemma whole_get m x : NoDup (dkeys (m_vars m)) -> NoDup (dkeys (m_pars m)) -> NoDup (dkeys (m_cons m)) ->
  dget x (whole_objects m) = match dget x (m_vars m) with
                             | Some l => Some l
                             | None => match dget x (m_pars m) with Some l => Some l | None => dget x (m_cons m) end
                             end.
Proof.
  intros N1 N2 N3. unfold whole_objects. rewrite dget_dupdate by exact N1. rewrite dget_dupdate by exact N2.
  rewrite dget_dupdate by exact N3. simpl.
  destruct (dget x (m_vars m)), (dget x (m_pars m)), (dget x (m_cons m)); reflexivity.
Qed.

Lemma Forall2_exists {A B} (P : A -> B -> Prop) l : (forall x, In x l -> exists y, P x y) -> exists l', Forall2 P l l'.
Proof.
  induction l as [|x l IH]; intros H; [exists []; constructor|].
  destruct (H x (or_introl eq_refl)) as [y Hy]. destruct IH as [l' Hl']; [intros z Hz; apply H; now right|].
  exists (y :: l'). now constructor.
Qed.

Lemma Forall2_in_l {A B} (P : A -> B -> Prop) l l' x : Forall2 P l l' -> In x l -> exists y, In y l' /\ P x y.
Proof.
  induction 1 as [|a b l l' Hab Hr IH]; simpl; [tauto|]. intros [->|Hx]; [exists b; auto|].
  destruct (IH Hx) as [y [H1 H2]]. exists y. auto.
Qed.

Lemma copied_keys h h' donor host old cur a : objects_ok h donor old -> copied h h' donor host old cur ->
  In (full_name a donor) (dkeys old) -> In (full_name a host) (dkeys cur).
Proof.
  intros O C Hk. destruct (in_keys_dget _ _ Hk) as [l Hl].
  destruct (proj2 O _ _ (dget_some_in _ _ _ Hl)) as [q [a' [G _]]].
  destruct (C a l q Hl G) as [l' [q' [D _]]]. now apply dget_in_keys in D.
Qed.

Lemma Forall2_nodup {A B} (P : A -> B -> Prop) (f : A -> string) (g : B -> string) l l' :
  Forall2 P l l' -> NoDup (map f l) ->
  (forall x y x' y', In x l -> In x' l -> P x y -> P x' y' -> g y = g y' -> f x = f x') -> NoDup (map g l').
Proof.
  induction 1 as [|a b l l' Hab Hr IH]; simpl; intros ND H; [constructor|].
  inversion ND as [|? ? Hni ND' E]; subst. constructor.
  - intros Hin. apply in_map_iff in Hin. destruct Hin as [b' [Eb Hb']].
    assert (exists a', In a' l /\ P a' b') as [a' [Ha' Hp]].
    { clear - Hr Hb'. induction Hr as [|x y l l' Hxy Hr IH]; [destruct Hb'|].
      destruct Hb' as [->|Hb']; [exists x; simpl; auto|]. destruct (IH Hb') as [a' [H1 H2]]. exists a'. simpl; auto. }
    apply Hni. rewrite (H a b a' b' (or_introl eq_refl) (or_intror Ha') Hab Hp (eq_sym Eb)). now apply in_map.
  - apply IH; [exact ND'|]. intros x y x' y' H1 H2. apply H; now right.
Qed.

(** ** The theorem *)
Lemma incorporate_ok h m d :
  donor_ok h d -> host_ok m -> no_capture d (m_name m) ->
  exists h' m', incorporate h m d inc_default = (h', m', Ok tt) /\ m_name m' = m_name m /\
    (forall l q, hget h l = Some q -> hget h' l = Some q) /\
    copied h h' (m_name d) (m_name m) (m_vars d) (m_vars m') /\
    copied h h' (m_name d) (m_name m) (m_pars d) (m_pars m') /\
    copied h h' (m_name d) (m_name m) (m_cons d) (m_cons m') /\
    kept (m_name d) (m_name m) (m_vars d) (m_vars m) (m_vars m') /\
    kept (m_name d) (m_name m) (m_pars d) (m_pars m) (m_pars m') /\
    kept (m_name d) (m_name m) (m_cons d) (m_cons m) (m_cons m') /\
    (forall a e, dget (full_name a (m_name d)) (m_eqs d) = Some e ->
       exists e', dget (full_name a (m_name m)) (m_eqs m') = Some e' /\
         eq_name e' = full_name a (m_name m) /\ same_equation d m' e e' /\ same_sides d (m_name m) e e') /\
    (forall k, (forall a, k = full_name a (m_name m) -> ~ In (full_name a (m_name d)) (dkeys (m_eqs d))) ->
       dget k (m_eqs m') = dget k (m_eqs m)) /\
    (donor_ok h m -> donor_ok h' m').
Proof.
  destruct m as [host mv mp mc me mi mo ma]. intros Hd [N1 [N2 N3]] HC. cbn [m_name m_vars m_pars m_cons m_eqs] in *. assert (Hd' := Hd). destruct Hd' as [Hne [O1 [O2 [O3 [X [EN EO]]]]]].
  destruct (dict_objects _ _ _ O1) as [qv [V1 [V2 [V3 V4]]]].
  destruct (dict_objects _ _ _ O2) as [qp [P1 [P2 [P3 P4]]]].
  destruct (dict_objects _ _ _ O3) as [qc [C1 [C2 [C3 C4]]]].
  set (dn := m_name d) in *.
  assert (Xv : forallb (fun q => negb (q_exposed q)) qv = true).
  { apply forallb_forall. intros q Hq. apply Bool.negb_true_iff.
    assert (Hk : In (q_name q) (dkeys (m_vars d))) by (rewrite <- V2; now apply in_map).
    assert (HH : In (Some q) (map (hget h) (dvals (m_vars d)))) by (rewrite V1; now apply in_map).
    apply in_map_iff in HH. destruct HH as [l [G Hl]]. unfold dvals in Hl. apply in_map_iff in Hl.
    destruct Hl as [[k l'] [E Hin]]. simpl in E. subst l'. exact (X k l q Hin G). }
  unfold incorporate, inc_default. cbn [i_vars i_pars i_cons i_eqs i_rewrite].
  destruct (add_vars _ h (mkM host mv mp mc me mi mo ma) qv V1 Xv) as [a1 E1]. rewrite E1. clear E1.
  cbn [m_name m_vars m_pars m_cons m_eqs m_in m_out].
  destruct (add_pars (dvals (m_pars d)) (h ++ map (rq host) qv)
             (mkM host (dupdate mv (fresh_entries h host qv)) mp mc me mi mo a1)
             qp (gets_app _ _ _ _ P1)) as [a2 E2]. cbn [m_name m_vars m_pars m_cons m_eqs m_in m_out] in E2. rewrite E2. clear E2. cbn [m_name m_vars m_pars m_cons m_eqs m_in m_out].
  destruct (add_cons (dvals (m_cons d)) ((h ++ map (rq host) qv) ++ map (rq host) qp)
             (mkM host (dupdate mv (fresh_entries h host qv))
                  (dupdate mp (fresh_entries (h ++ map (rq host) qv) host qp)) mc me mi mo a2)
             qc (gets_app _ _ _ _ (gets_app _ _ _ _ C1))) as [a3 E3]. cbn [m_name m_vars m_pars m_cons m_eqs m_in m_out] in E3. rewrite E3. clear E3. cbn [m_name m_vars m_pars m_cons m_eqs m_in m_out].
  set (vs := dupdate mv (fresh_entries h host qv)).
  set (ps := dupdate mp (fresh_entries (h ++ map (rq host) qv) host qp)).
  set (cs := dupdate mc (fresh_entries ((h ++ map (rq host) qv) ++ map (rq host) qp) host qc)).
  set (h' := ((h ++ map (rq host) qv) ++ map (rq host) qp) ++ map (rq host) qc).
  set (m3 := mkM host vs ps cs me mi mo a3).
  assert (Cv : copied h h' dn host (m_vars d) vs).
  { pose proof (copies_there h [] (map (rq host) qp ++ map (rq host) qc) dn host (m_vars d) qv Hne O1 V2 V3 V4 mv) as K.
    rewrite app_nil_r in K. unfold h'. rewrite <- !app_assoc. exact K. }
  assert (Cp : copied h h' dn host (m_pars d) ps).
  { pose proof (copies_there h (map (rq host) qv) (map (rq host) qc) dn host (m_pars d) qp Hne O2 P2 P3 P4 mp) as K.
    unfold h'. rewrite <- (app_assoc (h ++ _)). exact K. }
  assert (Cc : copied h h' dn host (m_cons d) cs).
  { pose proof (copies_there h (map (rq host) qv ++ map (rq host) qp) [] dn host (m_cons d) qc Hne O3 C2 C3 C4 mc) as K.
    rewrite app_nil_r in K. unfold h', cs. rewrite <- (app_assoc h). exact K. }
  assert (M1 : NoDup (dkeys vs)) by now apply nodup_dupdate.
  assert (M2 : NoDup (dkeys ps)) by now apply nodup_dupdate.
  assert (M3 : NoDup (dkeys cs)) by now apply nodup_dupdate.
  assert (Dec : forall x, In x (declared d) -> In (new_name d host x) (declared m3)).
  { intros x Hx. destruct (declared_suffix h d x O1 O2 O3 Hx) as [a ->]. fold dn in Hx |- *.
    unfold dn. rewrite (new_name_full h d host a Hd Hx). fold dn. unfold declared in Hx |- *. cbn [m_vars m_pars m_cons m3].
    rewrite !in_app_iff in Hx |- *.
    destruct Hx as [Hx|[Hx|Hx]]; [left|right; left|right; right].
    - exact (copied_keys _ _ _ _ _ _ _ O1 Cv Hx).
    - exact (copied_keys _ _ _ _ _ _ _ O2 Cp Hx).
    - exact (copied_keys _ _ _ _ _ _ _ O3 Cc Hx). }
  assert (Hw : forall x, In x (declared d) -> dget (new_name d host x) (whole_objects m3) <> None).
  { intros x Hx. apply Dec in Hx. rewrite (whole_get m3) by assumption.
    unfold declared in Hx. rewrite !in_app_iff in Hx.
    destruct Hx as [Hx|[Hx|Hx]]; destruct (in_keys_dget _ _ Hx) as [l Hl]; rewrite Hl.
    - discriminate.
    - destruct (dget _ (m_vars m3)); discriminate.
    - destruct (dget _ (m_vars m3)); [discriminate|]. destruct (dget _ (m_pars m3)); discriminate. }
  set (prep e := with_eowner (with_ename e (full_name (object_name (eq_name e) (eq_owner e)) host)) host).
  assert (Inc : forall k e, In (k, e) (m_eqs d) -> incorporable d (prep e)).
  { intros k e Hin. destruct (EO k e Hin) as [_ [_ [_ I]]]. exact I. }
  destruct (Forall2_exists (fun e e' => convert_symbolic (names_map d host) (whole_objects m3) (prep e) = Ok e')
              (dvals (m_eqs d))) as [es' F].
  { intros e He. unfold dvals in He. apply in_map_iff in He. destruct He as [[k e0] [E Hin]]. simpl in E. subst e0.
    destruct (convert_ok h d host (whole_objects m3) (prep e) Hd HC (Inc k e Hin) Hw) as [e' [K _]]. eauto. }
  destruct (add_equations_ok (names_map d host) (whole_objects m3) (dvals (m_eqs d)) m3 es' F) as [a4 E4].
  fold m3. change (m_name m3) with host. rewrite E4. clear E4.
  eexists. eexists. split; [reflexivity|]. cbn [m_name m_vars m_pars m_cons m_eqs m_in m_out m3].
  split; [reflexivity|]. split; [intros l q G; unfold h'; now do 3 apply hget_app|].
  split; [exact Cv|]. split; [exact Cp|]. split; [exact Cc|].
  split. { pose proof (others_kept h [] dn host (m_vars d) qv Hne O1 V2 V3 mv) as K. rewrite app_nil_r in K. exact K. }
  split. { exact (others_kept h (map (rq host) qv) dn host (m_pars d) qp Hne O2 P2 P3 mp). }
  split. { pose proof (others_kept h (map (rq host) qv ++ map (rq host) qp) dn host (m_cons d) qc Hne O3 C2 C3 mc) as K.
           rewrite app_assoc in K. exact K. }
  (* equations *)
  assert (Nm : forall e e', In e (dvals (m_eqs d)) -> convert_symbolic (names_map d host) (whole_objects m3) (prep e) = Ok e' ->
             exists a, eq_name e = full_name a dn /\ eq_name e' = full_name a host /\ dget (full_name a dn) (m_eqs d) = Some e).
  { intros e e' He Hc. unfold dvals in He. apply in_map_iff in He. destruct He as [[k e0] [E Hin]]. simpl in E. subst e0.
    destruct (EO k e Hin) as [K1 [[a K2] [K3 K4]]].
    destruct (convert_ok h d host (whole_objects m3) (prep e) Hd HC (Inc k e Hin) Hw) as [e2 [K [K5 _]]].
    replace e2 with e' in K5 by congruence. exists a. split; [congruence|]. split.
    - rewrite K5. unfold prep. simpl. rewrite K1, K3, K2. now rewrite object_full.
    - rewrite <- K2. now apply in_dget_nodup. }
  assert (ND' : NoDup (dkeys (map (fun e => (eq_name e, e)) es'))).
  { unfold dkeys. rewrite map_map. simpl.
    apply (Forall2_nodup _ eq_name eq_name _ _ F).
    - unfold dvals. rewrite map_map. rewrite (map_ext_in _ fst); [exact EN|].
      intros [k e] Hin. apply (EO k e Hin).
    - intros x y x' y' I1 I2 F1 F2 E. destruct (Nm x y I1 F1) as [a [A1 [A2 _]]]. destruct (Nm x' y' I2 F2) as [b [B1 [B2 _]]].
      rewrite A2, B2 in E. apply full_inj_same in E. congruence. }
  split; [|split].
  - intros a e Ha. assert (He : In e (dvals (m_eqs d))) by (apply dget_some_in in Ha; now apply (in_map snd) in Ha).
    destruct (Forall2_in_l _ _ _ _ F He) as [e' [He' Hc]]. exists e'.
    destruct (Nm e e' He Hc) as [b [B1 [B2 B3]]].
    assert (full_name a dn = full_name b dn).
    { rewrite <- B1. symmetry. apply dget_some_in in Ha. apply (EO _ _ Ha). }
    apply full_inj_same in H. subst b.
    split.
    { rewrite dget_dupdate by exact ND'.
      rewrite (in_dget_nodup (full_name a host) e' _ ND'); [reflexivity|].
      apply in_map_iff. exists e'. split; [now rewrite B2|exact He']. }
    split; [exact B2|].
    assert (Hin := dget_some_in _ _ _ Ha).
    destruct (convert_ok h d host (whole_objects m3) (prep e) Hd HC (Inc _ e Hin) Hw) as [e2 [K [K5 [K6 [K7 [K8 [K9 K10]]]]]]].
    replace e2 with e' in * by congruence. split; [|exact K9].
    destruct K10 as [_ [n [n' [L1 [L2 [L3 [L4 [L5 [L6 L7]]]]]]]]].
    split; [exact K7|]. split; [exact K8|]. split; [exact K6|]. exists n, n'.
    split; [exact L1|]. split; [exact L2|].
    split; [intros en en' [R1 R2]; rewrite L3; now apply den_rename|].
    split; [intros en en' [R1 R2]; rewrite L4; now apply den_rename|].
    split.
    { rewrite L3, fsyms_rename. intros x Hx. apply in_map_iff in Hx. destruct Hx as [y [<- Hy]].
      destruct (Inc _ e Hin) as [[n0 [I1 [_ [_ [I2 _]]]]] _]. replace n0 with n in I2 by congruence.
      exact (Dec y (I2 y Hy)). }
    split; [exact L5|]. split; [exact L6|].
    intros x l Hx. apply L7 in Hx. rewrite (whole_get m3) in Hx by assumption. cbn [m_vars m_pars m_cons m3] in Hx.
    cbn [m_vars m_pars m_cons]. destruct (dget x vs); [now left|]. destruct (dget x ps); [now (right; left)|]. now (right; right).
  - intros k Hk. rewrite dget_dupdate by exact ND'.
    assert (dget k (map (fun e => (eq_name e, e)) es') = None) as ->; [|reflexivity].
    apply dget_none_iff. unfold dkeys. rewrite map_map. simpl. intros Hin. apply in_map_iff in Hin.
    destruct Hin as [e' [Ee He']].
    assert (exists e, In e (dvals (m_eqs d)) /\ convert_symbolic (names_map d host) (whole_objects m3) (prep e) = Ok e') as [e [He Hc]].
    { clear - F He'. induction F as [|x y l l' Hxy Hr IH]; [destruct He'|].
      destruct He' as [->|He']; [exists x; simpl; auto|]. destruct (IH He') as [a' [H1 H2]]. exists a'. simpl; auto. }
    destruct (Nm e e' He Hc) as [a [A1 [A2 A3]]]. apply (Hk a); [congruence|]. now apply dget_in_keys in A3.
  - intros [G1 [G2 [G3 [G4 [G5 [G6 G7]]]]]]. cbn [m_name m_vars m_pars m_cons m_eqs] in *.
    split; [exact G1|]. cbn [m_name m_vars m_pars m_cons m_eqs].
    assert (PV := fresh_objects h [] (map (rq host) qp ++ map (rq host) qc) dn host (m_vars d) qv Hne O1 V2 V3).
    rewrite app_nil_r, !app_assoc in PV. fold h' in PV.
    assert (PP := fresh_objects h (map (rq host) qv) (map (rq host) qc) dn host (m_pars d) qp Hne O2 P2 P3).
    rewrite app_assoc in PP. fold h' in PP.
    assert (PC := fresh_objects h (map (rq host) qv ++ map (rq host) qp) [] dn host (m_cons d) qc Hne O3 C2 C3).
    rewrite app_nil_r, app_assoc in PC. fold h' in PC.
    assert (Ext : forall dd, objects_ok h host dd -> objects_ok h' host dd)
      by (intros dd HH; unfold h'; now do 3 apply objects_exist).
    split; [apply objects_update; [now apply Ext|]; intros k l Hin; destruct (PV k l Hin) as [q [_ R]]; eauto|].
    split; [apply objects_update; [now apply Ext|]; intros k l Hin; destruct (PP k l Hin) as [q [_ R]]; eauto|].
    split; [apply objects_update; [now apply Ext|]; intros k l Hin; destruct (PC k l Hin) as [q [_ R]]; eauto|].
    split.
    { intros k l q Hin Hq. apply in_dupdate in Hin. destruct Hin as [Hin|Hin].
      - destruct (PV k l Hin) as [q0 [Hq0 [E0 _]]]. rewrite E0 in Hq. injection Hq as <-.
        rewrite forallb_forall in Xv. specialize (Xv q0 Hq0). now apply Bool.negb_true_iff in Xv.
      - destruct (proj2 G2 k l Hin) as [q0 [a0 [E0 _]]].
        assert (hget h' l = Some q0) by (unfold h'; now do 3 apply hget_app).
        replace q with q0 by congruence. exact (G5 k l q0 Hin E0). }
    split; [now apply nodup_dupdate|].
    assert (Mono : incl (dkeys mv ++ dkeys mp ++ dkeys mc) (declared m3)).
    { intros x. unfold declared. cbn [m_vars m_pars m_cons m3]. rewrite !in_app_iff. unfold vs, ps, cs.
      rewrite !in_dkeys_dupdate. tauto. }
    intros k e Hin. apply in_dupdate in Hin. destruct Hin as [Hin|Hin].
    + apply in_map_iff in Hin. destruct Hin as [e' [Ee He']]. injection Ee as <- <-.
      assert (exists e0, In e0 (dvals (m_eqs d)) /\ convert_symbolic (names_map d host) (whole_objects m3) (prep e0) = Ok e') as [e0 [He Hc]].
      { clear - F He'. induction F as [|x y l l' Hxy Hr IH]; [destruct He'|].
        destruct He' as [->|He']; [exists x; simpl; auto|]. destruct (IH He') as [a' [H1 H2]]. exists a'. simpl; auto. }
      destruct (Nm e0 e' He Hc) as [a [A1 [A2 A3]]]. apply dget_some_in in A3.
      assert (I := Inc _ e0 A3).
      destruct (convert_ok h d host (whole_objects m3) (prep e0) Hd HC I Hw)
        as [e2 [K [K5 [K6 [K7 [K8 [K9 [K10 [n [n' [L1 [L2 [L3 [L4 _]]]]]]]]]]]]]].
      replace e2 with e' in * by congruence.
      split; [reflexivity|]. split; [eauto|]. split; [exact K6|].
      destruct I as [[n0 [I1 [I2 [I3 [I4 I5]]]]] I6]. replace n0 with n in * by congruence.
      assert (RI : forall s, incl (fsyms s) (declared d) -> incl (fsyms (rename (new_name d host) s)) (declared m3)).
      { intros s Hs x Hx. rewrite fsyms_rename in Hx. apply in_map_iff in Hx. destruct Hx as [y [<- Hy]]. exact (Dec y (Hs y Hy)). }
      split.
      * exists n'. rewrite L3, L4, !raw_renamed. split; [exact L2|]. split; [exact I2|]. split; [exact I3|].
        split; [exact (RI _ I4)|exact (RI _ I5)].
      * intros a' b' Hab. destruct (K10 a' b' Hab) as [a0 [b0 [S0 [S1 S2]]]].
        destruct (I6 a0 b0 S0) as [T1 [T2 [T3 T4]]]. rewrite S1, S2, !raw_renamed.
        split; [exact T1|]. split; [exact T2|]. split; [exact (RI _ T3)|exact (RI _ T4)].
    + destruct (G7 k e Hin) as [A1 [A2 [A3 [[n [B1 [B2 [B3 [B4 B5]]]]] A5]]]].
      split; [exact A1|]. split; [exact A2|]. split; [exact A3|]. split.
      * exists n. split; [exact B1|]. split; [exact B2|]. split; [exact B3|].
        split; [exact (incl_tran B4 Mono)|exact (incl_tran B5 Mono)].
      * intros a b Hab. destruct (A5 a b Hab) as [T1 [T2 [T3 T4]]]. split; [exact T1|]. split; [exact T2|].
        split; [exact (incl_tran T3 Mono)|exact (incl_tran T4 Mono)].
Qed.

(** ** Chains *)
Lemma fresh_donor_ok h n : n <> "" -> donor_ok h (new_model n).
Proof.
  intros Hn. split; [exact Hn|]. simpl.
  split; [split; [constructor|intros k l []]|]. split; [split; [constructor|intros k l []]|].
  split; [split; [constructor|intros k l []]|]. split; [intros k l q []|]. split; [constructor|intros k e []].
Qed.

Lemma no_underscore_capture d host : no_underscore (m_name d) -> no_underscore host -> no_capture d host.
Proof. intros H1 H2 a b _ _ E. now destruct (full_inj a host b (m_name d) H2 H1 E). Qed.

Lemma copied_trans h h1 h2 a b c (d0 d1 d2 : dict loc) : (List.length h <= List.length h1)%nat ->
  copied h h1 a b d0 d1 -> copied h1 h2 b c d1 d2 -> copied h h2 a c d0 d2.
Proof.
  intros L H1 H2 x l q Hl Hq. destruct (H1 x l q Hl Hq) as [l1 [q1 [A1 [A2 [A3 A4]]]]].
  destruct (H2 x l1 q1 A1 A2) as [l2 [q2 [B1 [B2 [B3 B4]]]]]. exists l2, q2.
  split; [exact B1|]. split; [exact B2|]. split; [lia|].
  destruct A4 as (P1 & P2 & P3 & P4 & P5 & P6 & P7). destruct B4 as (R1 & R2 & R3 & R4 & R5 & R6 & R7).
  repeat split; congruence.
Qed.

Lemma prefix_length (h h' : heap) : (forall l q, hget h l = Some q -> hget h' l = Some q) -> (List.length h <= List.length h')%nat.
Proof.
  intros H. destruct (Nat.le_gt_cases (List.length h) (List.length h')) as [L|L]; [exact L|exfalso].
  destruct (nth_error h (List.length h')) as [q|] eqn:E; [|apply nth_error_None in E; lia].
  apply H in E. apply hget_lt in E. lia.
Qed.

Lemma chain_ok hosts : forall h d,
  donor_ok h d -> no_underscore (m_name d) -> (forall n, In n hosts -> n <> "" /\ no_underscore n) -> hosts <> [] ->
  exists h' m', inc_chain h d hosts inc_default = (h', m', Ok tt) /\ m_name m' = last hosts "" /\ donor_ok h' m' /\
    (forall l q, hget h l = Some q -> hget h' l = Some q) /\
    copied h h' (m_name d) (m_name m') (m_vars d) (m_vars m') /\
    copied h h' (m_name d) (m_name m') (m_pars d) (m_pars m') /\
    copied h h' (m_name d) (m_name m') (m_cons d) (m_cons m') /\
    (forall a, In (full_name a (m_name d)) (dkeys (m_eqs d)) -> In (full_name a (m_name m')) (dkeys (m_eqs m'))).
Proof.
  induction hosts as [|n r IH]; intros h d Hd Hu Hn Hne; [contradiction|].
  destruct (Hn n (or_introl eq_refl)) as [N1 N2].
  destruct (incorporate_ok h (new_model n) d Hd ltac:(repeat split; constructor) (no_underscore_capture _ _ Hu N2))
    as [h1 [m1 [E [M [P [C1 [C2 [C3 [_ [_ [_ [Q [_ D]]]]]]]]]]]]].
  cbn [m_name new_model] in *. specialize (D (fresh_donor_ok h n N1)).
  simpl. rewrite E. destruct r as [|n2 r].
  - exists h1, m1. simpl. rewrite M. repeat (split; [first [reflexivity|assumption]|]).
    intros a Ha. destruct (in_keys_dget _ _ Ha) as [e He]. destruct (Q a e He) as [e' [Q1 _]]. now apply dget_in_keys in Q1.
  - assert (U1 : no_underscore (m_name m1)) by now rewrite M.
    destruct (IH h1 m1 D U1) as [h2 [m2 [E2 [M2 [D2 [P2 [B1 [B2 [B3 B4]]]]]]]]].
    { intros x Hx. apply Hn. now right. } { discriminate. }
    rewrite M in B1, B2, B3, B4. exists h2, m2. split; [exact E2|]. split; [exact M2|]. split; [exact D2|].
    split; [intros l q G; apply P2, P, G|].
    assert (L := prefix_length _ _ P).
    split; [exact (copied_trans _ _ _ _ _ _ _ _ _ L C1 B1)|].
    split; [exact (copied_trans _ _ _ _ _ _ _ _ _ L C2 B2)|].
    split; [exact (copied_trans _ _ _ _ _ _ _ _ _ L C3 B3)|].
    intros a Ha. apply B4. destruct (in_keys_dget _ _ Ha) as [e He]. destruct (Q a e He) as [e' [Q1 _]]. now apply dget_in_keys in Q1.
Qed.

(** ** Models made by declaration scripts can be incorporated *)
Lemma build_repr_nonempty h e : forall n, minmax_free e = true -> build h e = Ok n -> fsyms (nd_repr n) <> [].
Proof.
  induction e as [l|o a IHa b IHb|o a IHa k|o k a IHa|f a IHa|f k|l t|mx l]; intros n Hm H; simpl in H, Hm.
  - apply build_qty_shape in H. destruct H as [q [E ->]]. unfold qty_call. destruct (q_spec q); discriminate.
  - apply andb_prop in Hm. destruct Hm as [M1 M2]. binv. apply node_op_ok_shape in H.
    destruct H as [_ [_ [_ [_ [_ H]]]]]. specialize (IHa _ M1 Hb). destruct (fsyms (nd_repr x)) as [|y l] eqn:E; [contradiction|].
    intros Z. rewrite Z in H. destruct (proj2 (H y)). left. now left.
  - binv. apply node_op_num_shape in H. destruct H as [_ [_ [_ [_ [_ H]]]]]. specialize (IHa _ Hm Hb).
    destruct (fsyms (nd_repr x)) as [|y l] eqn:E; [contradiction|]. intros Z. rewrite Z in H. destruct (proj2 (H y)). now left.
  - binv. apply node_rop_shape in H. destruct H as [_ [_ [_ [_ [_ H]]]]]. specialize (IHa _ Hm Hb).
    destruct (fsyms (nd_repr x)) as [|y l] eqn:E; [contradiction|]. intros Z. rewrite Z in H. destruct (proj2 (H y)). now left.
  - binv. apply node_fun_shape in H. subst n. exact (IHa _ Hm Hb).
  - discriminate.
  - apply build_diff_shape in H. destruct H as [q [E [_ [_ [p [Ep [Hp [_ [-> _]]]]]]]]]. discriminate.
  - discriminate.
Qed.

Lemma nonempty_not_raw e : fsyms e <> [] -> is_raw e = false.
Proof. intros H. destruct (is_raw e) eqn:E; [|reflexivity]. now apply raw_fsyms in E. Qed.

Lemma resolve_minmax_free {A B} (f : A -> res B) e : forall e', resolve f e = Ok e' -> minmax_free e = true -> minmax_free e' = true.
Proof.
  induction e as [l|o a IHa b IHb|o a IHa k|o k a IHa|g a IHa|g k|l t|mx l]; intros e' H Hm; simpl in H, Hm.
  - binv. reflexivity.
  - apply andb_prop in Hm. destruct Hm as [M1 M2]. binv. simpl. now rewrite (IHa _ Hb M1), (IHb _ Hb0 M2).
  - binv. simpl. now apply (IHa _ Hb).
  - binv. simpl. now apply (IHa _ Hb).
  - binv. simpl. now apply (IHa _ Hb).
  - binv. reflexivity.
  - destruct t; binv; reflexivity.
  - discriminate.
Qed.

(** incorporable without asking for an unknown *)
Definition displayed (m : mstate) (e : eqn) : Prop :=
  (exists n, eq_expr e = Some n /\ is_raw (nd_repr n) = false /\
             incl (fsyms (nd_sym n)) (declared m) /\ incl (fsyms (nd_repr n)) (declared m)) /\
  (forall a b, eq_elem e = Some (a, b) ->
     is_raw (nd_repr a) = false /\ is_raw (nd_repr b) = false /\
     incl (fsyms (nd_repr a)) (declared m) /\ incl (fsyms (nd_repr b)) (declared m)).

Definition scripted (h : heap) (m : mstate) : Prop :=
  objects_ok h (m_name m) (m_vars m) /\ objects_ok h (m_name m) (m_pars m) /\
  objects_ok h (m_name m) (m_cons m) /\ not_exposed h (m_vars m) /\
  NoDup (dkeys (m_eqs m)) /\
  (forall k e, In (k, e) (m_eqs m) -> eq_name e = k /\ (exists a, k = full_name a (m_name m)) /\
                                     eq_owner e = m_name m /\ displayed m e).

Lemma displayed_mono m m' e : displayed m e -> incl (declared m) (declared m') -> displayed m' e.
Proof.
  intros [[n [B1 [B3 [B4 B5]]]] A5] Mono. split.
  - exists n. split; [exact B1|]. split; [exact B3|]. split; [exact (incl_tran B4 Mono)|exact (incl_tran B5 Mono)].
  - intros a b Hab. destruct (A5 a b Hab) as [T1 [T2 [T3 T4]]]. split; [exact T1|]. split; [exact T2|].
    split; [exact (incl_tran T3 Mono)|exact (incl_tran T4 Mono)].
Qed.

Lemma objects_add h host d q a : objects_ok h host d -> q_name q = full_name a host -> q_owner q = host ->
  objects_ok (h ++ [q]) host (dset (q_name q) (List.length h) d).
Proof.
  intros O E1 E2. change (dset (q_name q) (List.length h) d) with (dupdate d [(q_name q, List.length h)]).
  apply objects_update; [now apply objects_exist|]. intros k l [E|[]]. injection E as <- <-. exists q.
  split; [unfold hget; rewrite nth_error_app2, Nat.sub_diag by lia; reflexivity|]. split; [reflexivity|].
  split; [eauto|exact E2].
Qed.

Lemma exposed_app h t host d : objects_ok h host d -> not_exposed h d -> not_exposed (h ++ t) d.
Proof.
  intros O H k l q Hin Hq. destruct (proj2 O k l Hin) as [q0 [a [G _]]].
  assert (E := hget_app h t l q0 G). replace q with q0 by congruence. exact (H k l q0 Hin G).
Qed.

(** The heap may change as long as names, owners and exposure stay. *)
Definition same_ids (h h' : heap) : Prop :=
  forall l q, hget h l = Some q -> exists q', hget h' l = Some q' /\ q_name q' = q_name q /\ q_owner q' = q_owner q /\
                                             q_exposed q' = q_exposed q.

Lemma scripted_ids h h' m m' : same_ids h h' -> scripted h m ->
  m_name m' = m_name m -> m_vars m' = m_vars m -> m_pars m' = m_pars m -> m_cons m' = m_cons m -> m_eqs m' = m_eqs m ->
  scripted h' m'.
Proof.
  intros S [O1 [O2 [O3 [X [N E]]]]] E0 E1 E2 E3 E4.
  assert (K : forall d, objects_ok h (m_name m) d -> objects_ok h' (m_name m) d).
  { intros d [ND H]. split; [exact ND|]. intros k l Hin. destruct (H k l Hin) as [q [a [G [A [B C]]]]].
    destruct (S l q G) as [q' [G' [S1 [S2 S3]]]]. exists q', a. repeat split; congruence. }
  unfold scripted. rewrite E0, E1, E2, E3, E4. split; [now apply K|]. split; [now apply K|]. split; [now apply K|].
  split.
  { intros k l q' Hin Hq. destruct (proj2 O1 k l Hin) as [q [a [G _]]].
    destruct (S l q G) as [q2 [G' [S1 [S2 S3]]]]. replace q' with q2 by congruence. rewrite S3. exact (X k l q Hin G). }
  split; [exact N|]. intros k e Hin. destruct (E k e Hin) as [A [B [C D]]]. repeat (split; [assumption|]).
  apply (displayed_mono m); [exact D|]. unfold declared. rewrite E1, E2, E3. apply incl_refl.
Qed.

Lemma same_ids_refl h : same_ids h h.
Proof. intros l q G. exists q. auto. Qed.

Lemma set_value_exposed q a u q' : set_value q a u = Ok q' -> q_exposed q' = q_exposed q.
Proof.
  destruct a as [p|[z|f]|]; simpl.
  - destruct (isinstance_of p q); [|discriminate]. destruct u; [discriminate|].
    destruct (coherent (q_units p) (q_units q)) as [[]|]; simpl; try discriminate.
    intros H; injection H as <-. reflexivity.
  - destruct u as [v|].
    + destruct (coherent v (q_units q)) as [[]|]; simpl; try discriminate.
      intros H; injection H as <-. reflexivity.
    + intros H; injection H as <-. reflexivity.
  - intros H; injection H as <-. reflexivity.
  - discriminate.
Qed.

Lemma set_value_ids h l a u : same_ids h (fst (heap_set_value h l a u)).
Proof.
  unfold heap_set_value. destruct (hget h l) as [q|] eqn:E; [|apply same_ids_refl].
  destruct (set_value q a u) as [q'|x] eqn:Es; [|apply same_ids_refl]. simpl.
  intros i p G. destruct (Nat.eq_dec i l) as [->|Hne].
  - exists q'. rewrite hget_hset_eq by now apply hget_lt in E. replace p with q by congruence.
    destruct (set_value_effect _ _ _ _ Es) as (_ & _ & _ & N & _ & O & _). apply set_value_exposed in Es. auto.
  - exists p. rewrite hget_hset_neq by exact Hne. auto.
Qed.

Lemma set_domain_ids h l q : hget h l = Some q -> same_ids h (hset h l (set_domain q)).
Proof.
  intros E i p G. destruct (Nat.eq_dec i l) as [->|Hne].
  - exists (set_domain q). rewrite hget_hset_eq by now apply hget_lt in E. replace p with q by congruence. auto.
  - exists p. rewrite hget_hset_neq by exact Hne. auto.
Qed.

Lemma run_cmd_scripted c w w' : incorporable_cmd c = true -> run_cmd w c = (w', Ok tt) ->
  scripted (w_heap w) (w_mod w) -> scripted (w_heap w') (w_mod w') /\ m_name (w_mod w') = m_name (w_mod w).
Proof.
  intros Hc H S. destruct w as [h u m]. cbn [w_heap w_mod w_uids] in *.
  destruct c as [a n un ex ty v|a n un v|a n un v|a v un|a|a n q check]; simpl in H.
  - simpl in Hc. apply Bool.negb_true_iff in Hc. subst ex. unfold assign_qty, create_variable in H. injection H as <-. cbn [w_heap w_mod].
    split; [|reflexivity]. destruct S as [O1 [O2 [O3 [X [N E]]]]]. unfold scripted. simpl.
    set (q := mkQty KVariable (full_name n (m_name m)) un v false (m_name m) false ty false).
    split; [exact (objects_add h _ _ q n O1 eq_refl eq_refl)|].
    split; [now apply objects_exist|]. split; [now apply objects_exist|]. split.
    { intros k l q' Hin Hq. apply in_dset in Hin. destruct Hin as [[-> ->]|Hin].
      - unfold hget in Hq. rewrite nth_error_app2, Nat.sub_diag in Hq by lia. injection Hq as <-. reflexivity.
      - exact (exposed_app h [q] _ _ O1 X k l q' Hin Hq). }
    split; [exact N|]. intros k e Hin. destruct (E k e Hin) as [A [B [C D]]]. repeat (split; [assumption|]).
    apply (displayed_mono m); [exact D|]. apply declared_vars.
  - unfold assign_qty, create_parameter in H. injection H as <-. cbn [w_heap w_mod].
    split; [|reflexivity]. destruct S as [O1 [O2 [O3 [X [N E]]]]]. unfold scripted. simpl.
    set (q := mkQty KParameter (full_name n (m_name m)) un v false (m_name m) false "" false).
    split; [now apply objects_exist|]. split; [exact (objects_add h _ _ q n O2 eq_refl eq_refl)|].
    split; [now apply objects_exist|]. split; [now apply (exposed_app h [q] (m_name m))|].
    split; [exact N|]. intros k e Hin. destruct (E k e Hin) as [A [B [C D]]]. repeat (split; [assumption|]).
    apply (displayed_mono m); [exact D|]. apply declared_pars.
  - unfold assign_qty, create_constant in H. injection H as <-. cbn [w_heap w_mod].
    split; [|reflexivity]. destruct S as [O1 [O2 [O3 [X [N E]]]]]. unfold scripted. simpl.
    set (q := mkQty KConstant (full_name n (m_name m)) un v false (m_name m) false "" false).
    split; [now apply objects_exist|]. split; [now apply objects_exist|].
    split; [exact (objects_add h _ _ q n O3 eq_refl eq_refl)|]. split; [now apply (exposed_app h [q] (m_name m))|].
    split; [exact N|]. intros k e Hin. destruct (E k e Hin) as [A [B [C D]]]. repeat (split; [assumption|]).
    apply (displayed_mono m); [exact D|]. apply declared_cons.
  - destruct (attr_qty m a) as [l|x]; [|discriminate].
    destruct (match v with SANum n => _ | SAAttr b => _ end) as [sv|x]; [|discriminate].
    pose proof (set_value_ids h l sv un) as I.
    destruct (heap_set_value h l sv un) as [h' r']. injection H as <- _. cbn [w_heap w_mod fst] in *. split; [|reflexivity].
    now apply (scripted_ids h h' m m I).
  - destruct (attr_qty m a) as [l|x]; [|discriminate].
    destruct (hget h l) as [q|] eqn:G; [|discriminate].
    destruct (qkind_eqb (q_kind q) KVariable); [|discriminate]. injection H as <-. cbn [w_heap w_mod]. split; [|reflexivity].
    now apply (scripted_ids h _ m m (set_domain_ids h l q G)).
  - destruct (rbind (resolve_eq (attr_qty m) q) (fun q' => build_eq h q')) as [arg|x] eqn:Eb; [|discriminate].
    binv. rename x into q'.
    assert (Hch : check = true /\ match q' with UResid e => minmax_free e = true
                  | UElem l r => minmax_free l = true /\ minmax_free r = true | UElemN _ _ => False end).
    { destruct q as [e|l r|l k]; simpl in Hc, Hb.
      - apply andb_prop in Hc. destruct Hc as [C1 C2]. binv. split; [reflexivity|]. now apply resolve_minmax_free with (1 := Hb0).
      - apply andb_prop in Hc. destruct Hc as [C1 C2]. apply andb_prop in C1. destruct C1 as [C0 C1]. binv.
        split; [reflexivity|]. split; [now apply resolve_minmax_free with (1 := Hb0)|now apply resolve_minmax_free with (1 := Hb1)].
      - discriminate. }
    destruct Hch as [-> Hch].
    destruct (create_equation (mkW h u m) n (Some arg) true) as [w1 [e|x1]] eqn:Ec; [|discriminate].
    injection H as <-. cbn [w_heap w_mod].
    destruct (create_outcome (mkW h u m) n arg true) as [u' EE]. rewrite EE in Ec. clear EE. cbn [w_heap w_mod w_uids] in *.
    destruct (set_residual _ arg) as [e0 [[]|x2]] eqn:Er; [|discriminate].
    assert (D := Er). apply (eq_data _ _ _ _ _ Eb) in D.
    destruct D as [nd [En [_ [_ [_ [M [I1 [I2 [_ Sd]]]]]]]]]. rewrite En in Ec. cbv zeta in Ec.
    destruct (forallb _ _) eqn:F; [|discriminate]. injection Ec as <- <-. cbn [w_heap w_mod].
    apply forallb_mem in F.
    split; [|reflexivity]. destruct S as [O1 [O2 [O3 [X [N E]]]]]. unfold scripted.
    cbn [set_attr with_attrs with_eqs m_name m_vars m_pars m_cons m_eqs].
    split; [exact O1|]. split; [exact O2|]. split; [exact O3|]. split; [exact X|].
    split; [now apply nodup_dset|].
    intros k e Hin. apply in_dset in Hin. destruct Hin as [[-> ->]|Hin].
    + split; [reflexivity|]. split; [unfold stored_name; cbn [w_mod]; eauto|]. split; [reflexivity|].
      change (displayed m (mkEqn (stored_name (mkW h u m) n) (Some nd) (eq_elem e0) (eq_elementary e0) (eq_type e0) (Some (nd_smap nd)) (m_name m))).
      split.
      * exists nd. split; [reflexivity|]. split.
        { apply nonempty_not_raw. destruct q' as [x|l r|l k]; simpl in Eb; binv.
          - unfold set_residual, finish_residual in Er. cbv beta iota zeta delta [with_form with_expr with_elem with_type with_objs eq_expr eq_elem eq_name eq_elementary eq_type eq_owner] in Er. injection Er as Er. subst e0. cbn [eq_expr] in En. injection En as <-.
            exact (build_repr_nonempty h x _ Hch Hb0).
          - unfold set_residual in Er. destruct (node_sub x (ONode x0)) as [dd|] eqn:Es; [|discriminate].
            unfold finish_residual in Er. cbv beta iota zeta delta [with_form with_expr with_elem with_type with_objs eq_expr eq_elem eq_name eq_elementary eq_type eq_owner] in Er. injection Er as Er. subst e0. cbn [eq_expr] in En. injection En as <-.
            assert (Hbd : build h (UBin BSub l r) = Ok dd) by (simpl; rewrite Hb0; simpl; rewrite Hb1; exact Es).
            apply (build_repr_nonempty h (UBin BSub l r)); [|exact Hbd]. simpl. destruct Hch as [-> ->]. reflexivity.
          - destruct Hch. }
        split; [exact (incl_tran I1 F)|exact (incl_tran I2 F)].
      * cbn [eq_elem]. intros a0 b0 Hab. destruct (Sd a0 b0 Hab) as [[_ [_ A3]] [[_ [_ B3]] [A4 B4]]].
        assert (is_raw (nd_repr a0) = false /\ is_raw (nd_repr b0) = false) as [R1 R2].
        { destruct q' as [x|l r|l k]; simpl in Eb; binv.
          - unfold set_residual, finish_residual in Er. cbv beta iota zeta delta [with_form with_expr with_elem with_type with_objs eq_expr eq_elem eq_name eq_elementary eq_type eq_owner] in Er. injection Er as Er. subst e0. discriminate.
          - unfold set_residual in Er. destruct (node_sub x (ONode x0)) as [dd|] eqn:Es; [|discriminate].
            unfold finish_residual in Er. cbv beta iota zeta delta [with_form with_expr with_elem with_type with_objs eq_expr eq_elem eq_name eq_elementary eq_type eq_owner] in Er. injection Er as Er. subst e0. cbn [eq_elem] in Hab. injection Hab as <- <-.
            destruct Hch as [M1 M2]. split; apply nonempty_not_raw.
            + exact (build_repr_nonempty h l _ M1 Hb0).
            + exact (build_repr_nonempty h r _ M2 Hb1).
          - destruct Hch. }
        split; [exact R1|]. split; [exact R2|]. split; [exact (incl_tran A3 (incl_tran A4 F))|exact (incl_tran B3 (incl_tran B4 F))].
    + exact (E k e Hin).
Qed.

Lemma run_cmds_scripted cs : forall w w', forallb incorporable_cmd cs = true -> run_cmds w cs = (w', Ok tt) ->
  scripted (w_heap w) (w_mod w) -> scripted (w_heap w') (w_mod w') /\ m_name (w_mod w') = m_name (w_mod w).
Proof.
  induction cs as [|c cs IH]; intros w w' Hc H S; simpl in *.
  - injection H as <-. auto.
  - apply andb_prop in Hc. destruct Hc as [H1 H2].
    destruct (run_cmd w c) as [w1 [[]|x]] eqn:E; [|discriminate].
    destruct (run_cmd_scripted c w w1 H1 E S) as [S1 M1]. destruct (IH w1 w' H2 H S1) as [S2 M2]. split; [exact S2|congruence].
Qed.

Lemma script_donor name h u cs w' : name <> "" -> forallb incorporable_cmd cs = true ->
  run_cmds (mkW h u (new_model name)) cs = (w', Ok tt) -> has_unknowns (w_mod w') ->
  donor_ok (w_heap w') (w_mod w') /\ m_name (w_mod w') = name.
Proof.
  intros Hn Hc H Hu.
  destruct (run_cmds_scripted cs _ w' Hc H) as [[O1 [O2 [O3 [X [N E]]]]] M].
  { destruct (fresh_donor_ok h name Hn) as [_ [P1 [P2 [P3 [P4 [P5 P6]]]]]]. repeat (split; [assumption|]). intros k e []. }
  cbn [w_mod new_model m_name] in M. split; [|exact M].
  split; [now rewrite M|]. split; [exact O1|]. split; [exact O2|]. split; [exact O3|]. split; [exact X|].
  split; [exact N|]. intros k e Hin. destruct (E k e Hin) as [A [B [C [[n [B1 [B3 [B4 B5]]]] D]]]]. repeat (split; [assumption|]).
  split; [|exact D]. exists n. split; [exact B1|]. split; [apply nonempty_not_raw; exact (Hu k e n Hin B1)|].
  split; [exact B3|]. split; [exact B4|exact B5].
Qed.
