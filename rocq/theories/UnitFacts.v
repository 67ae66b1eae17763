(** Lemmas about units: lookup characterisations and whole-number exponents. *)
From Verif Require Import Base BaseFacts Num NumFacts UnitModel.
From Coq Require Import Reals.
From Flocq Require Import Core BinarySingleNaN.
Notation num := Verif.Num.num.
Open Scope Z_scope.

Definition base_keys : list string := ["m"; "kg"; "s"; "A"; "K"; "mol"; "cd"].

(** Every Unit ever built satisfies this. *)
Definition wf_unit (u : unit) : Prop :=
  NoDup (dkeys (u_dim u)) /\ incl base_keys (dkeys (u_dim u)).

Lemma base_dim_nodup : NoDup (dkeys base_dim).
Proof. repeat constructor; simpl; intuition discriminate. Qed.

Lemma unit_init_dim n d : u_dim (unit_init n d) = dupdate base_dim (sort_items d).
Proof. reflexivity. Qed.

Lemma unit_init_wf n d : wf_unit (unit_init n d).
Proof.
  split; rewrite unit_init_dim.
  - apply nodup_dupdate, base_dim_nodup.
  - intros k Hk. apply in_dkeys_dupdate. left. exact Hk.
Qed.

Lemma dget_unit_init k n d :
  NoDup (dkeys d) ->
  dget k (u_dim (unit_init n d))
  = match dget k d with Some v => Some v | None => dget k base_dim end.
Proof.
  intros ND. rewrite unit_init_dim, dget_dupdate by now apply sort_items_nodup.
  now rewrite dget_sort_items.
Qed.

Lemma in_keys_unit_init k n d :
  In k (dkeys (u_dim (unit_init n d))) <-> In k base_keys \/ In k (dkeys d).
Proof. rewrite unit_init_dim, in_dkeys_dupdate, sort_items_keys. reflexivity. Qed.

Lemma base_dim_notin k : ~ In k base_keys -> dget k base_dim = None.
Proof. intros H. now apply dget_none_iff. Qed.

Lemma wf_base u k : wf_unit u -> dget k (u_dim u) = None -> dget k base_dim = None.
Proof.
  intros [_ Hi] H. apply base_dim_notin. intros Hk. apply Hi in Hk.
  now apply dget_none_iff in H.
Qed.

(** *** Multiplication *)
Definition mul_step (acc : dict num) (kv : string * num) : dict num :=
  match dget (fst kv) acc with
  | Some x => dset (fst kv) (nadd x (snd kv)) acc
  | None => dset (fst kv) (snd kv) acc
  end.

Lemma mul_fold_nodup l acc : NoDup (dkeys acc) -> NoDup (dkeys (fold_left mul_step l acc)).
Proof.
  revert acc. induction l as [|[k v] l IH]; intros acc H; simpl; [exact H|].
  apply IH. unfold mul_step; simpl. destruct (dget k acc); now apply nodup_dset.
Qed.

Lemma mul_fold_get l acc k :
  NoDup (dkeys l) ->
  dget k (fold_left mul_step l acc)
  = match dget k l, dget k acc with
    | Some a, Some b => Some (nadd b a)
    | Some a, None => Some a
    | None, r => r
    end.
Proof.
  revert acc. induction l as [|[k' v'] l IH]; intros acc ND; simpl; [reflexivity|].
  inversion ND as [|? ? Hni ND' E]; subst.
  rewrite IH by exact ND'. unfold mul_step; simpl.
  destruct (String.eqb_spec k k') as [->|Hne].
  - assert (dget k' l = None) as -> by now apply dget_none_iff.
    destruct (dget k' acc) eqn:E; now rewrite dget_dset_eq.
  - destruct (dget k' acc) eqn:E; rewrite dget_dset_neq by exact Hne; reflexivity.
Qed.

Lemma unit_mul_get u v k :
  wf_unit u -> wf_unit v ->
  dget k (u_dim (unit_mul u v))
  = match dget k (u_dim u), dget k (u_dim v) with
    | Some a, Some b => Some (nadd b a)
    | Some a, None => Some a
    | None, r => r
    end.
Proof.
  intros Wu Wv. unfold unit_mul. fold mul_step.
  rewrite dget_unit_init by (apply mul_fold_nodup; apply Wv).
  rewrite mul_fold_get by apply Wu.
  destruct (dget k (u_dim u)) as [a|] eqn:Eu, (dget k (u_dim v)) as [b|] eqn:Ev; try reflexivity.
  now apply (wf_base u).
Qed.

Lemma map_dget_nodup {V W} (f : string -> V -> W) (d : dict V) :
  NoDup (dkeys d) -> NoDup (dkeys (map (fun kv => (fst kv, f (fst kv) (snd kv))) d)).
Proof. intros H. unfold dkeys. rewrite map_map. exact H. Qed.

Lemma dget_mapk {V W} (f : string -> V -> W) k (d : dict V) :
  dget k (map (fun kv => (fst kv, f (fst kv) (snd kv))) d) = option_map (f k) (dget k d).
Proof.
  induction d as [|[k' v'] r IH]; simpl; [reflexivity|].
  destruct (String.eqb_spec k k') as [->|Hne]; [reflexivity|exact IH].
Qed.

Lemma unit_div_get u v k :
  wf_unit v ->
  dget k (u_dim (unit_div u v))
  = match dget k (u_dim v) with
    | Some b => Some (match dget k (u_dim u) with Some a => nsub a b | None => nopp b end)
    | None => None
    end.
Proof.
  intros Wv. unfold unit_div.
  set (f := fun (k : string) (b : num) =>
              match dget k (u_dim u) with Some a => nsub a b | None => nopp b end).
  change (map _ (u_dim v)) with (map (fun kv => (fst kv, f (fst kv) (snd kv))) (u_dim v)).
  rewrite dget_unit_init by (apply map_dget_nodup; apply Wv).
  rewrite dget_mapk. destruct (dget k (u_dim v)) as [b|] eqn:Ev; simpl; [reflexivity|].
  now apply (wf_base v).
Qed.

Lemma unit_pow_num_get u p k :
  wf_unit u ->
  dget k (u_dim (unit_pow_num u p)) = option_map (fun a => nmul a p) (dget k (u_dim u)).
Proof.
  intros Wu. unfold unit_pow_num.
  change (map _ (u_dim u)) with (map (fun kv => (fst kv, (fun (_ : string) a => nmul a p) (fst kv) (snd kv))) (u_dim u)).
  rewrite dget_unit_init by (apply (map_dget_nodup (fun _ a => nmul a p)); apply Wu).
  rewrite (dget_mapk (fun _ a => nmul a p)).
  destruct (dget k (u_dim u)) eqn:E; simpl; [reflexivity|]. now apply (wf_base u).
Qed.

Lemma unit_copy_get u n k : wf_unit u -> dget k (u_dim (unit_init n (u_dim u))) = dget k (u_dim u).
Proof.
  intros Wu. rewrite dget_unit_init by apply Wu.
  destruct (dget k (u_dim u)) eqn:E; [reflexivity|]. now apply (wf_base u).
Qed.

(** *** Coherence *)
Lemma coherent_true u v :
  NoDup (dkeys (u_dim u)) ->
  coherent u v = Ok true <->
  (forall k x, dget k (u_dim u) = Some x -> exists y, dget k (u_dim v) = Some y /\ neqb x y = true).
Proof.
  intros ND. unfold coherent. rewrite all_res_ok_true. split.
  - intros H k x Hx. apply dget_some_in in Hx.
    specialize (H (k, x)). rewrite sort_items_in in H. specialize (H Hx). simpl in H.
    destruct (dget k (u_dim v)) as [y|]; [|discriminate].
    exists y. split; [reflexivity|congruence].
  - intros H [k x] Hin. rewrite sort_items_in in Hin. simpl.
    apply in_dget_nodup in Hin; [|exact ND].
    destruct (H k x Hin) as (y & -> & Hy). now rewrite Hy.
Qed.

Lemma coherent_total u v :
  incl (dkeys (u_dim u)) (dkeys (u_dim v)) -> exists b, coherent u v = Ok b.
Proof.
  intros Hi. unfold coherent. eexists. apply all_res_total
    with (g := fun kv => match dget (fst kv) (u_dim v) with Some x => neqb (snd kv) x | None => false end).
  intros [k x] Hin. rewrite sort_items_in in Hin. simpl.
  assert (Hk : In k (dkeys (u_dim v))) by (apply Hi; now apply (in_map fst) in Hin).
  destruct (in_keys_dget _ _ Hk) as [y ->]. reflexivity.
Qed.

(** *** Whole-number exponents *)

(** [urep w K u d]: unit [u] has exactly the dimension names [K] and its
    exponents are the whole numbers [d]. *)
Definition urep (w : world) (K : list string) (u : unit) (d : string -> Z) : Prop :=
  NoDup (dkeys (u_dim u)) /\
  (forall k, In k (dkeys (u_dim u)) <-> In k K) /\
  (forall k x, dget k (u_dim u) = Some x -> nrep w x (d k)).

Lemma urep_wf w K u d : incl base_keys K -> urep w K u d -> wf_unit u.
Proof.
  intros HK (ND & Hk & _). split; [exact ND|].
  intros k Hin. apply Hk. now apply HK.
Qed.

Lemma urep_get w K u d k : urep w K u d -> In k K -> exists x, dget k (u_dim u) = Some x /\ nrep w x (d k).
Proof.
  intros (_ & Hk & Hr) Hin. apply Hk in Hin. destruct (in_keys_dget _ _ Hin) as [x Hx].
  exists x. split; [exact Hx|now apply Hr].
Qed.

Lemma urep_get_none w K u d k : urep w K u d -> ~ In k K -> dget k (u_dim u) = None.
Proof. intros (_ & Hk & _) Hin. apply dget_none_iff. now rewrite Hk. Qed.

Lemma urep_ext w K u d d' : urep w K u d -> (forall k, In k K -> d k = d' k) -> urep w K u d'.
Proof.
  intros (ND & Hk & Hr) He. repeat split; try assumption; try apply Hk.
  intros k x Hx. rewrite <- He; [now apply Hr|]. apply Hk. now apply dget_in_keys in Hx.
Qed.

Lemma urep_okz w K u d k : urep w K u d -> In k K -> okz w (d k).
Proof. intros H Hk. destruct (urep_get _ _ _ _ _ H Hk) as (x & _ & Hr). now apply nrep_okz in Hr. Qed.

(** Building a [urep] from a lookup characterisation. *)
Lemma urep_intro w K u d :
  wf_unit u ->
  (forall k, In k K -> exists x, dget k (u_dim u) = Some x /\ nrep w x (d k)) ->
  (forall k, ~ In k K -> dget k (u_dim u) = None) ->
  urep w K u d.
Proof.
  intros [ND _] H1 H2. repeat split; [exact ND| | |].
  - intros Hk. destruct (in_dec string_dec k K) as [Hin|Hni]; [exact Hin|].
    apply H2 in Hni. now apply dget_none_iff in Hni.
  - intros Hin. destruct (H1 k Hin) as (x & Hx & _). now apply dget_in_keys in Hx.
  - intros k x Hx. destruct (in_dec string_dec k K) as [Hin|Hni].
    + destruct (H1 k Hin) as (y & Hy & Hr). congruence.
    + apply H2 in Hni. congruence.
Qed.

Lemma urep_mul w K u v a b :
  incl base_keys K -> urep w K u a -> urep w K v b ->
  (forall k, In k K -> okz w (a k + b k)) ->
  urep w K (unit_mul u v) (fun k => a k + b k).
Proof.
  intros HK Hu Hv Hok.
  assert (Wu := urep_wf _ _ _ _ HK Hu). assert (Wv := urep_wf _ _ _ _ HK Hv).
  apply urep_intro.
  - apply unit_init_wf.
  - intros k Hk. rewrite unit_mul_get by assumption.
    destruct (urep_get _ _ _ _ _ Hu Hk) as (x & -> & Hx).
    destruct (urep_get _ _ _ _ _ Hv Hk) as (y & -> & Hy).
    eexists; split; [reflexivity|]. rewrite Z.add_comm. apply nadd_rep; try assumption.
    rewrite Z.add_comm. now apply Hok.
  - intros k Hk. rewrite unit_mul_get by assumption.
    now rewrite (urep_get_none _ _ _ _ _ Hu Hk), (urep_get_none _ _ _ _ _ Hv Hk).
Qed.

Lemma urep_div w K u v a b :
  incl base_keys K -> urep w K u a -> urep w K v b ->
  (forall k, In k K -> okz w (a k - b k)) ->
  urep w K (unit_div u v) (fun k => a k - b k).
Proof.
  intros HK Hu Hv Hok.
  assert (Wv := urep_wf _ _ _ _ HK Hv).
  apply urep_intro.
  - apply unit_init_wf.
  - intros k Hk. rewrite unit_div_get by assumption.
    destruct (urep_get _ _ _ _ _ Hu Hk) as (x & -> & Hx).
    destruct (urep_get _ _ _ _ _ Hv Hk) as (y & -> & Hy).
    eexists; split; [reflexivity|]. apply nsub_rep; try assumption. now apply Hok.
  - intros k Hk. rewrite unit_div_get by assumption.
    now rewrite (urep_get_none _ _ _ _ _ Hv Hk).
Qed.

Lemma urep_pow w K u a p n :
  incl base_keys K -> urep w K u a -> nrep w p n ->
  (forall k, In k K -> okz w (a k * n)) ->
  urep w K (unit_pow_num u p) (fun k => a k * n).
Proof.
  intros HK Hu Hp Hok.
  assert (Wu := urep_wf _ _ _ _ HK Hu).
  apply urep_intro.
  - apply unit_init_wf.
  - intros k Hk. rewrite unit_pow_num_get by assumption.
    destruct (urep_get _ _ _ _ _ Hu Hk) as (x & -> & Hx). simpl.
    eexists; split; [reflexivity|]. apply nmul_rep; try assumption. now apply Hok.
  - intros k Hk. rewrite unit_pow_num_get by assumption.
    now rewrite (urep_get_none _ _ _ _ _ Hu Hk).
Qed.

Lemma urep_copy w K u a n :
  incl base_keys K -> urep w K u a -> urep w K (unit_init n (u_dim u)) a.
Proof.
  intros HK Hu. assert (Wu := urep_wf _ _ _ _ HK Hu).
  apply urep_intro.
  - apply unit_init_wf.
  - intros k Hk. rewrite unit_copy_get by assumption. now apply (urep_get _ _ _ _ _ Hu Hk).
  - intros k Hk. rewrite unit_copy_get by assumption. now apply (urep_get_none _ _ _ _ _ Hu Hk).
Qed.

Lemma urep_coherent w K u v a b :
  urep w K u a -> urep w K v b ->
  exists r, coherent u v = Ok r /\ (r = true <-> forall k, In k K -> a k = b k).
Proof.
  intros Hu Hv.
  destruct (coherent_total u v) as [r Hr].
  { intros k Hk. apply Hv. now apply Hu. }
  exists r. split; [exact Hr|].
  split.
  - intros ->. rewrite coherent_true in Hr by apply Hu.
    intros k Hk. destruct (urep_get _ _ _ _ _ Hu Hk) as (x & Ex & Hx).
    destruct (Hr _ _ Ex) as (y & Ey & He).
    rewrite (neqb_rep w _ _ (a k) (b k)) in He; [now apply Z.eqb_eq|exact Hx|].
    now apply Hv.
  - intros H. enough (E : coherent u v = Ok true) by congruence.
    apply coherent_true; [apply Hu|].
    intros k x Ex. assert (Hk : In k K) by (apply Hu; now apply dget_in_keys in Ex).
    destruct (urep_get _ _ _ _ _ Hv Hk) as (y & Ey & Hy). exists y. split; [exact Ey|].
    rewrite (neqb_rep w _ _ (a k) (b k)); [|now apply Hu|exact Hy].
    apply Z.eqb_eq. now apply H.
Qed.

Lemma urep_coherent_true w K u v a b :
  urep w K u a -> urep w K v b -> (forall k, In k K -> a k = b k) -> coherent u v = Ok true.
Proof.
  intros Hu Hv H. destruct (urep_coherent _ _ _ _ _ _ Hu Hv) as (r & -> & Hr).
  f_equal. now apply Hr.
Qed.

(** [float(z) == 0.] exactly when z = 0, whatever the size. *)
Lemma float_of_Z_zero z : SFeqb (float_of_Z z) (S754_zero false) = (z =? 0).
Proof.
  destruct (Z.eqb_spec z 0) as [->|Hne]; [reflexivity|].
  unfold float_of_Z. rewrite normalize_equiv.
  generalize (binary_normalize_correct 53 1024 prec64_gt0 prec64_lt mode_NE z 0 false). simpl.
  replace (F2R (Float radix2 z 0)) with (IZR z) by (unfold F2R; simpl; ring).
  destruct (Rlt_bool _ _).
  - intros (H1 & H2 & _).
    change (S754_zero false) with (B2SF (B754_zero false : b64)).
    unfold SFeqb.
    match goal with |- match SFcompare (B2SF ?x) (B2SF ?y) with _ => _ end = _ =>
      fold (Bcompare x y) end.
    rewrite Bcompare_correct by (try exact H2; reflexivity).
    rewrite H1. simpl (B2R (B754_zero false)).
    change ZnearestE with (round_mode mode_NE).
    destruct (Rcompare_spec (round radix2 (SpecFloat.fexp 53 1024) (round_mode mode_NE) (IZR z)) 0) as [?|He|?]; try reflexivity.
    exfalso.
    assert (G : (1 <= Rabs (round radix2 (SpecFloat.fexp 53 1024) (round_mode mode_NE) (IZR z)))%R).
    { apply abs_round_ge_generic.
      - apply fexp_correct. reflexivity.
      - apply valid_rnd_round_mode.
      - apply (generic_small 1). unfold small; lia.
      - rewrite <- abs_IZR. apply IZR_le. lia. }
    rewrite He, Rabs_R0 in G. revert G. apply Rlt_not_le. apply Rlt_0_1.
  - intros H. rewrite H. unfold binary_overflow. simpl.
    now destruct (Rlt_bool (IZR z) 0).
Qed.

Lemma dimless_entry w x z :
  nrep w x z -> neqb (PFloat (to_float x)) (PFloat (S754_zero false)) = (z =? 0).
Proof.
  intros Hx. destruct w.
  - simpl in Hx. subst x. simpl. apply float_of_Z_zero.
  - simpl. apply to_float_rep in Hx.
    change (S754_zero false) with (float_of_Z 0).
    rewrite (SFeqb_rep _ _ z 0 Hx); [reflexivity|]. apply float_of_Z_rep. unfold small; lia.
Qed.

Lemma urep_dimensionless w K u a :
  urep w K u a -> is_dimensionless u = true <-> (forall k, In k K -> a k = 0).
Proof.
  intros Hu. unfold is_dimensionless. rewrite forallb_forall. split.
  - intros H k Hk. destruct (urep_get _ _ _ _ _ Hu Hk) as (x & Ex & Hx).
    specialize (H (k, x) (dget_some_in _ _ _ Ex)). simpl snd in H.
    rewrite (dimless_entry w x (a k) Hx) in H. now apply Z.eqb_eq.
  - intros H [k x] Hin. simpl snd.
    apply in_dget_nodup in Hin; [|apply Hu].
    rewrite (dimless_entry w x (a k)) by now apply Hu.
    apply Z.eqb_eq, H. apply Hu. now apply dget_in_keys in Hin.
Qed.

Lemma base_keys_incl_refl : incl base_keys base_keys.
Proof. apply incl_refl. Qed.

(** The names of a product are the names of both factors, etc. *)
Lemma unit_mul_keys u v k :
  In k (dkeys (u_dim (unit_mul u v))) <->
  In k base_keys \/ In k (dkeys (u_dim u)) \/ In k (dkeys (u_dim v)).
Proof.
  unfold unit_mul. rewrite in_keys_unit_init. fold mul_step.
  enough (H : forall l acc, In k (dkeys (fold_left mul_step l acc)) <-> In k (dkeys l) \/ In k (dkeys acc)).
  { rewrite H. tauto. }
  induction l as [|[k' v'] l IH]; intros acc; simpl; [tauto|].
  rewrite IH. unfold mul_step; simpl.
  destruct (dget k' acc); rewrite in_dkeys_dset; intuition.
Qed.
