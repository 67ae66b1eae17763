(** Lemmas about configurations, histories of simulations and their status. *)
From Verif Require Import SpecSim BaseFacts BuildFacts ModelFacts ProblemFacts SessionFacts.
From Verif Require Import DomainModel.
Notation num := Verif.Num.num.

(** ** Configurations *)

Lemma Ok_inj {A} (x y : A) : Ok x = Ok y -> x = y.
Proof. now intros [= ->]. Qed.

Lemma dget_map_key : forall (f : string -> cval) (l : dict cval) k,
  dget k (map (fun kv => (fst kv, f (fst kv))) l) = match dget k l with Some _ => Some (f k) | None => None end.
Proof.
  intros f l k; induction l as [|[a b] l IH]; cbn; [reflexivity|].
  destruct (String.eqb_spec k a); [now subst|exact IH].
Qed.

Lemma kw_dict_get : forall a k, dget k (kw_dict a) =
  match dget k conf_defaults with Some _ => Some (kw a k) | None => None end.
Proof. intros. apply dget_map_key. Qed.

Lemma documented_get : forall k, documented k <-> exists v, dget k conf_defaults = Some v.
Proof.
  intros k. unfold documented. generalize conf_defaults. intros l.
  induction l as [|[a b] l IH]; cbn; [split; [tauto|intros [v Hv]; discriminate]|].
  destruct (String.eqb_spec k a).
  - subst. split; [eauto|auto].
  - rewrite <- IH. split; [intros [?|?]; [congruence|auto]|auto].
Qed.

Lemma written_kw : forall a k v, written (ca_kwargs a) k v -> kw a k = v.
Proof. intros a k v [v' E|v' E E']; unfold kw; rewrite E; [reflexivity|now rewrite E']. Qed.

Lemma written_ex : forall a k, documented k -> written (ca_kwargs a) k (kw a k).
Proof.
  intros a k Hd. apply documented_get in Hd. destruct Hd as [v Hv]. unfold kw.
  destruct (dget k (ca_kwargs a)) eqn:E; [now constructor|rewrite Hv; now constructor 2].
Qed.

(** The last step of setConfigurations. *)
Notation npto := "number_parameters_to_optimize" (only parsing).
Lemma finish_conf : forall s a c s',
  (let n := kw a npto in
   if cval_eqb n (VNum (PInt 0)) then Ok (with_conf s c)
   else match dget npto c with
        | None => Raise EKey
        | Some m => Ok (with_conf s (if cval_eqb m n then c else dset npto n c))
        end) = Ok s' ->
  (forall k, k <> npto -> option_of s' k = dget k c) /\
  (cval_eqb (kw a npto) (VNum (PInt 0)) = true -> option_of s' npto = dget npto c) /\
  (cval_eqb (kw a npto) (VNum (PInt 0)) = false ->
     exists m, dget npto c = Some m /\
       ((cval_eqb m (kw a npto) = true /\ option_of s' npto = Some m) \/
        (cval_eqb m (kw a npto) = false /\ option_of s' npto = Some (kw a npto)))).
Proof.
  intros s a c s'. cbv zeta. destruct (cval_eqb (kw a npto) (VNum (PInt 0))) eqn:E0.
  - intros [= <-]. unfold option_of; cbn [sm_conf with_conf]. repeat split; auto; discriminate.
  - destruct (dget npto c) as [m|] eqn:Em; [|discriminate]. intros [= <-]. unfold option_of; cbn [sm_conf with_conf].
    destruct (cval_eqb m (kw a npto)) eqn:E1.
    + repeat split; auto; try discriminate. intros _. exists m. auto.
    + repeat split; try discriminate.
      * intros k Hk. now rewrite dget_dset_neq.
      * intros _. exists m. rewrite dget_dset_eq. auto.
Qed.

Lemma set_conf_dict : forall s a s' d, set_configurations s a = Ok s' -> ca_file a = None -> ca_dict a = VDict d ->
  exists c, c = dupdate (kw_dict a) d /\
  (forall k, k <> npto -> option_of s' k = dget k c) /\
  (cval_eqb (kw a npto) (VNum (PInt 0)) = true -> option_of s' npto = dget npto c) /\
  (cval_eqb (kw a npto) (VNum (PInt 0)) = false ->
     exists m, dget npto c = Some m /\
       ((cval_eqb m (kw a npto) = true /\ option_of s' npto = Some m) \/
        (cval_eqb m (kw a npto) = false /\ option_of s' npto = Some (kw a npto)))).
Proof.
  intros s a s' d H Hf Hd. unfold set_configurations in H. rewrite Hf, Hd in H.
  destruct (forallb _ _); [|discriminate]. cbn [rbind] in H. eexists. split; [reflexivity|].
  exact (finish_conf s a _ s' H).
Qed.

Lemma conf_dictionary : forall s a s' d, set_configurations s a = Ok s' -> ca_file a = None -> ca_dict a = VDict d ->
  NoDup (dkeys d) -> forall k, k <> npto ->
  (forall v, dget k d = Some v -> option_of s' k = Some v) /\
  (forall v, dget k d = None -> written (ca_kwargs a) k v -> documented k -> option_of s' k = Some v) /\
  (dget k d = None -> ~ documented k -> option_of s' k = None).
Proof.
  intros s a s' d H Hf Hd Hn k Hk. destruct (set_conf_dict _ _ _ _ H Hf Hd) as (c & -> & H1 & _).
  rewrite (H1 k Hk), dget_dupdate by exact Hn. repeat split.
  - intros v ->. reflexivity.
  - intros v -> Hw Hdoc. rewrite kw_dict_get. apply documented_get in Hdoc. destruct Hdoc as [v0 ->].
    now rewrite (written_kw _ _ _ Hw).
  - intros -> Hdoc. rewrite kw_dict_get. destruct (dget k conf_defaults) eqn:E; [|reflexivity].
    exfalso. apply Hdoc. apply documented_get. eauto.
Qed.

Lemma npto_documented : documented npto.
Proof. unfold documented. cbn. tauto. Qed.

Lemma conf_number : forall s a s' d, set_configurations s a = Ok s' -> ca_file a = None -> ca_dict a = VDict d ->
  NoDup (dkeys d) ->
  (forall n, number_given (ca_kwargs a) n ->
     exists m, option_of s' npto = Some m /\ (m = n \/ cval_eqb m n = true)) /\
  ((forall n, ~ number_given (ca_kwargs a) n) ->
     (forall v, dget npto d = Some v -> option_of s' npto = Some v) /\
     (forall v, dget npto d = None -> written (ca_kwargs a) npto v -> option_of s' npto = Some v)).
Proof.
  intros s a s' d H Hf Hd Hn. destruct (set_conf_dict _ _ _ _ H Hf Hd) as (c & -> & _ & H0 & H1). split.
  - intros n [Hg Hz]. assert (Hk : kw a npto = n) by (unfold kw; now rewrite Hg).
    rewrite Hk in *. destruct (H1 Hz) as (m & _ & [[He Ho]|[_ Ho]]); eauto.
  - intros Hg. assert (Hz : cval_eqb (kw a npto) (VNum (PInt 0)) = true).
    { destruct (cval_eqb (kw a npto) (VNum (PInt 0))) eqn:E; [reflexivity|exfalso].
      unfold kw in E. destruct (dget npto (ca_kwargs a)) eqn:E'; [|now vm_compute in E].
      apply (Hg c). split; assumption. }
    rewrite (H0 Hz), dget_dupdate by exact Hn. split.
    + intros v ->. reflexivity.
    + intros v -> Hw. rewrite kw_dict_get, (written_kw _ _ _ Hw). reflexivity.
Qed.

Lemma set_conf_plain : forall s a s', set_configurations s a = Ok s' -> ca_file a = None -> ca_dict a = VNone ->
  exists t, (kw a "time_variable_name" <> VNone -> t = kw a "time_variable_name") /\
            (kw a "time_variable_name" = VNone -> is_true (kw a "is_dynamic") = false -> t = VNone) /\
            (kw a "time_variable_name" = VNone -> is_true (kw a "is_dynamic") = true ->
               exists p, sm_problem s = Some p /\ t = time_value p) /\
  let c := dset "time_variable_name" t (kw_dict a) in
  (forall k, k <> npto -> option_of s' k = dget k c) /\
  option_of s' npto = Some (kw a npto).
Proof.
  intros s a s' H Hf Hd. unfold set_configurations in H. rewrite Hf, Hd in H.
  destruct (forallb _ _); [|discriminate].
  match type of H with rbind (rbind ?e _) _ = _ => destruct e as [t|x] eqn:Et; [|discriminate H] end.
  cbn [rbind] in H. exists t. pose proof (finish_conf s a (dset "time_variable_name" t (kw_dict a)) s' H) as (H1 & H2 & H3).
  assert (Hn : dget npto (dset "time_variable_name" t (kw_dict a)) = Some (kw a npto)).
  { rewrite dget_dset_neq by discriminate. rewrite kw_dict_get. reflexivity. }
  split; [|split; [|split; [|cbv zeta; split; [exact H1|]]]].
  - intros Hne. destruct (kw a "time_variable_name"); congruence.
  - intros Hne Hdy. rewrite Hne, Hdy in Et. congruence.
  - intros Hne Hdy. rewrite Hne, Hdy in Et. destruct (sm_problem s) as [p|]; [|discriminate].
    exists p. split; congruence.
  - destruct (cval_eqb (kw a npto) (VNum (PInt 0))) eqn:E.
    + rewrite (H2 eq_refl). exact Hn.
    + destruct (H3 eq_refl) as (m & Hm & [[_ Ho]|[_ Ho]]); [|exact Ho]. congruence.
Qed.

Lemma conf_keywords : forall s a s', set_configurations s a = Ok s' -> ca_file a = None -> ca_dict a = VNone ->
  (forall k v, k <> "time_variable_name" -> documented k -> written (ca_kwargs a) k v -> option_of s' k = Some v) /\
  (forall v, written (ca_kwargs a) "time_variable_name" v -> v <> VNone -> option_of s' "time_variable_name" = Some v) /\
  (written (ca_kwargs a) "time_variable_name" VNone -> ~ written (ca_kwargs a) "is_dynamic" (VBool true) ->
     option_of s' "time_variable_name" = Some VNone) /\
  (written (ca_kwargs a) "time_variable_name" VNone -> written (ca_kwargs a) "is_dynamic" (VBool true) ->
     exists p, sm_problem s = Some p /\ option_of s' "time_variable_name" = Some (time_value p)).
Proof.
  intros s a s' H Hf Hd. destruct (set_conf_plain _ _ _ H Hf Hd) as (t & T1 & T2 & T3 & H1 & H2).
  assert (Ht : option_of s' "time_variable_name" = Some t).
  { rewrite (H1 "time_variable_name") by discriminate. apply dget_dset_eq. }
  split; [|split; [|split]].
  - intros k v Hk Hdoc Hw. destruct (string_dec k npto) as [->|Hk'].
    + rewrite H2. now rewrite (written_kw _ _ _ Hw).
    + rewrite (H1 k Hk'), dget_dset_neq by exact Hk. rewrite kw_dict_get.
      apply documented_get in Hdoc. destruct Hdoc as [v0 ->]. now rewrite (written_kw _ _ _ Hw).
  - intros v Hw Hv. rewrite Ht. apply written_kw in Hw. rewrite T1 by congruence. now rewrite Hw.
  - intros Hw Hy. apply written_kw in Hw. rewrite Ht, T2; auto.
    destruct (is_true (kw a "is_dynamic")) eqn:E; [|reflexivity]. exfalso. apply Hy.
    assert (Hx := written_ex a "is_dynamic"). destruct (kw a "is_dynamic") as [|[|]| | | | | |]; try discriminate.
    apply Hx. unfold documented; cbn; tauto.
  - intros Hw Hy. apply written_kw in Hw. apply written_kw in Hy. destruct T3 as (p & Hp & ->); auto.
    + now rewrite Hy.
    + exists p. auto.
Qed.

Lemma conf_complete : forall s a s', set_configurations s a = Ok s' -> ca_file a = None ->
  (forall d, ca_dict a = VDict d -> NoDup (dkeys d)) ->
  forall k, documented k -> exists v, option_of s' k = Some v.
Proof.
  intros s a s' H Hf Hn k Hk. unfold set_configurations in H. rewrite Hf in H.
  destruct (forallb _ _); [|discriminate].
  match type of H with rbind ?e _ = _ => destruct e as [c|x] eqn:Ec; [|discriminate H] end.
  cbn [rbind] in H. destruct (finish_conf s a _ s' H) as (H1 & H2 & H3).
  assert (Hc : exists v, dget k c = Some v).
  { assert (Hkw : exists v, dget k (kw_dict a) = Some v).
    { rewrite kw_dict_get. apply documented_get in Hk. destruct Hk as [v ->]. eauto. }
    assert (Hgen : forall t, exists v, dget k (dset "time_variable_name" t (kw_dict a)) = Some v).
    { intros t. rewrite dget_dset. destruct (String.eqb _ _); [eauto|exact Hkw]. }
    destruct (ca_dict a) as [|b|n|s0|l|d|r|o] eqn:Ed;
      try (match type of Ec with rbind ?e _ = _ => destruct e as [t|]; [|discriminate Ec] end;
           cbn [rbind] in Ec; apply Ok_inj in Ec; subst c; apply Hgen).
    apply Ok_inj in Ec; subst c. rewrite dget_dupdate by (now apply Hn). destruct (dget k d); eauto. }
  destruct (string_dec k npto) as [->|Hk'].
  - destruct (cval_eqb (kw a npto) (VNum (PInt 0))).
    + rewrite (H2 eq_refl). exact Hc.
    + destruct (H3 eq_refl) as (m & _ & [[_ ->]|[_ ->]]); eauto.
  - rewrite (H1 k Hk'). exact Hc.
Qed.

Lemma conf_file : forall s a s' c, set_configurations s a = Ok s' -> ca_file a = Some (Ok c) ->
  forall k, k <> npto -> option_of s' k = dget k c.
Proof.
  intros s a s' c H Hf k Hk. unfold set_configurations in H. rewrite Hf in H.
  destruct (forallb _ _); [|discriminate]. cbn [rbind] in H.
  destruct (finish_conf s a _ s' H) as (H1 & _). now apply H1.
Qed.

(** Where the arguments list of a new configuration can come from. *)
Lemma conf_source : forall s a s' r, set_configurations s a = Ok s' -> option_of s' "arg_names" = Some (VRef r) ->
  r = arg_names_default \/ dget "arg_names" (ca_kwargs a) = Some (VRef r) \/
  (exists d, ca_dict a = VDict d /\ In ("arg_names", VRef r) d) \/
  (exists d, ca_file a = Some (Ok d) /\ In ("arg_names", VRef r) d).
Proof.
  intros s a s' r H Ho. unfold set_configurations in H.
  destruct (forallb _ _); [|discriminate].
  match type of H with rbind ?e _ = _ => destruct e as [c|x] eqn:Ec; [|discriminate H] end.
  cbn [rbind] in H. destruct (finish_conf s a _ s' H) as (H1 & _).
  rewrite (H1 "arg_names") in Ho by discriminate.
  assert (Hin : forall (d : dict cval) k v, dget k d = Some v -> In (k, v) d).
  { clear. intros d k v; induction d as [|[a b] d IH]; cbn; [discriminate|].
    destruct (String.eqb_spec k a); [intros [= ->]; subst; auto|auto]. }
  assert (Hkw : dget "arg_names" (kw_dict a) = Some (VRef r) ->
    r = arg_names_default \/ dget "arg_names" (ca_kwargs a) = Some (VRef r)).
  { rewrite kw_dict_get. unfold kw. destruct (dget "arg_names" (ca_kwargs a)); cbn; [intros [= ->]; auto|].
    intros [= <-]. auto. }
  destruct (ca_file a) as [[d|x]|] eqn:Ef; [|discriminate|].
  - injection Ec as <-. right; right; right. exists d. auto.
  - assert (Hgen : forall t, dget "arg_names" (dset "time_variable_name" t (kw_dict a)) = dget "arg_names" (kw_dict a)).
    { intros t. apply dget_dset_neq. discriminate. }
    destruct (ca_dict a) as [|b|n|s0|l|d|q|o] eqn:Ed;
      try (match type of Ec with rbind ?e _ = _ => destruct e as [t|]; [|discriminate Ec] end;
           cbn [rbind] in Ec; apply Ok_inj in Ec; subst c; rewrite Hgen in Ho; destruct (Hkw Ho); auto).
    apply Ok_inj in Ec; subst c.
    assert (Hup : forall (e d : dict cval) k v, dget k (dupdate d e) = Some v -> In (k, v) e \/ dget k d = Some v).
    { clear. intros e; induction e as [|[a b] e IH]; intros d k v; cbn -[dget dset]; [auto|].
      intros Hx. apply IH in Hx. destruct Hx as [Hx|Hx]; [left; right; exact Hx|].
      rewrite dget_dset in Hx. cbn [fst snd] in Hx. destruct (String.eqb_spec k a); [subst; left; left; congruence|auto]. }
    destruct (Hup _ _ _ _ Ho) as [Hx|Hx].
    + right; right; left. exists d. auto.
    + destruct (Hkw Hx); auto.
Qed.

Lemma conf_problem : forall s a s', set_configurations s a = Ok s' ->
  sm_problem s' = sm_problem s /\ sm_output s' = sm_output s.
Proof.
  intros s a s' H. unfold set_configurations in H. destruct (forallb _ _); [|discriminate].
  match type of H with rbind ?e _ = _ => destruct e as [c|x] eqn:Ec; [|discriminate H] end.
  cbn [rbind] in H. destruct (cval_eqb _ _); [injection H as <-; auto|].
  destruct (dget _ c); [|discriminate]. injection H as <-. auto.
Qed.

(** ** Running *)

(** All that a run does to shared lists. *)
Definition run_effect (st st' : store) (s : sim) : Prop :=
  st' = st \/
  exists r l t, option_of s "arg_names" = Some (VRef r) /\ option_of s "time_variable_name" = Some t /\
                nth_error st r = Some l /\ existsb (same_name t) l = false /\ st' = set_nth st r (l ++ [t]).

Lemma add_time_effect st a t st' o : add_time_name st a t = (st', o) -> st' = st \/
  exists r l, a = VRef r /\ nth_error st r = Some l /\ existsb (same_name t) l = false /\ st' = set_nth st r (l ++ [t]).
Proof.
  unfold add_time_name. intros H. destruct a as [|bb|n|s|l|d|r|ob]; try (injection H as <- _; now left).
  destruct (nth_error st r) as [l|] eqn:El; [|injection H as <- _; now left].
  destruct (existsb (same_name t) l) eqn:Ex; injection H as <- _; [now left|right; exists r, l; auto].
Qed.
Lemma make_solver_effect : forall st p b c st' o, make_solver st p b c = (st', o) -> st' = st \/
  exists r l t, dget "arg_names" c = Some (VRef r) /\ dget "time_variable_name" c = Some t /\
                nth_error st r = Some l /\ existsb (same_name t) l = false /\ st' = set_nth st r (l ++ [t]).
Proof.
  intros st p b c st' o H. unfold make_solver in H.
  match type of H with match ?e with _ => _ end = _ => destruct e as [sv|x]; [|injection H as <- _; auto] end.
  destruct sv; try (injection H as <- _; now left).
  all: match type of H with match ?e with _ => _ end = _ => destruct e as [[t a]|x] eqn:E; [|injection H as <- _; auto] end.
  all: assert (Ht : dget "time_variable_name" c = Some t /\ dget "arg_names" c = Some a)
         by (unfold opt in E; repeat match type of E with
              | rbind (match ?x with _ => _ end) _ = _ => destruct x eqn:?; cbn [rbind] in E; try discriminate E
              | rbind ?x _ = _ => destruct x eqn:?; cbn [rbind] in E; try discriminate E end; split; congruence).
  all: destruct Ht as [Ht Ha]; destruct (add_time_name st a t) as [st1 o1] eqn:Ea; apply add_time_effect in Ea.
  all: assert (st' = st1) as -> by (destruct o1; now injection H).
  all: destruct Ea as [-> |(r & l & -> & A & B & ->)]; [now left|right; exists r, l, t; auto].
Qed.

Lemma prepare_effect : forall st s sanity dof st' o, prepare st s sanity dof = (st', o) -> run_effect st st' s.
Proof.
  intros st s sanity dof st' o H. unfold prepare in H. unfold run_effect, option_of.
  destruct (sm_conf s) as [c|]; [|injection H as <- _; now left].
  match type of H with match ?e with _ => _ end = _ => destruct e as [[p b]|x]; [|injection H as <- _; now left] end.
  destruct (make_solver st p b c) as [st1 o1] eqn:E. apply make_solver_effect in E.
  destruct o1; injection H as <- _; exact E.
Qed.

Lemma run_sim_effect : forall tables st s sanity show dof out st' s' o,
  run_sim tables st s sanity show dof out = (st', s', o) ->
  run_effect st st' s /\ sm_conf s' = sm_conf s /\ sm_problem s' = sm_problem s.
Proof.
  intros tables st s sanity show dof out st' s' o H. unfold run_sim in H.
  destruct (prepare st s sanity dof) as [st1 [[c sv]|x]] eqn:E; apply prepare_effect in E.
  - destruct out as [so|x]; [|injection H as <- <- _; auto].
    destruct (opt c "domain"); [|injection H as <- <- _; auto].
    destruct show; [|injection H as <- <- _; auto].
    destruct (get_status _ _); injection H as <- <- _; auto.
  - injection H as <- <- _; auto.
Qed.

Lemma run_failed tables st s sanity show dof e st' s' r : run_sim tables st s sanity show dof (Raise e) = (st', s', r) ->
  s' = s /\ exists x, r = Raise x.
Proof.
  unfold run_sim. destruct (prepare st s sanity dof) as [st1 [[c sv]|x]]; intros H; injection H as _ <- <-; eauto.
Qed.

(** ** Histories *)

Lemma run_spares : forall tables w i sanity show dof out w' o j k v r0 s0,
  sstep tables w (ARun i sanity show dof out) = (w', o) -> j <> i -> sees w j k v ->
  nth_error (sw_sims w) j = Some s0 -> option_of s0 k = Some r0 ->
  (forall r, r0 = VRef r -> ~ appends_to w i r) -> sees w' j k v.
Proof.
  intros tables w i sanity show dof out w' o j k v r0 s0 H Hj (s & v0 & Hs & Ho & ->) Hs0 Ho0 Hr.
  rewrite Hs in Hs0. injection Hs0 as <-. rewrite Ho in Ho0. injection Ho0 as <-.
  cbn [sstep] in H. destruct (nth_error (sw_sims w) i) as [si|] eqn:Ei.
  - destruct (run_sim tables (sw_store w) si sanity show dof out) as [[st' s'] o'] eqn:E.
    injection H as <- _. apply run_sim_effect in E. destruct E as (E & Ec & _).
    exists s, v0. cbn [sw_sims sw_store]. rewrite set_nth_neq by exact Hj. repeat split; auto.
    destruct E as [->|(r & l & t & Ha & _ & Hl & _ & ->)]; [reflexivity|].
    unfold contents. destruct v0 as [| | | | | |r'|]; try reflexivity.
    rewrite set_nth_neq; [reflexivity|]. intros ->. apply (Hr r eq_refl). exists si. auto.
  - injection H as <- _. exists s, v0. auto.
Qed.

Lemma other_sim_kept : forall tables w a w' o j s, sstep tables w a = (w', o) -> target a <> Some j ->
  nth_error (sw_sims w) j = Some s -> nth_error (sw_sims w') j = Some s.
Proof.
  intros tables w a w' o j s H Ht Hs. destruct a as [|l|i p|i c|i sanity show dof out]; cbn [sstep target] in *.
  - injection H as <- _. cbn [sw_sims]. rewrite nth_error_app1; [exact Hs|]. apply nth_error_Some. congruence.
  - injection H as <- _. exact Hs.
  - destruct (nth_error (sw_sims w) i); [|now injection H as <- _].
    injection H as <- _. cbn [sw_sims]. rewrite set_nth_neq; [exact Hs|]. congruence.
  - destruct (nth_error (sw_sims w) i) as [si|]; [|now injection H as <- _].
    destruct (set_configurations si c); injection H as <- _; [|exact Hs].
    cbn [sw_sims]. rewrite set_nth_neq; [exact Hs|]. congruence.
  - destruct (nth_error (sw_sims w) i) as [si|]; [|now injection H as <- _].
    destruct (run_sim _ _ _ _ _ _ _) as [[st' s'] o']. injection H as <- _.
    cbn [sw_sims]. rewrite set_nth_neq; [exact Hs|]. congruence.
Qed.

(** What a step does to a list nobody else appends to. *)
Lemma list_kept : forall tables w a w' o j r l, sstep tables w a = (w', o) -> target a <> Some j ->
  (forall i, i <> j -> ~ appends_to w i r) -> nth_error (sw_store w) r = Some l ->
  nth_error (sw_store w') r = Some l.
Proof.
  intros tables w a w' o j r l H Ht Hr Hl. destruct a as [|l0|i p|i c|i sanity show dof out]; cbn [sstep target] in *.
  - now injection H as <- _.
  - injection H as <- _. cbn [sw_store]. rewrite nth_error_app1; [exact Hl|]. apply nth_error_Some. congruence.
  - destruct (nth_error (sw_sims w) i); now injection H as <- _.
  - destruct (nth_error (sw_sims w) i) as [si|]; [|now injection H as <- _].
    destruct (set_configurations si c); now injection H as <- _.
  - destruct (nth_error (sw_sims w) i) as [si|] eqn:Ei; [|now injection H as <- _].
    destruct (run_sim _ _ _ _ _ _ _) as [[st' s'] o'] eqn:E. injection H as <- _. cbn [sw_store].
    apply run_sim_effect in E. destruct E as ([->|(r' & l' & t & Ha & _ & Hl' & _ & ->)] & _); [exact Hl|].
    rewrite set_nth_neq; [exact Hl|]. intros <-. apply (Hr i); [congruence|]. exists si. auto.
Qed.

Lemma appends_kept : forall tables w a w' o j r, sstep tables w a = (w', o) -> target a <> Some j -> keeps_off r a ->
  (forall i, i <> j -> ~ appends_to w i r) -> forall i, i <> j -> ~ appends_to w' i r.
Proof.
  intros tables w a w' o j r H Ht Hk Hr i Hi (s & Hs & Ho). apply (Hr i Hi).
  destruct a as [|l|i0 p|i0 c|i0 sanity show dof out]; cbn [sstep target keeps_off] in *.
  - injection H as <- _. cbn [sw_sims] in Hs.
    destruct (Nat.lt_ge_cases i (List.length (sw_sims w))) as [Hlt|Hge].
    + rewrite nth_error_app1 in Hs by exact Hlt. exists s. auto.
    + rewrite nth_error_app2 in Hs by exact Hge. destruct (i - List.length (sw_sims w))%nat as [|n]; cbn in Hs.
      * injection Hs as <-. discriminate Ho.
      * destruct n; discriminate Hs.
  - injection H as <- _. exists s. auto.
  - destruct (nth_error (sw_sims w) i0) as [s0|] eqn:E0; [|injection H as <- _; exists s; auto].
    injection H as <- _. cbn [sw_sims] in Hs. destruct (Nat.eq_dec i i0) as [->|Hne].
    + rewrite set_nth_eq in Hs by (apply nth_error_Some; congruence). injection Hs as <-. exists s0. auto.
    + rewrite set_nth_neq in Hs by exact Hne. exists s. auto.
  - destruct (nth_error (sw_sims w) i0) as [s0|] eqn:E0; [|injection H as <- _; exists s; auto].
    destruct (set_configurations s0 c) as [s1|] eqn:E1; injection H as <- _; [|exists s; auto].
    cbn [sw_sims] in Hs. destruct (Nat.eq_dec i i0) as [->|Hne].
    + rewrite set_nth_eq in Hs by (apply nth_error_Some; congruence). injection Hs as <-.
      destruct (conf_source _ _ _ _ E1 Ho) as [->|[Hx|[(d & Hd & Hx)|(d & Hd & Hx)]]].
      * destruct Hk as [Hk _]. congruence.
      * destruct Hk as (_ & Hk & _). contradiction.
      * destruct Hk as (_ & _ & Hk & _). exfalso. exact (Hk d Hd Hx).
      * destruct Hk as (_ & _ & _ & Hk). exfalso. exact (Hk d Hd Hx).
    + rewrite set_nth_neq in Hs by exact Hne. exists s. auto.
  - destruct (nth_error (sw_sims w) i0) as [s0|] eqn:E0; [|injection H as <- _; exists s; auto].
    destruct (run_sim _ _ _ _ _ _ _) as [[st' s'] o'] eqn:E. injection H as <- _.
    apply run_sim_effect in E. destruct E as (_ & Ec & _). cbn [sw_sims] in Hs.
    destruct (Nat.eq_dec i i0) as [->|Hne].
    + rewrite set_nth_eq in Hs by (apply nth_error_Some; congruence). injection Hs as <-. exists s0. split; [exact E0|].
      unfold option_of in *. now rewrite <- Ec.
    + rewrite set_nth_neq in Hs by exact Hne. exists s. auto.
Qed.

Lemma history_kept : forall tables l w j s, (forall a, In a l -> target a <> Some j) ->
  nth_error (sw_sims w) j = Some s -> nth_error (sw_sims (shist tables w l)) j = Some s.
Proof.
  intros tables l; induction l as [|a l IH]; intros w j s Ht Hs; [exact Hs|]. cbn [shist].
  apply IH; [intros; apply Ht; now right|]. destruct (sstep tables w a) as [w' o] eqn:E. cbn [fst].
  eapply other_sim_kept; eauto. apply Ht. now left.
Qed.

Lemma history_list_kept : forall tables l w j r c, (forall a, In a l -> target a <> Some j) ->
  (forall a, In a l -> keeps_off r a) -> (forall i, i <> j -> ~ appends_to w i r) ->
  nth_error (sw_store w) r = Some c -> nth_error (sw_store (shist tables w l)) r = Some c.
Proof.
  intros tables l; induction l as [|a l IH]; intros w j r c Ht Hk Hr Hc; [exact Hc|]. cbn [shist].
  destruct (sstep tables w a) as [w' o] eqn:E. cbn [fst]. apply (IH w' j).
  - intros; apply Ht; now right.
  - intros; apply Hk; now right.
  - eapply appends_kept; eauto; [apply Ht|apply Hk]; now left.
  - eapply list_kept; eauto. apply Ht; now left.
Qed.

Lemma history_sees : forall tables l w j k v, (forall a, In a l -> target a <> Some j) ->
  (forall s r, nth_error (sw_sims w) j = Some s -> option_of s k = Some (VRef r) ->
     (r < List.length (sw_store w))%nat /\ (forall i, i <> j -> ~ appends_to w i r) /\ forall a, In a l -> keeps_off r a) ->
  sees w j k v -> sees (shist tables w l) j k v.
Proof.
  intros tables l w j k v Ht Hr (s & v0 & Hs & Ho & ->). exists s, v0.
  split; [now apply history_kept|]. split; [exact Ho|].
  unfold contents. destruct v0 as [| | | | | |r|]; try reflexivity.
  destruct (Hr s r Hs Ho) as (Hlt & Ha & Hk). destruct (nth_error (sw_store w) r) as [c|] eqn:E.
  - now rewrite (history_list_kept tables l w j r c).
  - apply nth_error_None in E. lia.
Qed.

(** ** Status *)

Lemma status_zero : forall tables s n, get_status tables s = Ok n -> n = 0%nat.
Proof. intros tables s n H. unfold get_status in H. destruct (get_results _ _ _); [|discriminate]. now injection H as <-. Qed.

Lemma status_algebraic : forall tables s, algebraic_problem s ->
  (get_status tables s = Ok 0%nat <-> exists d, sm_output s = Some (OutDict d)).
Proof.
  intros tables s (p & b & Hp & Hb & Ht). unfold get_status, get_results. rewrite Hp, Hb.
  destruct Ht as [-> | ->]; (destruct (sm_output s) as [[d|ts y]|]; cbn; split;
    [eauto|reflexivity|discriminate|intros [d H]; discriminate|discriminate|intros [d H]; discriminate]).
Qed.

Lemma run_output : forall tables st s sanity show dof out st' s' o, run_sim tables st s sanity show dof out = (st', s', o) ->
  sm_output s' = sm_output s \/ (exists x, out = Ok x /\ sm_output s' = Some x).
Proof.
  intros tables st s sanity show dof out st' s' o H. unfold run_sim in H.
  destruct (prepare st s sanity dof) as [st1 [[c sv]|x]]; [|injection H as _ <- _; auto].
  destruct out as [so|x]; [|injection H as _ <- _; auto].
  destruct (opt c "domain"); [|injection H as _ <- _; eauto].
  destruct show; [|injection H as _ <- _; eauto].
  destruct (get_status _ _); injection H as _ <- _; eauto.
Qed.

Lemma run_success : forall tables st s sanity show dof d st' s' , run_sim tables st s sanity show dof (Ok (OutDict d)) = (st', s', Ok tt) ->
  sm_output s' = Some (OutDict d) /\ sm_problem s' = sm_problem s.
Proof.
  intros tables st s sanity show dof d st' s' H. unfold run_sim in H.
  destruct (prepare st s sanity dof) as [st1 [[c sv]|x]]; [|discriminate].
  destruct (opt c "domain"); [|discriminate].
  destruct show; [|injection H as _ <-; auto].
  destruct (get_status _ _); [injection H as _ <-; auto|discriminate].
Qed.

Lemma output_source : forall tables l w i s d,
  (forall s0, nth_error (sw_sims w) i = Some s0 -> sm_output s0 = None) ->
  nth_error (sw_sims (shist tables w l)) i = Some s -> sm_output s = Some (OutDict d) -> once_solved l i.
Proof.
  intros tables l. unfold once_solved.
  assert (Hgen : forall l w i s d, nth_error (sw_sims (shist tables w l)) i = Some s -> sm_output s = Some (OutDict d) ->
    (exists s0, nth_error (sw_sims w) i = Some s0 /\ sm_output s0 = Some (OutDict d)) \/
    exists sanity show dof d, In (ARun i sanity show dof (Ok (OutDict d))) l).
  { clear l. induction l as [|a l IH]; intros w i s d Hs Ho; [left; exists s; auto|]. cbn [shist] in Hs.
    destruct (IH _ _ _ _ Hs Ho) as [(s0 & H0 & H1)|(x1 & x2 & x3 & x4 & Hx)];
      [|right; exists x1, x2, x3, x4; now right].
    destruct (sstep tables w a) as [w' o] eqn:E. cbn [fst] in H0.
    destruct a as [|l0|i0 p|i0 c|i0 sanity show dof out]; cbn [sstep] in E.
    - injection E as <- _. cbn [sw_sims] in H0.
      destruct (Nat.lt_ge_cases i (List.length (sw_sims w))) as [Hlt|Hge].
      + rewrite nth_error_app1 in H0 by exact Hlt. left; exists s0. auto.
      + rewrite nth_error_app2 in H0 by exact Hge. destruct (i - List.length (sw_sims w))%nat as [|n]; cbn in H0.
        * injection H0 as <-. discriminate H1.
        * destruct n; discriminate H0.
    - injection E as <- _. left; exists s0; auto.
    - destruct (nth_error (sw_sims w) i0) as [si|] eqn:E0; [|injection E as <- _; left; exists s0; auto].
      injection E as <- _. cbn [sw_sims] in H0. destruct (Nat.eq_dec i i0) as [->|Hne].
      + rewrite set_nth_eq in H0 by (apply nth_error_Some; congruence). injection H0 as <-. left; exists si. auto.
      + rewrite set_nth_neq in H0 by exact Hne. left; exists s0; auto.
    - destruct (nth_error (sw_sims w) i0) as [si|] eqn:E0; [|injection E as <- _; left; exists s0; auto].
      destruct (set_configurations si c) as [s1|] eqn:E1; injection E as <- _; [|left; exists s0; auto].
      cbn [sw_sims] in H0. destruct (Nat.eq_dec i i0) as [->|Hne].
      + rewrite set_nth_eq in H0 by (apply nth_error_Some; congruence). injection H0 as <-. left; exists si.
        apply conf_problem in E1. destruct E1 as [_ E1]. split; [exact E0|congruence].
      + rewrite set_nth_neq in H0 by exact Hne. left; exists s0; auto.
    - destruct (nth_error (sw_sims w) i0) as [si|] eqn:E0; [|injection E as <- _; left; exists s0; auto].
      destruct (run_sim _ _ _ _ _ _ _) as [[st' s'] o'] eqn:Er. injection E as <- _. cbn [sw_sims] in H0.
      destruct (Nat.eq_dec i i0) as [->|Hne].
      + rewrite set_nth_eq in H0 by (apply nth_error_Some; congruence). injection H0 as <-.
        apply run_output in Er. destruct Er as [Er|(x & -> & Er)].
        * left; exists si. split; [exact E0|congruence].
        * right. exists sanity, show, dof, d. left. congruence.
      + rewrite set_nth_neq in H0 by exact Hne. left; exists s0; auto. }
  intros w i s d H0 Hs Ho. destruct (Hgen l w i s d Hs Ho) as [(s0 & Hx & Hy)|Hx]; [|exact Hx].
  rewrite (H0 _ Hx) in Hy. discriminate Hy.
Qed.

(** ** Saved configurations *)

Lemma cval_rect' : forall (P : cval -> Prop),
  P VNone -> (forall b, P (VBool b)) -> (forall n, P (VNum n)) -> (forall s, P (VStr s)) ->
  (forall l, (forall x, In x l -> P x) -> P (VList l)) ->
  (forall d, (forall k x, In (k, x) d -> P x) -> P (VDict d)) ->
  (forall r, P (VRef r)) -> (forall o, P (VObj o)) -> forall v, P v.
Proof.
  intros P H1 H2 H3 H4 H5 H6 H7 H8. fix F 1.
  intros [|b|n|s|l|d|r|o]; [exact H1|apply H2|apply H3|apply H4| | |apply H7|apply H8].
  - apply H5. induction l as [|x l IH]; [intros ? []|]. intros y [<-|Hy]; [apply F|exact (IH y Hy)].
  - apply H6. induction d as [|[k x] d IH]; [intros ? ? []|].
    intros k' y [E|Hy]; [injection E as _ <-; apply F|exact (IH k' y Hy)].
Qed.

Lemma json_plain : forall v, plain_data v -> json_value v = Ok v.
Proof.
  intros v; induction v as [|b|n|s|l IH|d IH|r|o] using cval_rect'; intros Hp; cbn; try reflexivity.
  - inversion Hp as [| | | |l' Hl E|]; subst. clear Hp.
    match goal with |- rbind (?go l) _ = _ => assert (Hg : go l = Ok l) end.
    { induction l as [|x l IHl]; [reflexivity|]. cbn in *. rewrite IH by auto. cbn [rbind].
      rewrite IHl; auto. }
    rewrite Hg. reflexivity.
  - inversion Hp as [| | | | |d' Hd E]; subst. clear Hp.
    match goal with |- rbind (?go d) _ = _ => assert (Hg : go d = Ok d) end.
    { induction d as [|[k x] d IHd]; [reflexivity|]. cbn in *. rewrite (IH k x) by eauto. cbn [rbind].
      rewrite IHd; eauto. }
    rewrite Hg. reflexivity.
  - inversion Hp.
  - inversion Hp.
Qed.

Lemma dump_get : forall st c, (forall k v, In (k, v) c -> plain_data (contents st v)) ->
  exists c', dump st c = Ok c' /\ forall k v, dget k c = Some v -> dget k c' = Some (contents st v).
Proof.
  intros st c; induction c as [|[k x] c IH]; intros Hp; [exists []; split; [reflexivity|discriminate]|].
  destruct IH as (c' & Hc & Hg); [intros; eapply Hp; right; eauto|].
  assert (Hx : json_option st x = Ok (contents st x)).
  { specialize (Hp k x (or_introl eq_refl)). unfold json_option, contents in *.
    destruct x; try exact (json_plain _ Hp). destruct (nth_error st r); [exact (json_plain _ Hp)|inversion Hp]. }
  exists ((k, contents st x) :: c'). split.
  - unfold dump in *. cbn [map_res snd fst]. rewrite Hx. cbn [rbind]. rewrite Hc. reflexivity.
  - intros k' v. cbn [dget]. destruct (String.eqb k' k); [intros [= <-]; reflexivity|apply Hg].
Qed.

Lemma dump_restored : forall st c s, (forall k v, In (k, v) c -> plain_data (contents st v)) ->
  exists c' s', dump st c = Ok c' /\ set_configurations s (mkConf [] VNone (Some (Ok c'))) = Ok s' /\
    forall k v, dget k c = Some v -> option_of s' k = Some (contents st v).
Proof.
  intros st c s Hp. destruct (dump_get st c Hp) as (c' & Hc & Hg).
  exists c', (with_conf s c'). split; [exact Hc|]. split; [reflexivity|]. exact Hg.
Qed.

(** A domain cannot be saved. *)
Lemma dump_object : forall st c k o, In (k, VObj o) c -> exists e, dump st c = Raise e.
Proof.
  intros st c k o; induction c as [|[k' x] c IH]; [intros []|]. unfold dump in *. cbn [map_res snd fst].
  intros [E|Hin].
  - injection E as -> ->. cbn. eauto.
  - destruct (json_option st x); cbn [rbind]; [|eauto]. destruct (IH Hin) as (e & ->). cbn. eauto.
Qed.

(** ** Forms used by the property theorems *)

Lemma run_store : forall tables w i sanity show dof out w' o,
  sstep tables w (ARun i sanity show dof out) = (w', o) ->
  sw_store w' = sw_store w \/
  exists s r l t, nth_error (sw_sims w) i = Some s /\ option_of s "arg_names" = Some (VRef r) /\
    option_of s "time_variable_name" = Some t /\ nth_error (sw_store w) r = Some l /\
    existsb (same_name t) l = false /\ sw_store w' = set_nth (sw_store w) r (l ++ [t]).
Proof.
  intros tables w i sanity show dof out w' o H. cbn [sstep] in H.
  destruct (nth_error (sw_sims w) i) as [s|]; [|injection H as <- _; now left].
  destruct (run_sim _ _ _ _ _ _ _) as [[st' s'] o'] eqn:E. injection H as <- _. cbn [sw_store].
  apply run_sim_effect in E. destruct E as ([->|(r & l & t & H1 & H2 & H3 & H4 & ->)] & _); [now left|].
  right. exists s, r, l, t. auto 10.
Qed.

Lemma step_sees : forall tables w a w' o j k v r0 s0,
  sstep tables w a = (w', o) -> target a <> Some j -> sees w j k v ->
  nth_error (sw_sims w) j = Some s0 -> option_of s0 k = Some r0 ->
  (forall r, r0 = VRef r -> (r < List.length (sw_store w))%nat /\ forall i, target a = Some i -> ~ appends_to w i r) ->
  sees w' j k v.
Proof.
  intros tables w a w' o j k v r0 s0 H Ht Hv Hs Ho Hr.
  destruct a as [|l|i p|i c|i sanity show dof out].
  5:{ eapply run_spares; eauto; [cbn in Ht; congruence|]. intros r Hx. now apply (Hr r Hx). }
  all: destruct Hv as (s & v0 & Hs1 & Ho1 & ->); assert (s0 = s) by congruence; subst s0; assert (r0 = v0) by congruence; subst r0;
    exists s, v0; (split; [eapply other_sim_kept; eauto|]); (split; [exact Ho1|]).
  - injection H as <- _. reflexivity.
  - injection H as <- _. unfold contents. cbn [sw_store]. destruct v0; try reflexivity.
    rewrite nth_error_app1; [reflexivity|]. now apply (Hr r).
  - cbn [sstep] in H. destruct (nth_error (sw_sims w) i); injection H as <- _; reflexivity.
  - cbn [sstep] in H. destruct (nth_error (sw_sims w) i) as [si|]; [|injection H as <- _; reflexivity].
    destruct (set_configurations si c); injection H as <- _; reflexivity.
Qed.

Lemma status_solved : forall tables l i s, nth_error (sw_sims (shist tables sworld0 l)) i = Some s ->
  algebraic_problem s -> get_status tables s = Ok 0%nat -> once_solved l i.
Proof.
  intros tables l i s Hs Ha Hst. apply (status_algebraic tables s Ha) in Hst. destruct Hst as [d Hd].
  apply (output_source tables l sworld0 i s d); auto. intros s0 H0. destruct i; discriminate H0.
Qed.

Lemma status_after_run : forall tables st s sanity show dof d st' s',
  run_sim tables st s sanity show dof (Ok (OutDict d)) = (st', s', Ok tt) -> algebraic_problem s ->
  get_status tables s' = Ok 0%nat.
Proof.
  intros tables st s sanity show dof d st' s' H Ha. apply run_success in H. destruct H as [Ho Hp].
  apply status_algebraic; [|eauto]. destruct Ha as (p & b & H1 & H2 & H3). exists p, b. rewrite Hp. auto.
Qed.

(** A run changes no option but the list of argument names. *)
Lemma default_lists k r : dget k conf_defaults = Some (VRef r) -> k <> "arg_names" -> dget "arg_names" conf_defaults <> Some (VRef r).
Proof.
  intros H N E. assert (Ek : In k (dkeys conf_defaults)) by exact (dget_in_keys _ _ _ H). cbn in E. injection E as E.
  cbn in Ek. repeat (destruct Ek as [Ek|Ek]; [subst k; cbn in H; first [discriminate H|contradiction|injection H as H; subst; discriminate]|]). contradiction.
Qed.
Lemma cval_dyn (x : cval) : x = VBool true \/ x <> VBool true.
Proof. destruct x as [|[|]| | | | | |]; (now left) || (right; discriminate). Qed.
Lemma run_own : forall tables w i sanity show dof out w' o k v s a s', set_configurations s a = Ok s' -> ca_file a = None -> ca_dict a = VNone ->
  dget "arg_names" (ca_kwargs a) = None -> documented k -> k <> "arg_names" -> (forall r, dget k (ca_kwargs a) <> Some (VRef r)) ->
  nth_error (sw_sims w) i = Some s' -> sees w i k v -> sstep tables w (ARun i sanity show dof out) = (w', o) -> sees w' i k v.
Proof.
  intros tables w i sanity show dof out w' o k v s a s' C Fi Di An Dk Nk Nr Es (s0 & v0 & Hs & Ho & ->) H.
  rewrite Es in Hs. injection Hs as <-. cbn [sstep] in H. rewrite Es in H.
  destruct (run_sim tables (sw_store w) s' sanity show dof out) as [[st' s1] o'] eqn:E. injection H as <- _. apply run_sim_effect in E. destruct E as (E & Ec & _).
  exists s1, v0. cbn [sw_sims sw_store]. split; [apply set_nth_eq; apply nth_error_Some; congruence|]. split; [unfold option_of in *; now rewrite Ec|].
  destruct E as [->|(r & l & t & Ha & _ & Hl & _ & ->)]; [reflexivity|].
  unfold contents. destruct v0 as [| | | | | |r'|]; try reflexivity. rewrite set_nth_neq; [reflexivity|]. intros ->.
  destruct (conf_keywords s a s' C Fi Di) as (K1 & K2 & K3 & K4).
  assert (A : option_of s' "arg_names" = dget "arg_names" conf_defaults).
  { cbn. apply (K1 "arg_names"); [discriminate|cbn; tauto|now apply wr_default]. }
  destruct (string_dec k "time_variable_name") as [->|Nt].
  - destruct (dget "time_variable_name" (ca_kwargs a)) as [x|] eqn:G.
    + destruct x; try (rewrite (K2 _ (wr_given _ _ _ G)) in Ho by discriminate; congruence).
      assert (W := wr_given _ _ _ G). destruct (dget "is_dynamic" (ca_kwargs a)) as [dy|] eqn:Gd.
      * destruct (cval_dyn dy) as [->|Nd].
        -- destruct (K4 W (wr_given _ _ _ Gd)) as (p & _ & T). rewrite T in Ho. unfold time_value in Ho. destruct (pr_time p); discriminate Ho.
        -- rewrite (K3 W) in Ho; [discriminate Ho|]. intros Wd. inversion Wd; congruence.
      * rewrite (K3 W) in Ho; [discriminate Ho|]. intros Wd. inversion Wd; [congruence|]. match goal with X : dget "is_dynamic" conf_defaults = _ |- _ => discriminate X end.
    + assert (W : written (ca_kwargs a) "time_variable_name" VNone) by (apply wr_default; [exact G|reflexivity]).
      destruct (dget "is_dynamic" (ca_kwargs a)) as [dy|] eqn:Gd.
      * destruct (cval_dyn dy) as [->|Nd].
        -- destruct (K4 W (wr_given _ _ _ Gd)) as (p & _ & T). rewrite T in Ho. unfold time_value in Ho. destruct (pr_time p); discriminate Ho.
        -- rewrite (K3 W) in Ho; [discriminate Ho|]. intros Wd. inversion Wd; congruence.
      * rewrite (K3 W) in Ho; [discriminate Ho|]. intros Wd. inversion Wd; [congruence|]. match goal with X : dget "is_dynamic" conf_defaults = _ |- _ => discriminate X end.
  - destruct (dget k (ca_kwargs a)) as [x|] eqn:G.
    + rewrite (K1 k x Nt Dk (wr_given _ _ _ G)) in Ho. injection Ho as ->. now apply (Nr r).
    + destruct (dget k conf_defaults) as [x|] eqn:Gd; [|unfold documented in Dk; apply in_keys_dget in Dk; destruct Dk as (y & Dk); congruence].
      rewrite (K1 k x Nt Dk (wr_default _ _ _ G Gd)) in Ho. injection Ho as ->. rewrite A in Ha. exact (default_lists k r Gd Nk Ha).
Qed.
