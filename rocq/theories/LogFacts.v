(** Proofs for C96. *)
From Verif Require Import Base BaseFacts Num Node SolverModel SimModel OptimModel LogModel SpecLog.
Notation num := Verif.Num.num.

(** ** Names of mechanisms *)
Definition algo_name (a : algo) : string := match a with SGA => "ga" | DE1220 => "sade" | DE => "de" | PSO => "pso" end.
Definition well_named (s : study) : Prop := forall m, st_mech s = Some m -> st_optimizer s = Some (algo_name (me_algo m)).

Lemma pg_algo accepts a args m : pg_algorithm accepts a args = Ok m -> me_algo m = a.
Proof. unfold pg_algorithm. destruct (accepts a args); [|discriminate]. intros H. injection H as <-. reflexivity. Qed.

Lemma set_named accepts c o n m : set_optimizer accepts c o = Ok (n, Some m) -> n = Some (algo_name (me_algo m)).
Proof.
  destruct o as [|s|]; cbn [set_optimizer]; try discriminate.
  assert (K : forall (A B : Type) (x : res A) (f : A -> res B) y, rbind x f = Ok y -> exists z, x = Ok z /\ f z = Ok y)
    by (intros A B [z|e] f y; [eauto|discriminate]).
  destruct (String.eqb s "ga"); [|destruct (String.eqb s "sade"); [|destruct (String.eqb s "de"); [|destruct (String.eqb s "pso"); [|discriminate]]]];
    intros H; repeat (apply K in H; destruct H as (? & ? & H)); injection H as <- <-;
    match goal with E : pg_algorithm _ _ _ = Ok _ |- _ => rewrite (pg_algo _ _ _ _ E) end; reflexivity.
Qed.
Lemma new_named accepts simconf a s : new_study accepts simconf a = Ok s -> well_named s.
Proof.
  unfold new_study. destruct (sim_configuration _ _); [|discriminate]. destruct (opt_configuration _) as [c|]; [|discriminate].
  cbn [rbind]. destruct (set_optimizer accepts c (sa_optimizer a)) as [[n m]|] eqn:E; [|discriminate]. cbn [rbind]. intros H. injection H as <-.
  intros m' Hm. cbn in *. subst m. exact (set_named _ _ _ _ _ E).
Qed.

(** A run keeps mechanism and name. *)
Lemma run_keeps evolve after s : st_mech (fst (run_study evolve after s)) = st_mech s /\ st_optimizer (fst (run_study evolve after s)) = st_optimizer s.
Proof.
  unfold run_study. destruct (sane s) as [[|]|]; try (split; reflexivity).
  destruct (st_mech s) as [m|] eqn:M; [|cbn; rewrite M; split; reflexivity].
  match goal with |- context [match ?x with Ok _ => _ | Raise _ => _ end] => destruct x as [best|] end; [|cbn; rewrite M; split; reflexivity].
  destruct after; cbn; rewrite M; split; reflexivity.
Qed.
Lemma run_named evolve after s : well_named s -> well_named (fst (run_study evolve after s)).
Proof. intros W m. destruct (run_keeps evolve after s) as [-> ->]. apply W. Qed.

(** ** Runs *)
(** What a run does to the study is what run_study does, with some end. *)
Lemma logged_study evolve log keep graph s : exists after, forall s' r, run_logged evolve log keep graph s = (s', r) ->
  run_study evolve after (ls_study s) = (ls_study s', r).
Proof.
  unfold run_logged. destruct (run_study evolve (Ok tt) (ls_study s)) as [st' r0] eqn:E.
  destruct r0 as [[]|e0]; [|exists (Ok tt); intros s' r H; injection H as <- <-; exact E].
  destruct (st_mech (ls_study s)) as [m|] eqn:M; [|exists (Ok tt); intros s' r H; injection H as <- <-; exact E].
  assert (F : forall e, run_study evolve (Raise e) (ls_study s) = (fst (run_study evolve (Raise e) (ls_study s)), Raise e)).
  { intros e. revert E. unfold run_study. destruct (sane (ls_study s)) as [[|]|]; try discriminate. rewrite M.
    match goal with |- context [match ?x with Ok _ => _ | Raise _ => _ end] => destruct x as [best|] end; [reflexivity|discriminate]. }
  assert (G : forall l, exists after, forall s' r,
     (if graph then match progress (st_optimizer (ls_study s)) l with
                    | Ok g => (mkLS st' l (ls_graphs s ++ [g]), Ok tt)
                    | Raise e => (mkLS (fst (run_study evolve (Raise e) (ls_study s))) l (ls_graphs s), Raise e) end
      else (mkLS st' l (ls_graphs s), Ok tt)) = (s', r) -> run_study evolve after (ls_study s) = (ls_study s', r)).
  { intros l. destruct graph; [|exists (Ok tt); intros s' r H; injection H as <- <-; exact E].
    destruct (progress _ l) as [g|e]; [exists (Ok tt)|exists (Raise e)]; intros s' r H; injection H as <- <-; [exact E|apply F]. }
  destruct keep.
  - destruct (data_frame (log_columns (me_algo m)) log) as [f|e]; [apply G|]. exists (Raise e). intros s' r H. injection H as <- <-. apply F.
  - destruct (study_log (ls_log s)); apply G.
Qed.

Lemma step_named s a : well_named (ls_study s) -> well_named (ls_study (fst (lstep s a))).
Proof.
  intros W. destruct a as [c|p|evolve log keep graph]; [exact W|exact W|]. cbn [lstep].
  destruct (run_logged evolve log keep graph s) as [s' r] eqn:E. destruct (logged_study evolve log keep graph s) as (after & H). apply H in E.
  assert (K := run_named evolve after _ W). rewrite E in K. exact K.
Qed.
Lemma used_named s : used_study s -> well_named (ls_study s).
Proof.
  intros (accepts & simconf & a & s0 & l & N & ->). assert (W : well_named (ls_study (mkLS s0 None []))) by exact (new_named _ _ _ _ N).
  revert W. generalize (mkLS s0 None []). induction l as [|x l IH]; intros s W; [exact W|]. cbn [lhist]. apply IH, step_named, W.
Qed.

(** ** Tables *)
Lemma documented_frame a rows : a <> DE -> as_documented a rows -> data_frame (log_columns a) rows = Ok (LFrame (documented a) rows).
Proof.
  intros N D. assert (E : log_columns a = documented a) by (destruct a; try reflexivity; now destruct N). rewrite E. unfold data_frame.
  replace (forallb _ rows) with true; [reflexivity|]. symmetry. apply forallb_forall. intros r Hr. apply Nat.eqb_eq, D, Hr.
Qed.
Lemma de_frame rows : as_documented DE rows -> rows <> [] -> data_frame (log_columns DE) rows = Raise EValue.
Proof.
  intros D N. destruct rows as [|r rows]; [now destruct N|]. unfold data_frame. cbn [forallb]. rewrite (D r (or_introl eq_refl)). reflexivity.
Qed.

Lemma column_entries a what rows : In what (documented a) -> as_documented a rows -> exists xs, column (LFrame (documented a) rows) what = Ok xs /\
  Forall2 (entry a what) rows xs.
Proof.
  intros W D. unfold column.
  assert (P : exists i, index_of what (documented a) = Some i /\ nth_error (documented a) i = Some what).
  { revert W. generalize (documented a). induction l as [|d l IH]; intros W; [destruct W|]. cbn [index_of]. destruct (String.eqb_spec what d) as [->|Nd]; [exists 0%nat; split; reflexivity|].
    destruct W as [W|W]; [congruence|]. destruct (IH W) as (i & Ei & Hi). exists (S i). rewrite Ei. split; [reflexivity|exact Hi]. }
  destruct P as (i & Ei & Hi). rewrite Ei. eexists. split; [reflexivity|].
  assert (Li : (i < List.length (documented a))%nat) by (apply nth_error_Some; congruence).
  induction rows as [|r rows IH]; [constructor|]. cbn [map]. constructor.
  - exists i. split; [exact Hi|]. assert (Lr := D r (or_introl eq_refl)). rewrite <- Lr in Li. now apply nth_error_nth'.
  - apply IH. intros r' Hr. apply D. now right.
Qed.

Lemma drawn a rows : as_documented a rows -> rows <> [] ->
  exists g, progress (Some (algo_name a)) (Some (LFrame (documented a) rows)) = Ok g /\ draws a rows g.
Proof.
  intros D N. unfold progress. cbn [study_log rbind].
  destruct (column_entries a "Gen" rows) as (gs & Eg & _); [destruct a; simpl; tauto|exact D|]. rewrite Eg. cbn [rbind].
  destruct (column_entries a "Fevals" rows) as (es & Ee & Fe); [destruct a; simpl; tauto|exact D|].
  destruct (column_entries a (best_so_far a) rows) as (bs & Eb & Fb); [destruct a; simpl; tauto|exact D|].
  assert (B : (if String.eqb (algo_name a) "pso" then column (LFrame (documented a) rows) "gbest"
               else if existsb (String.eqb (algo_name a)) ["sade"; "ga"; "de"] then column (LFrame (documented a) rows) "Best" else Raise EException) = Ok bs)
    by (destruct a; exact Eb).
  rewrite B. cbn [rbind]. rewrite Ee. cbn [rbind]. exists (List.combine es bs). destruct es as [|e es].
  - inversion Fe. subst. now destruct N.
  - split; [reflexivity|]. unfold draws. clear - Fe Fb. revert bs Fb. induction Fe as [|r x rs xs H _ IH]; intros bs Fb; inversion Fb; subst; [constructor|].
    cbn [List.combine]. constructor; [split; assumption|]. now apply IH.
Qed.

Lemma none_drawn a : progress (Some (algo_name a)) (Some (LFrame (log_columns a) [])) = Raise EValue.
Proof. destruct a; reflexivity. Qed.

(** ** Theorems *)
Lemma evolves_mech evolve s : evolves evolve s -> exists m, st_mech s = Some m.
Proof.
  unfold evolves, run_study. destruct (sane s) as [[|]|]; try discriminate. destruct (st_mech s) as [m|]; [eauto|discriminate].
Qed.

Lemma log_kept evolve log graph s m s' r : evolves evolve (ls_study s) -> st_mech (ls_study s) = Some m -> me_algo m <> DE -> as_documented (me_algo m) log ->
  run_logged evolve log true graph s = (s', r) -> ls_log s' = Some (LFrame (documented (me_algo m)) log).
Proof.
  intros V M N D. unfold run_logged. unfold evolves in V. destruct (run_study evolve (Ok tt) (ls_study s)) as [st' r0]. cbn [snd] in V. subst r0. rewrite M.
  rewrite (documented_frame _ _ N D). destruct graph; [destruct (progress _ _)|]; intros H; injection H as <- _; reflexivity.
Qed.

Lemma evolves_success evolve s : evolves evolve s -> st_success (fst (run_study evolve (Ok tt) s)) = true.
Proof.
  unfold evolves, run_study. destruct (sane s) as [[|]|]; try discriminate. destruct (st_mech s) as [m|]; [|discriminate].
  match goal with |- context [match ?x with Ok _ => _ | Raise _ => _ end] => destruct x as [best|] end; [reflexivity|discriminate].
Qed.
Lemma log_finishes evolve log keep s m : evolves evolve (ls_study s) -> st_mech (ls_study s) = Some m -> me_algo m <> DE -> as_documented (me_algo m) log ->
  exists s', run_logged evolve log keep false s = (s', Ok tt) /\ st_success (ls_study s') = true.
Proof.
  intros V M N D. assert (Su := evolves_success _ _ V). unfold run_logged. unfold evolves in V. destruct (run_study evolve (Ok tt) (ls_study s)) as [st' r0]. cbn [fst snd] in V, Su. subst r0. rewrite M.
  destruct keep; [rewrite (documented_frame _ _ N D)|destruct (study_log (ls_log s))]; (eexists; split; [reflexivity|exact Su]).
Qed.
Lemma log_drawn evolve log s m : used_study s -> evolves evolve (ls_study s) -> st_mech (ls_study s) = Some m -> me_algo m <> DE ->
  as_documented (me_algo m) log -> log <> [] ->
  exists s' g, run_logged evolve log true true s = (s', Ok tt) /\ st_success (ls_study s') = true /\ ls_graphs s' = ls_graphs s ++ [g] /\ draws (me_algo m) log g.
Proof.
  intros U V M N D L. assert (W := used_named _ U m M). assert (Su := evolves_success _ _ V). unfold run_logged. unfold evolves in V.
  destruct (run_study evolve (Ok tt) (ls_study s)) as [st' r0]. cbn [fst snd] in V, Su. subst r0. rewrite M.
  rewrite (documented_frame _ _ N D), W. destruct (drawn _ _ D L) as (g & Eg & Dg). rewrite Eg. do 2 eexists. repeat (split; [reflexivity||exact Su|]). exact Dg.
Qed.

(** Failures once the best individual is stored. *)
Lemma fails_stored evolve e s : evolves evolve s -> exists best, st_best (fst (run_study evolve (Raise e) s)) = Some best /\
  st_best (fst (run_study evolve (Ok tt) s)) = Some best /\ st_success (fst (run_study evolve (Raise e) s)) = st_success s.
Proof.
  unfold evolves, run_study. destruct (sane s) as [[|]|]; try discriminate. destruct (st_mech s) as [m|]; [|discriminate].
  match goal with |- context [match ?x with Ok _ => _ | Raise _ => _ end] => destruct x as [best|] end; [|discriminate]. intros _. exists best. repeat split.
Qed.
Lemma de_fails evolve log graph s m : evolves evolve (ls_study s) -> st_mech (ls_study s) = Some m -> me_algo m = DE -> as_documented DE log -> log <> [] ->
  exists s', run_logged evolve log true graph s = (s', Raise EValue) /\ ls_log s' = Some (LRaw log) /\ st_success (ls_study s') = st_success (ls_study s) /\
    exists best, st_best (ls_study s') = Some best.
Proof.
  intros V M A D L. destruct (fails_stored _ EValue _ V) as (best & B & _ & Su). unfold run_logged. unfold evolves in V.
  destruct (run_study evolve (Ok tt) (ls_study s)) as [st' r0]. cbn [snd] in V. subst r0. rewrite M, A, (de_frame _ D L).
  eexists. split; [reflexivity|]. cbn [ls_log ls_study]. repeat split; [exact Su|eauto].
Qed.
Lemma empty_fails evolve s : used_study s -> evolves evolve (ls_study s) -> exists s', run_logged evolve [] true true s = (s', Raise EValue) /\
  st_success (ls_study s') = st_success (ls_study s) /\ ls_graphs s' = ls_graphs s /\ exists best, st_best (ls_study s') = Some best.
Proof.
  intros U V. destruct (evolves_mech _ _ V) as [m M]. assert (W := used_named _ U m M).
  destruct (fails_stored _ EValue _ V) as (best & B & _ & Su). unfold run_logged. unfold evolves in V.
  destruct (run_study evolve (Ok tt) (ls_study s)) as [st' r0]. cbn [snd] in V. subst r0. rewrite M, W. unfold data_frame. cbn [forallb].
  rewrite none_drawn. eexists. split; [reflexivity|]. split; [exact Su|]. split; [reflexivity|eauto].
Qed.

(** What a run leaves alone. *)
Lemma log_untouched evolve log keep graph s s' r : run_logged evolve log keep graph s = (s', r) ->
  (keep = false -> ls_log s' = ls_log s) /\ (graph = false -> ls_graphs s' = ls_graphs s) /\
  (~ evolves evolve (ls_study s) -> ls_log s' = ls_log s /\ ls_graphs s' = ls_graphs s).
Proof.
  unfold run_logged, evolves. destruct (run_study evolve (Ok tt) (ls_study s)) as [st' [[]|e]]; cbn [snd].
  2: { intros H. injection H as <- <-. cbn. auto. }
  destruct (st_mech (ls_study s)) as [m|]; [|intros H; injection H as <- <-; cbn; auto].
  assert (S : match study_log (ls_log s) with Ok f => Some f | Raise _ => None end = ls_log s) by (destruct (ls_log s); reflexivity).
  destruct keep.
  - destruct (data_frame (log_columns (me_algo m)) log) as [f|e].
    + destruct graph; [|intros H; injection H as <- <-; cbn; split; [discriminate|split; [reflexivity|intros N; now destruct N]]].
      destruct (progress _ _); intros H; injection H as <- <-; cbn; (split; [discriminate|split; [discriminate|intros N; now destruct N]]).
    + intros H. injection H as <- <-. cbn. split; [discriminate|]. split; [reflexivity|intros N; now destruct N].
  - destruct (study_log (ls_log s)) as [f|e]; rewrite S;
      (destruct graph; [destruct (progress _ _)|]; intros H; injection H as <- <-; cbn;
        (split; [reflexivity|]; split; [first [reflexivity|discriminate]|intros N; now destruct N])).
Qed.
