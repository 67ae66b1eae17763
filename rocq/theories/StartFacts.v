(** Facts about when a simulation starts (C86). *)
From Verif Require Import Base BaseFacts Num SimModel WholeModel SpecStart.
From Verif Require SpecSim SimFacts.
From Coq Require Import Lia.

Lemma kind_type b k : kind b k <-> exists t, problem_type b = Some t /\ ptype_name t = k.
Proof.
  unfold problem_type. split.
  - intros [A B C|A B|A B C|A [B|B]]; rewrite ?A, ?B, ?C; cbn.
    + destruct (b_lin b); [congruence|]. eexists; split; reflexivity.
    + destruct (b_nonlin b); [congruence|]. destruct (b_lin b); eexists; split; reflexivity.
    + destruct (b_diff b); [congruence|]. eexists; split; reflexivity.
    + destruct (b_diff b); [congruence|]. destruct (b_lin b); [congruence|]. destruct (b_nonlin b); eexists; split; reflexivity.
    + destruct (b_diff b); [congruence|]. destruct (b_nonlin b); [congruence|]. destruct (b_lin b); eexists; split; reflexivity.
  - intros (t & H & <-). destruct (b_diff b) eqn:Ed, (b_lin b) eqn:El, (b_nonlin b) eqn:En; cbn in H; injection H as <- || discriminate H; cbn [ptype_name].
    all: try (apply kind_nonlinear; congruence).
    all: try (apply kind_linear; congruence).
    all: try (apply kind_diff; congruence).
    all: apply kind_dae; [congruence|]; (left; congruence) || (right; congruence).
Qed.

Lemma has c k : complete c -> SpecSim.documented k -> exists v, dget k c = Some v.
Proof. intros C D. specialize (C k D). destruct (dget k c) as [v|]; [eauto|congruence]. Qed.
Ltac doc := unfold SpecSim.documented; cbn; tauto.

Lemma dmem_begins p t : dmem t (pr_init p) = true <-> begins p t.
Proof.
  unfold dmem, begins. split.
  - destruct (dget t (pr_init p)) as [v|] eqn:E; [intros _|discriminate]. exact (dget_in_keys _ _ _ E).
  - intros H. apply in_keys_dget in H. destruct H as [v ->]. reflexivity.
Qed.

Lemma chooses v b sv : choose_solver (match v with VStr x => Some x | VNone => None | _ => Some "" end) b = Ok sv <->
  (v = VNone \/ exists x, v = VStr x /\ In x kinds) /\ create_solver b = Ok sv.
Proof.
  unfold choose_solver. split.
  - destruct v as [|bb|n|s|l|d|r|o]; try (intros H; discriminate H).
    + unfold create_solver. intros H. split; [now left|]. destruct (problem_type b) as [[]|]; cbn in H; congruence.
    + intros H. split.
      * right. exists s. split; [reflexivity|]. unfold kinds. cbn [In].
        destruct (String.eqb_spec s "linear") as [->|]; [tauto|]. destruct (String.eqb_spec s "nonlinear") as [->|]; [tauto|].
        destruct (String.eqb_spec s "differential") as [->|]; [tauto|]. destruct (String.eqb_spec s "differential-algebraic") as [->|]; [tauto|]. discriminate H.
      * destruct (_ || _ || _ || _); [exact H|discriminate H].
  - intros [[-> |(x & -> & Hx)] H].
    + unfold create_solver in *. destruct (problem_type b) as [[]|]; cbn; congruence.
    + unfold kinds in Hx. cbn [In] in Hx. destruct Hx as [<-|[<-|[<-|[<-|[]]]]]; exact H.
Qed.

Lemma looks s : (exists m, nla_lookup (Some s) = Ok m) <-> In s ["*"; "symbolicsys"; "sympy"].
Proof.
  unfold nla_lookup. cbn [In]. destruct (String.eqb_spec s "*") as [->|N1]; [cbn; intuition eauto|].
  destruct (String.eqb_spec s "symbolicsys") as [->|N2]; [cbn; intuition eauto|].
  destruct (String.eqb_spec s "sympy") as [->|N3]; [cbn; intuition eauto|]. cbn.
  split; [intros [m H]; discriminate|]. intros [H|[H|[H|[]]]]; congruence.
Qed.

Lemma all_names l : forallb (fun x => match x with VStr _ => true | _ => false end) l = true <-> exists ts, l = map VStr ts.
Proof.
  split.
  - induction l as [|x l IH]; intros H; [now exists []|]. cbn [forallb] in H. destruct x; try discriminate H. destruct (IH H) as [ts ->]. now exists (s :: ts).
  - intros [ts ->]. induction ts as [|t ts IH]; [reflexivity|exact IH].
Qed.
Lemma names_of ts : tname_of (VList (map VStr ts)) = TNames ts.
Proof.
  cbn [tname_of]. rewrite (proj2 (all_names _) (ex_intro _ ts eq_refl)). f_equal. induction ts as [|t ts IH]; [reflexivity|]. cbn [map flat_map app]. now rewrite IH.
Qed.
Lemma tname_cases v : (exists t, v = VStr t /\ tname_of v = TName t) \/ (exists ts, v = VList (map VStr ts) /\ tname_of v = TNames ts) \/
  ((forall t, v <> VStr t) /\ (forall ts, v <> VList (map VStr ts)) /\ tname_of v = TNone).
Proof.
  destruct v as [|bb|n|s|l|d|r|o]; try (right; right; repeat split; intros ? ?; discriminate); [left; eauto|].
  destruct (forallb (fun x => match x with VStr _ => true | _ => false end) l) eqn:E.
  - right. left. apply all_names in E. destruct E as [ts ->]. exists ts. split; [reflexivity|apply names_of].
  - right. right. split; [intros ? ?; discriminate|]. split; [|cbn [tname_of]; now rewrite E].
    intros ts H. injection H as ->. rewrite (proj2 (all_names _) (ex_intro _ ts eq_refl)) in E. discriminate.
Qed.
Lemma names_begin p ts : forallb (fun s => dmem s (pr_init p)) ts = true <-> forall t, In t ts -> begins p t.
Proof.
  rewrite forallb_forall. split; intros H t Ht; [now apply dmem_begins, H|now apply dmem_begins, H].
Qed.

Lemma contains_parts x s : str_contains x s = true <-> exists u w, s = (u ++ x ++ w)%string.
Proof.
  assert (P : forall x s, String.prefix x s = true <-> exists w, s = (x ++ w)%string).
  { clear. induction x as [|a x IH]; intros s; [split; [intros _; now exists s|destruct s; reflexivity]|].
    destruct s as [|b s]; [split; [discriminate|intros [w H]; discriminate]|]. cbn [String.prefix]. destruct (ascii_dec a b) as [<-|N].
    - rewrite IH. split; intros [w H]; exists w; [now rewrite H|now injection H].
    - split; [discriminate|]. intros [w H]. now injection H as ->. }
  induction s as [|c s IH].
  - cbn [str_contains]. split.
    + destruct (String.prefix x "") eqn:E; [intros _|discriminate]. apply P in E. destruct E as [w E]. now exists ""%string, w.
    + intros (u & w & E). assert (Q : String.prefix x "" = true) by (apply P; destruct u; [now exists w|discriminate]). now rewrite Q.
  - cbn [str_contains]. destruct (String.prefix x (String c s)) eqn:E.
    + split; [intros _|reflexivity]. apply P in E. destruct E as [w E]. now exists ""%string, w.
    + rewrite IH. split; intros (u & w & H).
      * exists (String c u), w. now rewrite H.
      * destruct u as [|d u]; [exfalso; assert (String.prefix x (String c s) = true) by (apply P; now exists w); congruence|]. injection H as _ ->. eauto.
Qed.
Lemma dmem_keys (d : dict cval) x : dmem x d = true <-> In x (dkeys d).
Proof.
  unfold dmem. split.
  - destruct (dget x d) as [v|] eqn:E; [intros _|discriminate]. exact (dget_in_keys _ _ _ E).
  - intros H. apply in_keys_dget in H. destruct H as [v ->]. reflexivity.
Qed.

Definition takes (st : store) (a t : cval) : Prop :=
  (exists l, a = VList l) \/ (exists r, a = VRef r /\ (r < List.length st)%nat) \/
  exists x, t = VStr x /\ ((exists u w, a = VStr (u ++ x ++ w)%string) \/ exists d, a = VDict d /\ In x (dkeys d)).
Lemma adds st a t : (exists st', add_time_name st a t = (st', Ok tt)) <-> takes st a t.
Proof.
  split.
  - intros [st' H]. destruct a as [|bb|n|s|l|d|r|o]; cbn in H; try discriminate H.
    + right. right. destruct t; try discriminate H. destruct (str_contains s0 s) eqn:E; [|discriminate]. apply contains_parts in E. destruct E as (u & w & ->). eauto 8.
    + left. eauto.
    + right. right. destruct t; try discriminate H. destruct (dmem s d) eqn:E; [|discriminate]. apply dmem_keys in E. eauto 8.
    + right. left. exists r. split; [reflexivity|]. destruct (nth_error st r) eqn:E; [|discriminate]. apply nth_error_Some. congruence.
  - intros [[l ->]|[(r & -> & L)|(x & -> & [(u & w & ->)|(d & -> & Hd)])]]; cbn [add_time_name]; [eauto| | |].
    + destruct (nth_error st r) eqn:E; [eauto|]. apply nth_error_None in E. lia.
    + rewrite (proj2 (contains_parts x _)) by eauto. eauto.
    + rewrite (proj2 (dmem_keys d x)) by exact Hd. eauto.
Qed.

Definition dynamic (sv : solver) : bool := match sv with DSolver | DaeSolver => true | _ => false end.
Definition kind_solver (k : string) (sv : solver) : Prop :=
  match sv with LASolver => k = "linear" | NLASolver => k = "nonlinear" | DSolver => k = "differential" | DaeSolver => k = "differential-algebraic" end.

Lemma creates b sv : create_solver b = Ok sv <-> exists k, kind b k /\ kind_solver k sv.
Proof.
  unfold create_solver. split.
  - intros H. destruct (problem_type b) as [t|] eqn:E; [|discriminate]. exists (ptype_name t). split; [apply kind_type; eauto|].
    destruct t; injection H as <-; reflexivity.
  - intros (k & H & S). apply kind_type in H. destruct H as (t & -> & <-). destruct t, sv; cbn in S; congruence.
Qed.

Lemma takes_listed st v8 v7 : takes st v8 v7 -> (exists l, Some v8 = Some (VList l)) \/ (exists r, Some v8 = Some (VRef r) /\ (r < List.length st)%nat) \/
  exists t, Some v7 = Some (VStr t) /\ ((exists u w, Some v8 = Some (VStr (u ++ t ++ w)%string)) \/ exists d, Some v8 = Some (VDict d) /\ In t (dkeys d)).
Proof. intros [[l ->]|[(r & -> & L)|(x & -> & [(u & w & ->)|(d & -> & Hd)])]]; eauto 10. Qed.
Lemma listed_takes st v8 v7 : (exists l, Some v8 = Some (VList l)) \/ (exists r, Some v8 = Some (VRef r) /\ (r < List.length st)%nat) \/
  (exists t, Some v7 = Some (VStr t) /\ ((exists u w, Some v8 = Some (VStr (u ++ t ++ w)%string)) \/ exists d, Some v8 = Some (VDict d) /\ In t (dkeys d))) -> takes st v8 v7.
Proof.
  intros [[l H]|[(r & H & L)|(x & H & [(u & w & H')|(d & H' & Hd)])]]; [left|right; left|right; right|right; right]; injection H as ->; [eauto|eauto| |]; injection H' as ->; eauto 8.
Qed.

Lemma makes st p b c : complete c -> forall sv, (exists st', make_solver st p b c = (st', Ok sv)) <->
  exists k, kind b k /\ kind_solver k sv /\
    (k = "nonlinear" -> dget "nonlinear_solver" c = Some VNone \/
       exists x, dget "nonlinear_solver" c = Some (VStr x) /\ In x ["*"; "symbolicsys"; "sympy"]) /\
    time_given p c k /\ args_listed st c k.
Proof.
  intros C sv. unfold make_solver, opt.
  destruct (has c "linear_solver" C ltac:(doc)) as [v1 E1]. destruct (has c "nonlinear_solver" C ltac:(doc)) as [v2 E2].
  destruct (has c "differential_solver" C ltac:(doc)) as [v3 E3]. destruct (has c "differential_algebraic_solver" C ltac:(doc)) as [v4 E4].
  destruct (has c "domain" C ltac:(doc)) as [v5 E5]. destruct (has c "times_for_solution" C ltac:(doc)) as [v6 E6].
  destruct (has c "time_variable_name" C ltac:(doc)) as [v7 E7]. destruct (has c "arg_names" C ltac:(doc)) as [v8 E8].
  unfold time_given, args_listed. rewrite E1, E2, E3, E4, E5, E6, E7, E8. cbn [rbind].
  assert (Cr := creates b). destruct (create_solver b) as [sv0|x].
  2:{ split; [intros [st' H]; discriminate|]. intros (k & K & S & _). assert (X : exists k, kind b k /\ kind_solver k sv) by eauto. apply Cr in X. discriminate. }
  destruct (proj1 (Cr sv0) eq_refl) as (k0 & K0 & S0).
  assert (U : forall k, kind b k -> k = k0).
  { intros k K. apply kind_type in K. apply kind_type in K0. destruct K as (t & A & <-), K0 as (t' & A' & <-). congruence. }
  assert (Dyn : forall ok : res Datatypes.unit, dynamic sv0 = true ->
    (exists st', match (let* _ := ok in Ok (v7, v8)) with
      | Raise x => (st, Raise x)
      | Ok (t, a) => match add_time_name st a t with (st', Raise x) => (st', Raise x) | (st', Ok _) => (st', Ok sv0) end
      end = (st', Ok sv)) <-> sv = sv0 /\ ok = Ok tt /\ takes st v8 v7).
  { intros ok _. rewrite <- (adds st v8 v7). destruct ok as [[]|x]; cbn [rbind].
    - destruct (add_time_name st v8 v7) as [st1 [[]|x]].
      + split; [intros [st' H]; injection H as _ <-; eauto|intros (-> & _); eauto].
      + split; [intros [st' H]; discriminate|intros (_ & _ & st' & H); discriminate].
    - split; [intros [st' H]; discriminate|intros (_ & H & _); discriminate]. }
  destruct sv0; cbn [kind_solver] in S0; subst k0.
  - split.
    + intros [st' H]. injection H as _ <-. exists "linear". split; [exact K0|]. split; [reflexivity|]. split; [discriminate|]. split; [split; discriminate|]. intros [H|H]; discriminate.
    + intros (k & K & S & _). apply U in K. subst k. destruct sv; try discriminate S. eauto.
  - split.
    + intros [st' H]. injection H as _ H. exists "nonlinear". split; [exact K0|]. 
      assert (sv = NLASolver /\ (v2 = VNone \/ exists x, v2 = VStr x /\ In x ["*"; "symbolicsys"; "sympy"])) as [-> V].
      { destruct v2; try discriminate H; [injection H as <-; auto|]. fold (nla_lookup (Some s)) in H. destruct (nla_lookup (Some s)) as [m|] eqn:L; cbn [rbind] in H; [|discriminate H]. injection H as <-.
        split; [reflexivity|]. right. exists s. split; [reflexivity|]. apply looks. eauto. }
      split; [reflexivity|]. split; [intros _; destruct V as [-> |(x & -> & Hx)]; [auto|right; eauto]|]. split; [split; discriminate|]. intros [X|X]; discriminate.
    + intros (k & K & S & V & _). apply U in K. subst k. destruct sv; try discriminate S. exists st. f_equal.
      destruct (V eq_refl) as [X|(x & X & Hx)]; injection X as ->; [reflexivity|]. apply looks in Hx. destruct Hx as [m ->]. reflexivity.
  - cbn [rbind]. rewrite (Dyn _ eq_refl). split.
    + intros (-> & T & A). exists "differential". split; [exact K0|]. split; [reflexivity|]. split; [discriminate|]. split; [|intros _; exact (takes_listed _ _ _ A)].
      split; [intros _|discriminate]. exists v7. split; [reflexivity|]. destruct (tname_cases v7) as [(t & -> & X)|[(ts & -> & X)|(_ & _ & X)]]; rewrite X in T; [| |discriminate T].
      * left. exists t. split; [reflexivity|]. apply dmem_begins. destruct (dmem t (pr_init p)); [reflexivity|discriminate].
      * right. exists ts. split; [reflexivity|]. apply names_begin. destruct (forallb _ _); [reflexivity|discriminate].
    + intros (k & K & S & _ & [T _] & A). apply U in K. subst k. destruct sv; try discriminate S. split; [reflexivity|]. split; [|exact (listed_takes _ _ _ (A (or_introl eq_refl)))].
      destruct (T eq_refl) as (v & X & [(t & -> & B)|(ts & -> & B)]); injection X as ->; [cbn [tname_of]|rewrite names_of].
      * apply dmem_begins in B. now rewrite B.
      * apply names_begin in B. now rewrite B.
  - cbn [rbind]. rewrite (Dyn _ eq_refl). split.
    + intros (-> & T & A). exists "differential-algebraic". split; [exact K0|]. split; [reflexivity|]. split; [discriminate|]. split; [|intros _; exact (takes_listed _ _ _ A)].
      split; [discriminate|intros _]. destruct (tname_cases v7) as [(t & -> & X)|[(ts & -> & X)|(_ & _ & X)]]; rewrite X in T; cbn [daesolver_init] in T; try discriminate T.
      exists t. split; [reflexivity|]. apply dmem_begins. destruct (dmem t (pr_init p)); [reflexivity|discriminate].
    + intros (k & K & S & _ & [_ T] & A). apply U in K. subst k. destruct sv; try discriminate S. split; [reflexivity|]. split; [|exact (listed_takes _ _ _ (A (or_intror eq_refl)))].
      destruct (T eq_refl) as (t & X & B). injection X as ->. cbn [tname_of daesolver_init]. apply dmem_begins in B. now rewrite B.
Qed.

Lemma starts st s sanity dof : (forall c, sm_conf s = Some c -> complete c) ->
  (exists st' x, prepare st s sanity dof = (st', Ok x)) <-> ready st s sanity dof.
Proof.
  intros C. unfold prepare, ready. destruct (sm_conf s) as [c|]; [|split; [intros (st' & x & H); discriminate|intros (c & p & b & k & H & _); discriminate]].
  specialize (C c eq_refl). unfold opt. destruct (has c "problem_type" C ltac:(doc)) as [v1 E1]. destruct (has c "number_parameters_to_optimize" C ltac:(doc)) as [v2 E2].
  rewrite E1, E2. cbn [rbind].
  destruct (sm_problem s) as [p|]; [|split; [intros (st' & x & H); discriminate|intros (c' & p & b & k & _ & H & _); discriminate]].
  destruct (pr_block p) as [b|] eqn:Eb; [|split; [intros (st' & x & H); discriminate|intros (c' & p' & b & k & _ & H & H2 & _); injection H as ->; congruence]].
  assert (Ch := chooses v1 b). destruct (choose_solver _ b) as [sv|x]; cbn [rbind].
  - destruct (proj1 (Ch sv) eq_refl) as [V Cr]. assert (Mk := makes st p b c C). 
    destruct (make_solver st p b c) as [st1 [sv1|x]].
    + split.
      * intros (st' & y & H). destruct (proj1 (Mk sv1) (ex_intro _ st1 eq_refl)) as (k & K & S & N & T & A).
        exists c, p, b, k. split; [reflexivity|]. split; [reflexivity|]. split; [exact Eb|]. split; [exact K|].
        split; [destruct V as [-> |(z & -> & Hz)]; [auto|right; eauto]|]. split; [exact N|]. split; [exact T|]. split; [exact A|].
        intros ->. destruct dof as [v|]; [eauto|discriminate].
      * intros (c' & p' & b' & k & X1 & X2 & X3 & _ & _ & _ & _ & _ & D). destruct sanity; [|eauto]. destruct (D eq_refl) as [v ->]. cbn. eauto.
    + split; [intros (st' & y & H); discriminate|]. intros (c' & p' & b' & k & X1 & X2 & X3 & K & _ & N & T & A & _). exfalso.
      injection X1 as <-. injection X2 as <-. assert (b' = b) by congruence. subst b'.
      assert (Y : exists sv2, kind_solver k sv2).
      { apply kind_type in K. destruct K as (t & _ & <-). destruct t; [exists LASolver|exists NLASolver|exists DSolver|exists DaeSolver]; reflexivity. }
      destruct Y as [sv2 Y]. destruct (proj2 (Mk sv2)) as [st' H]; [eauto 10|discriminate].
  - split; [intros (st' & y & H); discriminate|]. intros (c' & p' & b' & k & X1 & X2 & X3 & K & V & _). exfalso.
    injection X1 as <-. injection X2 as <-. assert (b' = b) by congruence. subst b'.
    assert (Y : exists sv2, kind_solver k sv2).
    { apply kind_type in K. destruct K as (t & _ & <-). destruct t; [exists LASolver|exists NLASolver|exists DSolver|exists DaeSolver]; reflexivity. }
    destruct Y as [sv2 Y]. assert (Z : Raise x = Ok sv2); [|discriminate]. apply Ch. split; [|apply creates; eauto].
    rewrite E1 in V. destruct V as [V|(z & V & Hz)]; injection V as ->; [now left|right; eauto].
Qed.

(** Runs. *)
Lemma run_refused tables st s sanity show dof out : (forall c, sm_conf s = Some c -> complete c) -> ~ ready st s sanity dof ->
  exists st' x, run_sim tables st s sanity show dof out = (st', s, Raise x).
Proof.
  intros C N. unfold run_sim. assert (S := starts st s sanity dof C). destruct (prepare st s sanity dof) as [st' [[c sv]|x]]; [|eauto].
  exfalso. apply N, S. eauto.
Qed.
Lemma run_started tables st s sanity dof o c : sm_conf s = Some c -> complete c -> ready st s sanity dof ->
  exists st' d, dget "domain" c = Some d /\
    run_sim tables st s sanity false dof (Ok o) = (st', mkSim (sm_problem s) (sm_conf s) (Some o) d (sm_status s), Ok tt).
Proof.
  intros E C R. assert (C' : forall c', sm_conf s = Some c' -> complete c') by (intros c' H; replace c' with c by congruence; exact C).
  destruct (proj2 (starts st s sanity dof C') R) as (st' & [c1 sv] & P). unfold run_sim. rewrite P.
  assert (c1 = c).
  { unfold prepare in P. rewrite E in P. destruct (let* t := opt c "problem_type" in _) as [[p b]|]; [|discriminate].
    destruct (make_solver st p b c) as [st1 [sv1|]]; [|discriminate]. destruct sanity; [destruct dof; [|discriminate]|]; injection P as _ <- _; reflexivity. }
  subst c1. destruct (has c "domain" C ltac:(doc)) as [d Ed]. unfold opt. rewrite Ed. exists st', d. auto.
Qed.

(** The exception. *)
Lemma time_missing st p b c t : complete c -> kind b "differential" \/ kind b "differential-algebraic" -> dget "time_variable_name" c = Some (VStr t) ->
  ~ begins p t -> make_solver st p b c = (st, Raise EAbsentRequired).
Proof.
  intros C K T N. unfold make_solver, opt.
  destruct (has c "linear_solver" C ltac:(doc)) as [v1 E1]. destruct (has c "nonlinear_solver" C ltac:(doc)) as [v2 E2].
  destruct (has c "differential_solver" C ltac:(doc)) as [v3 E3]. destruct (has c "differential_algebraic_solver" C ltac:(doc)) as [v4 E4].
  destruct (has c "domain" C ltac:(doc)) as [v5 E5]. destruct (has c "times_for_solution" C ltac:(doc)) as [v6 E6].
  destruct (has c "arg_names" C ltac:(doc)) as [v8 E8]. rewrite E1, E2, E3, E4, E5, E6, T, E8. cbn [rbind tname_of daesolver_init].
  assert (M : dmem t (pr_init p) = false) by (destruct (dmem t (pr_init p)) eqn:M; [exfalso; apply N, dmem_begins, M|reflexivity]). rewrite M.
  unfold create_solver. destruct K as [K|K]; apply kind_type in K; destruct K as (ty & -> & X); destruct ty; try discriminate X; reflexivity.
Qed.
Lemma run_time_missing tables st s sanity show dof out c p b t : sm_conf s = Some c -> complete c -> sm_problem s = Some p -> pr_block p = Some b ->
  kind b "differential" \/ kind b "differential-algebraic" ->
  dget "problem_type" c = Some VNone -> dget "time_variable_name" c = Some (VStr t) -> ~ begins p t ->
  run_sim tables st s sanity show dof out = (st, s, Raise EAbsentRequired).
Proof.
  intros E C Ep Eb K P T N. unfold run_sim, prepare. rewrite E, Ep, Eb. unfold opt. rewrite P.
  destruct (has c "number_parameters_to_optimize" C ltac:(doc)) as [v2 E2]. rewrite E2. cbn [rbind].
  assert (X : exists sv, choose_solver None b = Ok sv).
  { assert (Y : exists sv, create_solver b = Ok sv) by (destruct K as [K|K]; [exists DSolver|exists DaeSolver]; apply creates; eexists; (split; [exact K|reflexivity])).
    destruct Y as [sv Y]. exists sv. apply (proj2 (chooses VNone b sv)). auto. }
  destruct X as [sv ->]. cbn [rbind]. now rewrite (time_missing st p b c t C K T N).
Qed.

(** Options given by keywords or in a dictionary. *)
Lemma given_complete s a s' c : set_configurations s a = Ok s' -> ca_file a = None -> (forall d, ca_dict a = VDict d -> NoDup (dkeys d)) ->
  sm_conf s' = Some c -> complete c.
Proof.
  intros H F D E k K. destruct (SimFacts.conf_complete s a s' H F D k K) as [v V]. unfold SpecSim.option_of in V. rewrite E in V. congruence.
Qed.

(** Whole runs. *)
Lemma whole_started lib arrays pn ps h st doms s sanity st' doms' out : (forall c, sm_conf s = Some c -> complete c) ->
  whole_run lib arrays pn ps h st doms s sanity = (st', doms', Ok out) -> ready st s false (Ok true).
Proof.
  intros C H. apply (starts st s false (Ok true) C). unfold whole_run in H. destruct (prepare st s false (Ok true)) as [st1 [x|]]; [eauto|discriminate].
Qed.
Lemma whole_refused lib arrays pn ps h st doms s sanity : (forall c, sm_conf s = Some c -> complete c) -> ~ ready st s false (Ok true) ->
  exists st' x, whole_run lib arrays pn ps h st doms s sanity = (st', doms, Raise x).
Proof.
  intros C N. assert (S := starts st s false (Ok true) C). unfold whole_run. destruct (prepare st s false (Ok true)) as [st1 [x|x]]; [|eauto].
  exfalso. apply N, S. eauto.
Qed.

(** ** How it is reported *)
Definition textual (a : cval) : Prop := (exists x, a = VStr x) \/ (exists d, a = VDict d).
Definition untaken (st : store) (a t : cval) (x : exn) : Prop := ~ takes st a t /\
  ((x = EAttribute /\ (exists y, t = VStr y) /\ textual a) \/
   (x = EType /\ (forall r, a <> VRef r) /\ (textual a -> forall y, t <> VStr y)) \/
   (x = EName /\ exists r, a = VRef r /\ (List.length st <= r)%nat)).
Lemma adds_raise st a t x : (exists st', add_time_name st a t = (st', Raise x)) <-> untaken st a t x.
Proof.
  split.
  - intros [st' H]. split.
    { intros T. apply adds in T. destruct T as [st1 T]. rewrite H in T. discriminate. }
    unfold textual. destruct a as [|bb|n|s|l|d|r|o]; cbn [add_time_name] in H.
    all: try (injection H as _ <-; right; left; split; [reflexivity|]; split; [discriminate|]; intros [[? E]|[? E]]; discriminate).
    + injection H as _ H. destruct t as [|bt|nt|y|lt|dt|rt|ot]; try (injection H as <-; right; left; split; [reflexivity|]; split; [discriminate|]; intros _ ? ?; discriminate).
      destruct (str_contains y s); [discriminate|]. injection H as <-. left. eauto 8.
    + discriminate H.
    + injection H as _ H. destruct t as [|bt|nt|y|lt|dt|rt|ot]; try (injection H as <-; right; left; split; [reflexivity|]; split; [discriminate|]; intros _ ? ?; discriminate).
      destruct (dmem y d); [discriminate|]. injection H as <-. left. eauto 8.
    + destruct (nth_error st r) as [l|] eqn:E; [discriminate|]. injection H as _ <-. right. right. split; [reflexivity|]. exists r. split; [reflexivity|]. now apply nth_error_None.
  - intros [N C]. destruct (add_time_name st a t) as [st1 [[]|y]] eqn:E; [exfalso; apply N, adds; eauto|]. exists st1. f_equal. f_equal.
    unfold textual in C. destruct a as [|bb|n|s|l|d|r|o]; cbn [add_time_name] in E.
    all: try (injection E as _ <-; destruct C as [(-> & _ & [[? X]|[? X]])|[(-> & _)|(-> & ? & X & _)]]; (reflexivity || discriminate X)).
    + injection E as _ E. destruct C as [(-> & (u & ->) & _)|[(-> & _ & X)|(-> & ? & X & _)]]; [| |discriminate X].
      * destruct (str_contains u s); [discriminate|]. congruence.
      * destruct t; try congruence. exfalso. exact (X (or_introl (ex_intro _ s eq_refl)) _ eq_refl).
    + discriminate E.
    + injection E as _ E. destruct C as [(-> & (u & ->) & _)|[(-> & _ & X)|(-> & ? & X & _)]]; [| |discriminate X].
      * destruct (dmem u d); [discriminate|]. congruence.
      * destruct t; try congruence. exfalso. exact (X (or_intror (ex_intro _ d eq_refl)) _ eq_refl).
    + destruct (nth_error st r) as [l|]; [discriminate|]. injection E as _ <-. destruct C as [(-> & _ & [[? X]|[? X]])|[(-> & X & _)|(-> & _)]]; [discriminate X|discriminate X|now elim (X r)|reflexivity].
Qed.

Lemma untaken_unusable st p c k v7 v8 x : k = "differential" \/ k = "differential-algebraic" -> dget "time_variable_name" c = Some v7 -> dget "arg_names" c = Some v8 ->
  time_given p c k -> untaken st v8 v7 x -> unusable st p c k x.
Proof.
  intros D E7 E8 T [N C].
  assert (A : ~ args_listed st c k).
  { intros A. apply N. specialize (A D). rewrite E7, E8 in A. now apply listed_takes. }
  destruct C as [(-> & (y & ->) & X)|[(-> & R & X)|(-> & r & -> & L)]].
  - exact (un_text st p c k v8 y D T A E8 E7 X).
  - refine (un_args st p c k v8 D T A E8 R _). intros Y t E. rewrite E7 in E. injection E as ->. exact (X Y t eq_refl).
  - exact (un_lost st p c k r D T E8 L).
Qed.
Lemma unusable_untaken st p c k v7 v8 x : k = "differential" \/ k = "differential-algebraic" -> dget "time_variable_name" c = Some v7 -> dget "arg_names" c = Some v8 ->
  unusable st p c k x -> time_given p c k -> untaken st v8 v7 x.
Proof.
  intros D E7 E8 U T.
  assert (Z : ~ args_listed st c k -> ~ takes st v8 v7) by (intros A B; apply A; intros _; rewrite E7, E8; now apply takes_listed).
  destruct U as [v K|K N|K N|ts K E|v t _ _ A E E' X|v _ _ A E R X|r _ _ E L].
  - destruct D as [D|D]; rewrite D in K; discriminate.
  - contradiction.
  - contradiction.
  - subst k. destruct T as [_ T]. destruct (T eq_refl) as (t & Ht & _). rewrite E in Ht. discriminate.
  - rewrite E8 in E. injection E as <-. rewrite E7 in E'. injection E' as ->. split; [auto|]. left. eauto.
  - rewrite E8 in E. injection E as <-. split; [auto|]. right. left. split; [reflexivity|]. split; [exact R|]. intros Y y ->. exact (X Y y E7).
  - rewrite E8 in E. injection E as ->. split; [|right; right; eauto].
    intros [[l H]|[(r' & H & L')|(y & _ & [(u & w & H)|(d & H & _)])]]; try discriminate. injection H as <-. lia.
Qed.

Lemma make_raises st p b c k x : complete c -> kind b k -> ((exists st', make_solver st p b c = (st', Raise x)) <-> unusable st p c k x).
Proof.
  intros C K. unfold make_solver, opt.
  destruct (has c "linear_solver" C ltac:(doc)) as [v1 E1]. destruct (has c "nonlinear_solver" C ltac:(doc)) as [v2 E2].
  destruct (has c "differential_solver" C ltac:(doc)) as [v3 E3]. destruct (has c "differential_algebraic_solver" C ltac:(doc)) as [v4 E4].
  destruct (has c "domain" C ltac:(doc)) as [v5 E5]. destruct (has c "times_for_solution" C ltac:(doc)) as [v6 E6].
  destruct (has c "time_variable_name" C ltac:(doc)) as [v7 E7]. destruct (has c "arg_names" C ltac:(doc)) as [v8 E8].
  rewrite E1, E2, E3, E4, E5, E6, E7, E8. cbn [rbind]. unfold create_solver. apply kind_type in K. destruct K as (ty & -> & <-). destruct ty; cbn [ptype_name].
  - split; [intros [st' H]; discriminate|]. intros [v H|H|H|ts H|v t [H|H]|v [H|H]|r [H|H]]; discriminate H.
  - split.
    + intros [st' H]. injection H as _ H.
      destruct v2 as [|bb|n|s|l|d|r|o]; try (injection H as <-; refine (un_solver st p c _ _ eq_refl E2 _ _); [discriminate|intros ? ?; discriminate]); [discriminate|].
      assert (L := looks s). fold (nla_lookup (Some s)) in H. unfold nla_lookup in H at 1. destruct (nla_lookup (Some s)) as [m|y] eqn:N.
      * unfold nla_lookup in N. rewrite N in H. discriminate H.
      * unfold nla_lookup in N. rewrite N in H. cbn [rbind] in H. injection H as <-. assert (y = EType) as ->.
        { destruct (String.eqb s "*" || String.eqb s "symbolicsys"); [discriminate|]. destruct (String.eqb s "sympy"); [discriminate|]. congruence. }
        refine (un_solver st p c _ _ eq_refl E2 _ _); [discriminate|]. intros z X Z. injection X as <-. apply L in Z. destruct Z as [m Z]. discriminate.
    + intros U. exists st. f_equal. destruct U as [v _ E N Z|H|H|ts H|v t [H|H]|v [H|H]|r [H|H]]; try discriminate H.
      rewrite E2 in E. injection E as ->. destruct v as [|bb|n|s|l|d|r|o]; try reflexivity; [congruence|].
      assert (L := looks s). unfold nla_lookup. destruct (String.eqb_spec s "*") as [->|_]; [exfalso; apply (Z _ eq_refl); cbn; auto|].
      destruct (String.eqb_spec s "symbolicsys") as [->|_]; [exfalso; apply (Z _ eq_refl); cbn; auto|].
      destruct (String.eqb_spec s "sympy") as [->|_]; [exfalso; apply (Z _ eq_refl); cbn; auto|]. reflexivity.
  - cbn [rbind]. set (ok := match tname_of v7 with TName s => _ | TNames l => _ | TNone => _ end).
    assert (Ok1 : ok = Ok tt /\ time_given p c "differential" \/ ok = Raise EAbsentRequired /\ ~ time_given p c "differential").
    { unfold ok, time_given. rewrite E7. destruct (tname_cases v7) as [(t & -> & X)|[(ts & -> & X)|(N1 & N2 & X)]]; rewrite X.
      - destruct (dmem t (pr_init p)) eqn:M; [left|right]; (split; [reflexivity|]).
        + split; [intros _|discriminate]. exists (VStr t). split; [reflexivity|]. left. exists t. split; [reflexivity|]. now apply dmem_begins.
        + intros [H _]. destruct (H eq_refl) as (v & Hv & [(t' & -> & B)|(ts & -> & B)]); [|discriminate]. injection Hv as <-. apply dmem_begins in B. congruence.
      - destruct (forallb (fun s => dmem s (pr_init p)) ts) eqn:M; [left|right]; (split; [reflexivity|]).
        + split; [intros _|discriminate]. exists (VList (map VStr ts)). split; [reflexivity|]. right. exists ts. split; [reflexivity|]. now apply names_begin.
        + intros [H _]. destruct (H eq_refl) as (v & Hv & [(t' & -> & B)|(ts' & -> & B)]); [discriminate|]. assert (tname_of (VList (map VStr ts)) = tname_of (VList (map VStr ts'))) by congruence.
          rewrite !names_of in H0. injection H0 as <-. apply names_begin in B. congruence.
      - right. split; [reflexivity|]. intros [H _]. destruct (H eq_refl) as (v & Hv & [(t' & -> & B)|(ts' & -> & B)]); injection Hv as ->; [now elim (N1 t')|now elim (N2 ts')]. }
    assert (R := adds_raise st v8 v7 x). destruct Ok1 as [[-> T]|[-> T]]; cbn [rbind].
    + split.
      * intros [st' H]. apply (untaken_unusable st p c _ v7 v8 x (or_introl eq_refl) E7 E8 T). apply R. destruct (add_time_name st v8 v7) as [st1 [[]|y]]; [discriminate|]. exists st1. congruence.
      * intros U. apply (unusable_untaken st p c _ v7 v8 x (or_introl eq_refl) E7 E8 U), R in T. destruct T as [st' ->]. eauto.
    + split.
      * intros [st' H]. injection H as _ <-. now apply un_time.
      * intros U. exists st. destruct U as [v H|H _|H|ts H|v t _ H|v _ H|r _ H]; (discriminate H || contradiction || reflexivity).
  - cbn [rbind].
    assert (Ok1 : daesolver_init (pr_init p) (tname_of v7) = Ok tt /\ time_given p c "differential-algebraic" \/
      daesolver_init (pr_init p) (tname_of v7) = Raise EAbsentRequired /\ ~ time_given p c "differential-algebraic" /\ (forall ts, v7 <> VList (map VStr ts)) \/
      daesolver_init (pr_init p) (tname_of v7) = Raise EType /\ ~ time_given p c "differential-algebraic" /\ exists ts, v7 = VList (map VStr ts)).
    { unfold time_given. rewrite E7. destruct (tname_cases v7) as [(t & -> & X)|[(ts & -> & X)|(N1 & N2 & X)]]; rewrite X; cbn [daesolver_init].
      - destruct (dmem t (pr_init p)) eqn:M; [left|right; left]; (split; [reflexivity|]).
        + split; [discriminate|intros _]. exists t. split; [reflexivity|]. now apply dmem_begins.
        + split; [|discriminate]. intros [_ H]. destruct (H eq_refl) as (t' & Hv & B). injection Hv as <-. apply dmem_begins in B. congruence.
      - right. right. split; [reflexivity|]. split; [|eauto]. intros [_ H]. destruct (H eq_refl) as (t' & Hv & B). discriminate.
      - right. left. split; [reflexivity|]. split; [|exact N2]. intros [_ H]. destruct (H eq_refl) as (t' & Hv & B). injection Hv as ->. now elim (N1 t'). }
    assert (R := adds_raise st v8 v7 x). destruct Ok1 as [[-> T]|[(-> & T & N)|(-> & T & ts & ->)]]; cbn [rbind].
    + split.
      * intros [st' H]. apply (untaken_unusable st p c _ v7 v8 x (or_intror eq_refl) E7 E8 T). apply R. destruct (add_time_name st v8 v7) as [st1 [[]|y]]; [discriminate|]. exists st1. congruence.
      * intros U. apply (unusable_untaken st p c _ v7 v8 x (or_intror eq_refl) E7 E8 U), R in T. destruct T as [st' ->]. eauto.
    + split.
      * intros [st' H]. injection H as _ <-. apply un_time_dae; [reflexivity|exact T|]. intros ts X. rewrite E7 in X. injection X as ->. now elim (N ts).
      * intros U. exists st. destruct U as [v H|H|_ _ _|ts _ H|v t _ H|v _ H|r _ H]; try (discriminate H || contradiction || reflexivity). rewrite E7 in H. injection H as ->. now elim (N ts).
    + split.
      * intros [st' H]. injection H as _ <-. now apply un_times with ts.
      * intros U. exists st. destruct U as [v H|H|_ _ H|ts' _ _|v t _ H|v _ H|r _ H]; try (discriminate H || contradiction || reflexivity). now elim (H ts).
Qed.

Lemma no_kind b : (forall k, ~ kind b k) <-> create_solver b = Raise EUnexpectedValue.
Proof.
  unfold create_solver. split.
  - intros N. destruct (problem_type b) as [t|] eqn:E; [|reflexivity]. elim (N (ptype_name t)). apply kind_type. eauto.
  - intros H k K. apply kind_type in K. destruct K as (t & E & _). rewrite E in H. destruct t; discriminate.
Qed.
Lemma chooses_raise v b x : choose_solver (match v with VStr x => Some x | VNone => None | _ => Some "" end) b = Raise x <->
  x = EUnexpectedValue /\ (v <> VNone /\ (forall z, v = VStr z -> ~ In z kinds) \/ forall k, ~ kind b k).
Proof.
  assert (X : forall x, choose_solver (match v with VStr x => Some x | VNone => None | _ => Some "" end) b = Raise x -> x = EUnexpectedValue).
  { intros y. unfold choose_solver, create_solver. destruct v; destruct (problem_type b) as [[]|]; cbn; repeat match goal with |- context [if ?q then _ else _] => destruct q end; congruence. }
  assert (Ch := chooses v b). split.
  - intros H. split; [exact (X x H)|]. destruct (create_solver b) as [sv|y] eqn:Cr.
    + left. split.
      * intros ->. assert (Z := proj2 (Ch sv) (conj (or_introl eq_refl) eq_refl)). congruence.
      * intros z -> Hz. assert (Z := proj2 (Ch sv) (conj (or_intror (ex_intro _ z (conj eq_refl Hz))) eq_refl)). cbn in H, Z. congruence.
    + right. apply no_kind. rewrite Cr. f_equal. unfold create_solver in Cr. destruct (problem_type b) as [[]|]; congruence.
  - intros [-> N]. destruct (choose_solver _ b) as [sv|y] eqn:E; [|f_equal; now apply X]. exfalso. destruct (proj1 (Ch sv) eq_refl) as [V Cr]. destruct N as [[N1 N2]|N].
    + destruct V as [V|(z & V & Hz)]; [contradiction|exact (N2 z V Hz)].
    + apply no_kind in N. congruence.
Qed.

Lemma reports st s sanity dof x : (forall c, sm_conf s = Some c -> complete c) ->
  (exists st', prepare st s sanity dof = (st', Raise x)) <-> reported st s sanity dof x.
Proof.
  intros C. assert (St := starts st s false dof C). unfold prepare in *. destruct (sm_conf s) as [c|] eqn:Ec.
  2:{ split; [intros [st' H]; injection H as _ <-; now apply rp_options|]. intros R. exists st. f_equal.
      destruct R as [|H|p b H|c p b v H|c p b k e H|e (c & p & b & k & H & _)]; congruence. }
  specialize (C c eq_refl). unfold opt in *. destruct (has c "problem_type" C ltac:(doc)) as [v1 E1]. destruct (has c "number_parameters_to_optimize" C ltac:(doc)) as [v2 E2].
  rewrite E1, E2 in *. cbn [rbind] in *.
  destruct (sm_problem s) as [p|] eqn:Ep.
  2:{ split; [intros [st' H]; injection H as _ <-; apply rp_resolved; congruence|]. intros R. exists st. f_equal.
      destruct R as [H|_ _|p b _ H|c' p b v _ H|c' p b k e _ H|e (c' & p & b & k & _ & H & _)]; congruence. }
  destruct (pr_block p) as [b|] eqn:Eb.
  2:{ split; [intros [st' H]; injection H as _ <-; apply rp_resolved; congruence|]. intros R. exists st. f_equal.
      destruct R as [H|_ _|p' b _ H H'|c' p' b v _ H H'|c' p' b k e _ H H'|e (c' & p' & b & k & _ & H & H' & _)]; congruence. }
  assert (Ch := chooses_raise v1 b). destruct (choose_solver _ b) as [sv|y] eqn:E; cbn [rbind] in *.
  - assert (V : (v1 = VNone \/ exists z, v1 = VStr z /\ In z kinds) /\ create_solver b = Ok sv) by now apply chooses. destruct V as [V Cr].
    destruct (proj1 (creates b sv) Cr) as (k & K & S). assert (Mr := make_raises st p b c k x C K).
    assert (W : dget "problem_type" c = Some VNone \/ (exists z, dget "problem_type" c = Some (VStr z) /\ In z kinds)).
    { destruct V as [-> |(z & -> & Hz)]; [now left|right; eauto]. }
    assert (Un : forall k', kind b k' -> k' = k).
    { intros k' K'. apply kind_type in K'. apply kind_type in K. destruct K as (t & A & <-), K' as (t' & A' & <-). congruence. }
    destruct (make_solver st p b c) as [st1 [sv1|y]] eqn:Em.
    + split.
      * intros [st' H]. destruct sanity; [|discriminate]. destruct dof as [v|z] eqn:Ed; [discriminate|]. injection H as _ <-.
        apply rp_freedom; [|reflexivity|reflexivity]. apply St. eauto.
      * intros R. destruct R as [H|_ H|p' b' _ H H' N|c' p' b' v H Hp Hb Hv N1 N2|c' p' b' k' e H Hp Hb K' _ U|e _ -> ->]; [congruence|now elim (H p b Ep Eb)| | | |cbn; eauto].
        -- assert (p' = p) as -> by congruence. assert (b' = b) as -> by congruence. now elim (N k).
        -- assert (c' = c) as -> by congruence. assert (v = v1) as -> by congruence. destruct V as [V|(z & V & Hz)]; [contradiction|now elim (N2 z V)].
        -- assert (c' = c) as -> by congruence. assert (p' = p) as -> by congruence. assert (b' = b) as -> by congruence. rewrite (Un k' K') in U. apply (make_raises st p b c k e C K) in U. destruct U as [st' U]. congruence.
    + split.
      * intros [st' H]. injection H as _ ->. refine (rp_options_of st s sanity dof c p b k x Ec Ep Eb K W _). apply Mr. eauto.
      * intros R. destruct R as [H|_ H|p' b' _ H H' N|c' p' b' v H Hp Hb Hv N1 N2|c' p' b' k' e H Hp Hb K' _ U|e Re -> ->]; [congruence|now elim (H p b Ep Eb)| | | |].
        -- assert (p' = p) as -> by congruence. assert (b' = b) as -> by congruence. now elim (N k).
        -- assert (c' = c) as -> by congruence. assert (v = v1) as -> by congruence. destruct V as [V|(z & V & Hz)]; [contradiction|now elim (N2 z V)].
        -- assert (c' = c) as -> by congruence. assert (p' = p) as -> by congruence. assert (b' = b) as -> by congruence. rewrite (Un k' K') in U. apply (make_raises st p b c k e C K) in U. destruct U as [st' U]. exists st'. congruence.
        -- apply St in Re. destruct Re as (st' & z & Re). discriminate.
  - destruct (proj1 (Ch y) eq_refl) as [-> Y]. split.
    + intros [st' H]. injection H as _ <-. destruct Y as [[N1 N2]|N]; [exact (rp_type st s sanity dof c p b v1 Ec Ep Eb E1 N1 N2)|].
      refine (rp_equations st s sanity dof p b _ Ep Eb N). congruence.
    + intros R. exists st. f_equal.
      destruct R as [H|_ H|p' b' _ H H' N|c' p' b' v H Hp Hb Hv N1 N2|c' p' b' k' e H Hp Hb K' W U|e Re -> ->]; [congruence|now elim (H p b Ep Eb)|reflexivity|reflexivity| |].
      * exfalso. assert (c' = c) as -> by congruence. assert (p' = p) as -> by congruence. assert (b' = b) as -> by congruence. rewrite E1 in W. destruct Y as [[N1 N2]|N]; [|now elim (N k')].
        destruct W as [W|(z & W & Hz)]; injection W as ->; [now elim N1|now elim (N2 z eq_refl)].
      * apply St in Re. destruct Re as (st' & z & Re). discriminate.
Qed.
Lemma run_reports tables st s sanity show dof out x : (forall c, sm_conf s = Some c -> complete c) -> reported st s sanity dof x ->
  exists st', run_sim tables st s sanity show dof out = (st', s, Raise x).
Proof. intros C R. apply reports in R; [|exact C]. destruct R as [st' R]. exists st'. unfold run_sim. now rewrite R. Qed.
Lemma run_reported tables st s sanity show dof out st' s' x : (forall c, sm_conf s = Some c -> complete c) -> ~ ready st s sanity dof ->
  run_sim tables st s sanity show dof out = (st', s', Raise x) -> reported st s sanity dof x.
Proof.
  intros C N H. apply reports; [exact C|]. unfold run_sim in H. assert (S := starts st s sanity dof C). destruct (prepare st s sanity dof) as [st1 [[c sv]|y]].
  - exfalso. apply N, S. eauto.
  - injection H as _ _ ->. eauto.
Qed.
Lemma refusal_reported tables st s sanity show dof out : (forall c, sm_conf s = Some c -> complete c) -> ~ ready st s sanity dof ->
  forall x, reported st s sanity dof x <-> exists st', run_sim tables st s sanity show dof out = (st', s, Raise x).
Proof.
  intros C N x. split; [now apply run_reports|]. intros [st' H]. exact (run_reported _ _ _ _ _ _ _ _ _ _ C N H).
Qed.
Lemma reported_not_ready st s sanity dof x : (forall c, sm_conf s = Some c -> complete c) -> reported st s sanity dof x -> ~ ready st s sanity dof.
Proof.
  intros C R Y. apply reports in R; [|exact C]. apply starts in Y; [|exact C]. destruct R as [st1 R], Y as (st2 & y & Y). congruence.
Qed.
