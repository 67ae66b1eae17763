(** Conditions at which property packages are calculated by streams. *)
From Verif Require Import Base BaseFacts Num UnitModel Sympy Node Build EquationModel ModelModel PackageModel UnitOpModel
  SpecUnits SpecExpr SpecQty SpecModel SpecUnitOps SpecPackage SpecConditions PackageFacts UnitOpFacts UnitLibFacts StreamFacts.
From Coq Require Import Reals Lra.
Notation num := Verif.Num.num.

(** Each chemical is stored under its name. *)
Definition own_names (s : pstore) : Prop := forall i p n c x,
  nth_error (s_pkgs s) i = Some p -> dget n (pk_phases p) = Some c -> nth_error (s_chems s) c = Some x -> PackageModel.c_name x = n.

Lemma make_names known l : forall cs d cs' r, make_phases known cs d l = (cs', r) ->
  (forall n c, dget n d = Some c -> (c < List.length cs)%nat) ->
  (forall n c x, dget n d = Some c -> nth_error cs c = Some x -> PackageModel.c_name x = n) ->
  forall d', r = Ok d' -> forall n c x, dget n d' = Some c -> nth_error cs' c = Some x -> PackageModel.c_name x = n.
Proof.
  induction l as [|[m|] l IH]; cbn [make_phases]; intros cs d cs' r E L H d' Er.
  - injection E as <- <-. injection Er as <-. exact H.
  - destruct (known m); [|injection E as _ <-; discriminate]. refine (IH _ _ _ _ E _ _ _ Er).
    + intros n c. rewrite dget_dset, app_length. cbn [List.length]. destruct (String.eqb n m); [intros [= <-]; lia|]. intros Hc. specialize (L _ _ Hc). lia.
    + intros n c x. rewrite dget_dset. destruct (String.eqb_spec n m) as [->|_].
      * intros [= <-]. rewrite nth_error_app2, Nat.sub_diag by lia. cbn. now intros [= <-].
      * intros Hc. rewrite nth_error_app1 by exact (L _ _ Hc). now apply H.
  - exact (IH _ _ _ _ E L H _ Er).
Qed.

Lemma merge_from l : forall a d e a' d' r, merge a d e l = (a', d', r) -> forall n c, dget n d' = Some c -> dget n d = Some c \/ dget n e = Some c.
Proof.
  induction l as [|p l IH]; cbn [merge]; intros a d e a' d' r E n c H.
  - injection E as _ <- _. now left.
  - destruct (has_phase p a); [exact (IH _ _ _ _ _ _ E n c H)|]. destruct p as [m|]; [|injection E as _ <- _; now left].
    destruct (dget m e) as [x|] eqn:Em; [|injection E as _ <- _; now left].
    destruct (IH _ _ _ _ _ _ E n c H) as [G|G]; [|now right]. rewrite dget_dset in G.
    destruct (String.eqb_spec n m) as [->|_]; [right; congruence|now left].
Qed.

Lemma calc_spec d T P l : forall cs cs' r, calc_phases cs d T P l = (cs', r) -> (forall n c, dget n d = Some c -> (c < List.length cs)%nat) ->
  (forall c x', nth_error cs' c = Some x' -> exists x, nth_error cs c = Some x /\ PackageModel.c_name x' = PackageModel.c_name x) /\
  (forall c, (forall n, dget n d <> Some c) -> nth_error cs' c = nth_error cs c) /\
  (~ In None l -> (forall n, In (Some n) l -> dget n d <> None) -> r = Ok tt /\
    forall c x', nth_error cs' c = Some x' -> (c_T x' = T /\ c_P x' = P) \/
      (nth_error cs c = Some x' /\ forall n, In (Some n) l -> dget n d <> Some c)).
Proof.
  induction l as [|[m|] l IH]; cbn [calc_phases]; intros cs cs' r E L.
  - injection E as <- <-. split; [intros c x' H; now exists x'|]. split; [reflexivity|]. intros _ _. split; [reflexivity|]. intros c x' H. right. split; [exact H|intros n []].
  - destruct (dget m d) as [k|] eqn:Em.
    2: { injection E as <- <-. split; [intros c x' H; now exists x'|]. split; [reflexivity|]. intros _ H. elim (H m (or_introl eq_refl) Em). }
    assert (Lk := L _ _ Em). destruct (nth_error cs k) as [y|] eqn:Ek; [|apply nth_error_None in Ek; lia].
    destruct (IH _ _ _ E) as (A & B & C). { intros n c Hc. rewrite upd_length. exact (L _ _ Hc). }
    split; [|split].
    + intros c x' H. destruct (A _ _ H) as (x & Hx & Hn). rewrite nth_error_upd in Hx by exact Lk. destruct (Nat.eqb_spec c k) as [->|_].
      * injection Hx as <-. exists y. split; [exact Ek|exact Hn].
      * now exists x.
    + intros c Hc. rewrite (B c Hc), nth_error_upd by exact Lk. destruct (Nat.eqb_spec c k) as [->|_]; [elim (Hc m Em)|reflexivity].
    + intros N0 N1. destruct C as [-> C]; [intros H; apply N0; now right|intros n Hn; apply N1; now right|]. split; [reflexivity|].
      intros c x' H. destruct (C _ _ H) as [Q|[Q1 Q2]]; [now left|]. rewrite nth_error_upd in Q1 by exact Lk. destruct (Nat.eqb_spec c k) as [->|Hne].
      * injection Q1 as <-. now left.
      * right. split; [exact Q1|]. intros n [[= <-]|Hn]; [congruence|now apply Q2].
  - injection E as <- <-. split; [intros c x' H; now exists x'|]. split; [reflexivity|]. intros H. elim H. now left.
Qed.

Lemma own_step known s a : s_lists s <> [] -> sound s -> own_names s -> own_names (pstep known s a).
Proof.
  intros NE HS O. destruct a as [n a|i a|i T P|w i v]; cbn [pstep].
  - unfold new_package. destruct (match a with LDefault => _ | LNew l => _ | LSame j => _ end) as [lists k].
    destruct (negb _); [exact O|]. destruct (make_phases known (s_chems s) [] (nth k lists [])) as [cs r] eqn:E.
    destruct (make_phases_chems _ _ _ _ _ _ E) as [more ->].
    assert (Old : forall j p m c x, nth_error (s_pkgs s) j = Some p -> dget m (pk_phases p) = Some c -> nth_error (s_chems s ++ more) c = Some x -> PackageModel.c_name x = m).
    { intros j p m c x Hp Hc. rewrite nth_error_app1 by exact (proj2 (HS _ _ Hp) _ _ Hc). exact (O _ _ _ _ _ Hp Hc). }
    assert (New := make_names _ _ _ _ _ _ E (fun n c H => ltac:(discriminate H)) (fun n c x H => ltac:(discriminate H))).
    destruct r as [d|x]; intros j p m c y Hp Hc Hy; cbn [fst s_pkgs s_chems] in *; [|exact (Old _ _ _ _ _ Hp Hc Hy)].
    apply nth_error_snoc in Hp as [Hp|[_ ->]]; [exact (Old _ _ _ _ _ Hp Hc Hy)|]. exact (New d eq_refl _ _ _ Hc Hy).
  - unfold add_package. destruct (nth_error (s_pkgs s) i) as [p|] eqn:Hp; [|exact O]. destruct a as [j|]; [|exact O].
    destruct (nth_error (s_pkgs s) j) as [q|] eqn:Hq; [|exact O].
    destruct (merge _ _ _ _) as [[l d] r] eqn:E. assert (F := merge_from _ _ _ _ _ _ _ E).
    assert (G : own_names (mkStore (upd (pk_names p) l (s_lists s)) (s_chems s) (upd i (mkPkg (pk_number p) (pk_names p) d (pk_T p) (pk_P p)) (s_pkgs s)))).
    { intros k x m c y Hx Hc Hy. cbn [s_pkgs s_chems] in *. rewrite nth_error_upd in Hx by (apply nth_error_Some; congruence).
      destruct (Nat.eqb_spec k i) as [->|_]; [|exact (O _ _ _ _ _ Hx Hc Hy)]. injection Hx as <-. cbn [pk_phases] in Hc.
      destruct (F _ _ Hc) as [H|H]; [exact (O _ _ _ _ _ Hp H Hy)|exact (O _ _ _ _ _ Hq H Hy)]. }
    destruct r; exact G.
  - unfold calculate. destruct (nth_error (s_pkgs s) i) as [p|] eqn:Hp; [|exact O].
    destruct (calc_phases _ _ _ _ _) as [cs r] eqn:E. destruct (calc_spec _ _ _ _ _ _ _ E (proj2 (HS _ _ Hp))) as (A & _ & _).
    intros k q m c x Hq Hc Hx. cbn [fst s_pkgs s_chems] in *. destruct (A _ _ Hx) as (y & Hy & ->). exact (O _ _ _ _ _ Hq Hc Hy).
  - unfold set_TP. destruct (nth_error (s_pkgs s) i) as [p|] eqn:Hp; [|exact O]. destruct (is_pfloat v); [|exact O].
    intros k q m c x Hq Hc Hx. cbn [fst s_pkgs s_chems] in *. rewrite nth_error_upd in Hq by (apply nth_error_Some; congruence).
    destruct (Nat.eqb_spec k i) as [->|_]; [|exact (O _ _ _ _ _ Hq Hc Hx)]. injection Hq as <-. destruct w; exact (O _ _ _ _ _ Hp Hc Hx).
Qed.
Lemma own_run known l : own_names (prun known l).
Proof.
  assert (H : sound (prun known l) /\ own_names (prun known l)); [|exact (proj2 H)].
  apply run_ind; [split; intros i p; [intros H|intros n c x H]; destruct i; discriminate H|].
  intros s a NE [H1 H2]. split; [now apply sound_step|now apply own_step].
Qed.

Lemma calculate_good known l i T P : let s := prun known l in exists_pkg s i -> consistent s i ->
  snd (calculate s i T P) = Ok tt /\ calculated_at (fst (calculate s i T P)) i T P /\
  names_of (fst (calculate s i T P)) i = names_of s i /\
  forall k, exists_pkg s k -> ~ share_chemical s i k -> unchanged s (fst (calculate s i T P)) k.
Proof.
  intros s Hi C. assert (HS := sound_run known l). assert (O := own_run known l). fold s in HS, O. destruct (exists_some _ _ Hi) as [p Hp].
  apply (consistent_iff _ _ _ HS Hp) in C. destruct C as (_ & C1 & C2). unfold calculate. rewrite Hp.
  assert (Ll := calc_phases_length (pk_phases p) T P (the_list s (pk_names p)) (s_chems s)).
  destruct (calc_phases _ _ _ _ _) as [cs r] eqn:E. destruct (calc_spec _ _ _ _ _ _ _ E (proj2 (HS _ _ Hp))) as (A & B & D).
  destruct (D C1 (fun n H => proj1 (C2 n) H)) as [-> D']. clear D. cbn [fst snd] in *. split; [reflexivity|]. split; [|split; [|]].
  - intros n Hn. unfold names_of, chem_of in *. cbn [s_pkgs s_chems s_lists the_list] in *. rewrite Hp in *. unfold the_list in *. cbn [s_lists] in *.
    destruct (dget n (pk_phases p)) as [c|] eqn:Ec; [|elim (proj1 (C2 n) Hn Ec)].
    assert (Lc := proj2 (HS _ _ Hp) _ _ Ec). destruct (nth_error cs c) as [x|] eqn:Ex; [|apply nth_error_None in Ex; lia].
    exists x. split; [reflexivity|]. split.
    + destruct (A _ _ Ex) as (y & Hy & ->). exact (O _ _ _ _ _ Hp Ec Hy).
    + destruct (D' _ _ Ex) as [Q|[_ Q]]; [exact Q|elim (Q n Hn Ec)].
  - unfold names_of, the_list. cbn [s_pkgs s_lists]. now rewrite Hp.
  - intros k Hk Hsh. split; [reflexivity|]. split; [reflexivity|]. intros n. unfold chem_of. cbn [s_pkgs s_chems].
    destruct (nth_error (s_pkgs s) k) as [q|] eqn:Hq; [|reflexivity]. destruct (dget n (pk_phases q)) as [c|] eqn:Ec; [|reflexivity].
    apply B. intros m Hm. apply Hsh. exists p, q, m, n, c. auto.
Qed.

Lemma default_standard : standard T_default P_default.
Proof.
  split; [|reflexivity]. exists (IZR 5245110269142630 * / IZR (2 ^ 44))%R. split; [reflexivity|].
  change (2 ^ 44)%Z with 17592186044416%Z. apply Rabs_le. lra.
Qed.

(** Declaring a stream leaves its temperature and pressure alone. *)
Lemma flows_keep lib s i w n D a : sstate w n D -> In "ndot" D -> In "mdot" D -> In a D -> a <> "ndot" -> a <> "mdot" ->
  quantity (fst (stream_flows lib s i w)) a = quantity w a.
Proof.
  intros S I1 I2 Ia N1 N2. unfold stream_flows. destruct (the_qty w "mdot") as [m|]; [|reflexivity]. destruct (the_qty w "ndot") as [k|]; [|reflexivity].
  set (r := if q_spec m && negb (q_spec k) then _ else _). assert (H : match r with Ok (Some (b, v)) => b = "ndot" \/ b = "mdot" | _ => True end).
  { unfold r. destruct (q_spec m && negb (q_spec k)).
    - destruct (get_phase s i "*") as [c|]; [|exact I]. cbn [rbind]. destruct (ndiv _ _); [|exact I]. now left.
    - destruct (negb (q_spec m) && q_spec k); [|exact I]. destruct (get_phase s i "*") as [c|]; [|exact I]. now right. }
  destruct r as [[[b v]|]|x]; [|reflexivity|reflexivity].
  assert (Ib : In b D) by (destruct H as [-> | ->]; assumption).
  destruct (UnitOpFacts.set_step stream_units b v w n D Ib S) as (w' & E & _ & _ & K & _). rewrite E. cbn [fst]. apply K; [|exact Ia].
  destruct H as [-> | ->]; congruence.
Qed.

Lemma stream_calculates lib known acts i h u name ps w0 l qt qp s' w' r : let s := prun known acts in
  run_cmds (mkW h u (new_model name)) (stream_vars ++ flat_map phase_pars ps) = (w0, Ok tt) -> Forall is_setting l ->
  exists_pkg s i -> consistent s i ->
  quantity (settle w0 l) "T" = Some qt -> quantity (settle w0 l) "P" = Some qp ->
  stream_declare lib s (Some i) (settle w0 l) = (s', w', r) ->
  (r <> Ok tt /\ s' = s) \/
  (r = Ok tt /\ names_of s' i = names_of s i /\
   (q_spec qt = false -> q_spec qp = false -> s' = s) /\
   (q_spec qt = true \/ q_spec qp = true -> exists T P T0 P0, standard T0 P0 /\ calculated_at s' i T P /\
      T = (if q_spec qt then q_value qt else T0) /\ P = (if q_spec qp then q_value qp else P0)) /\
   forall k, exists_pkg s k -> ~ share_chemical s i k -> unchanged s s' k).
Proof.
  intros s R Hl Hi C Qt Qp E. destruct (stream_new h u name ps) as [w [R' S]]. rewrite R in R'. injection R' as <-.
  destruct (settle_state stream_units l w0 name _ Hl S) as [S2 _].
  assert (I : forall a, In a stream_attrs -> In a (with_phases ps stream_attrs)) by (apply with_phases_incl).
  unfold stream_declare in E. destruct (stream_flows lib s i (settle w0 l)) as [w1 [[]|x]] eqn:Ef.
  2: { injection E as <- <- <-. left. split; [discriminate|reflexivity]. }
  assert (F : forall a, In a stream_attrs -> a <> "ndot" -> a <> "mdot" -> quantity w1 a = quantity (settle w0 l) a).
  { intros a Ia N1 N2. replace w1 with (fst (stream_flows lib s i (settle w0 l))) by now rewrite Ef.
    apply (flows_keep lib s i (settle w0 l) name (with_phases ps stream_attrs)); auto; apply I; cbn; tauto. }
  assert (Ft : quantity w1 "T" = Some qt) by (rewrite F; [exact Qt|cbn; tauto|discriminate|discriminate]).
  assert (Fp : quantity w1 "P" = Some qp) by (rewrite F; [exact Qp|cbn; tauto|discriminate|discriminate]).
  unfold stream_state in E. rewrite (the_qty_quantity _ _ _ Ft), (the_qty_quantity _ _ _ Fp) in E.
  right. destruct (q_spec qt || q_spec qp) eqn:Sp.
  - destruct (calculate_good known acts i (if q_spec qt then q_value qt else T_default) (if q_spec qp then q_value qp else P_default) Hi C) as (A & B & N & D).
    fold s in A, B, N, D. destruct (calculate s i _ _) as [s2 r2]. cbn [fst snd] in *. injection E as <- <- <-. subst r2.
    split; [reflexivity|]. split; [exact N|]. split; [intros H1 H2; rewrite H1, H2 in Sp; discriminate|]. split; [|exact D].
    intros _. do 2 eexists. exists T_default, P_default. split; [exact default_standard|]. split; [exact B|]. split; reflexivity.
  - injection E as <- <- <-. apply orb_false_iff in Sp as [S1 S3]. split; [reflexivity|]. split; [reflexivity|]. split; [reflexivity|]. split; [rewrite S1, S3; intros [H|H]; discriminate|].
    intros k _ _. split; [reflexivity|]. split; reflexivity.
Qed.

Lemma chem_named known acts i n c : chem_of (prun known acts) i n = Some c -> PackageModel.c_name c = n.
Proof.
  unfold chem_of. destruct (nth_error (s_pkgs (prun known acts)) i) as [p|] eqn:Hp; [|discriminate].
  destruct (dget n (pk_phases p)) as [k|] eqn:Ek; [|discriminate]. exact (own_run known acts _ _ _ _ _ Hp Ek).
Qed.
