(** What a unit operation keeps of its inlets. *)
From Verif Require Import Base BaseFacts Num UnitModel Sympy Node Build QtyFacts EquationModel ModelModel PackageModel UnitOpModel
  SpecUnits SpecExpr SpecQty SpecModel SpecUnitOps BuildFacts EquationFacts ModelFacts UnitOpFacts UnitLibFacts
  UnitResolveModel SpecUnitResolve SpecInlets UnitResolveFacts.
From Coq Require Import Reals.
Notation num := Verif.Num.num.

Lemma fix_holds w prefix b a s w' : prefix <> "" -> fix_named w prefix b a s = (w', Ok tt) ->
  w_heap w' = w_heap w /\ m_attrs (w_mod w') = m_attrs (w_mod w) /\ m_name (w_mod w') = m_name (w_mod w) /\
  stays_at_value (w_heap w) s (w_mod w') prefix b a /\
  forall k, (forall l q, attr_qty s b = Ok l -> hget (w_heap w) l = Some q -> k <> ((prefix ++ q_name q) ++ "_" ++ m_name (w_mod w))%string) ->
    dget k (m_eqs (w_mod w')) = dget k (m_eqs (w_mod w)).
Proof.
  intros Hp. unfold fix_named. destruct (attr_qty s b) as [lb|] eqn:B; [|destruct (attr_qty s a); discriminate].
  destruct (attr_qty s a) as [la|] eqn:A; [|discriminate].
  destruct (hget (w_heap w) lb) as [qb|] eqn:Hb; [|discriminate]. destruct (hget (w_heap w) la) as [qa|] eqn:Ha; [|discriminate].
  destruct (node_op BSub (qty_call la qa) (ONum (q_value qa))) as [n|] eqn:N; [|discriminate]. intros H.
  set (q := UResid (UNumR BSub (UQty la) (q_value qa))).
  assert (Bn : build (w_heap w) (UNumR BSub (UQty la) (q_value qa)) = Ok n).
  { cbn [build]. unfold build_qty. rewrite Ha. exact N. }
  assert (W : well_formed_eq (w_heap w) q) by (exists n; exact Bn).
  destruct (create_equation w (prefix ++ q_name qb)%string (Some (EANode n)) true) as [w1 [e|]] eqn:Cr; [|discriminate]. injection H as <-.
  assert (C : user_create w (prefix ++ q_name qb) q true = (w1, Ok e)) by (unfold user_create, q; cbn [build_eq]; rewrite Bn; exact Cr).
  assert (Hn : (prefix ++ q_name qb)%string <> "") by (destruct prefix; [contradiction|discriminate]).
  destruct (create_decided w (prefix ++ q_name qb) q W) as [D1 D2].
  destruct (Classical_Prop.classic (uses_declared w q)) as [U|U].
  2: { destruct (D2 U) as (x & E & _). rewrite C in E. discriminate. }
  destruct (D1 U) as (x & e' & E & Hh & Hm & He & n' & En & Dn). rewrite C in E. injection E as <- <-.
  rewrite Hm. cbn [m_attrs m_name m_eqs with_eqs]. split; [exact Hh|]. split; [reflexivity|]. split; [reflexivity|]. split.
  - exists lb, la, qb, qa, e, n'. repeat (split; [assumption|]). cbn [m_name m_eqs with_eqs].
    split; [rewrite dget_dset, (He Hn); unfold full_name; now rewrite String.eqb_refl|]. split; [exact En|].
    intros v en Hv. rewrite (Dn v en Hv). reflexivity.
  - intros k Hk. rewrite dget_dset. destruct (String.eqb_spec k (eq_name e)) as [->|_]; [|reflexivity].
    now contradiction (Hk lb qb eq_refl Hb); rewrite (He Hn).
Qed.

Lemma stays_kept h s m m' prefix b a : m_name m' = m_name m ->
  (forall l q, attr_qty s b = Ok l -> hget h l = Some q ->
    dget ((prefix ++ q_name q) ++ "_" ++ m_name m)%string (m_eqs m') = dget ((prefix ++ q_name q) ++ "_" ++ m_name m)%string (m_eqs m)) ->
  stays_at_value h s m prefix b a -> stays_at_value h s m' prefix b a.
Proof.
  intros Hn Hd (lb & la & qb & qa & e & n & B & Hb & A & Ha & D & E & F).
  exists lb, la, qb, qa, e, n. repeat (split; [assumption|]). rewrite Hn, (Hd lb qb B Hb). auto.
Qed.

(** The names of these equations. *)
Definition about (h : heap) (ss : list mstate) (m prefix b k : string) : Prop :=
  exists s l q, In s ss /\ attr_qty s b = Ok l /\ hget h l = Some q /\ k = ((prefix ++ q_name q) ++ "_" ++ m)%string.

Lemma fix_all_holds prefix b a ss : forall w w', prefix <> "" -> told_apart (w_heap w) ss b a -> fix_all w prefix b a ss = (w', Ok tt) ->
  w_heap w' = w_heap w /\ m_attrs (w_mod w') = m_attrs (w_mod w) /\ m_name (w_mod w') = m_name (w_mod w) /\
  (forall s, In s ss -> stays_at_value (w_heap w) s (w_mod w') prefix b a) /\
  forall k, ~ about (w_heap w) ss (m_name (w_mod w)) prefix b k -> dget k (m_eqs (w_mod w')) = dget k (m_eqs (w_mod w)).
Proof.
  induction ss as [|s r IH]; intros w w' Hp Ht H; cbn [fix_all] in H.
  - injection H as <-. repeat split. intros s [].
  - destruct (fix_named w prefix b a s) as [w1 [[]|]] eqn:L; [|discriminate].
    destruct (fix_holds _ _ _ _ _ _ Hp L) as (Hh & Ha & Hn & Hs & Hk).
    assert (Ht' : told_apart (w_heap w1) r b a).
    { rewrite Hh. intros s1 s2 l1 l2 q1 q2 I1 I2. apply Ht; now right. }
    destruct (IH w1 w' Hp Ht' H) as (Ih & Ia & In' & Is & Ik). rewrite Hh in Is, Ik. rewrite Hn in Ik.
    split; [congruence|]. split; [congruence|]. split; [congruence|]. split.
    + intros s' [<-|I]; [|now apply Is].
      destruct (Classical_Prop.classic (exists l q s2 l2 q2, attr_qty s b = Ok l /\ hget (w_heap w) l = Some q /\ In s2 r /\
        attr_qty s2 b = Ok l2 /\ hget (w_heap w) l2 = Some q2 /\ q_name q = q_name q2)) as [Y|N].
      * destruct Y as (l & q & s2 & l2 & q2 & A1 & A2 & A3 & A4 & A5 & A6).
        assert (Eq := Ht s s2 l l2 q q2 (or_introl eq_refl) (or_intror A3) A1 A4 A2 A5 A6).
        destruct (Is s2 A3) as (lb & la & qb & qa & e & n & B & Hb & A & Hqa & D & E & F).
        exists l, la, q, qa, e, n. split; [exact A1|]. split; [exact A2|]. split; [congruence|]. split; [exact Hqa|].
        split; [|auto]. replace (q_name q) with (q_name qb); [exact D|]. congruence.
      * apply stays_kept with (w_mod w1); [exact In'| |exact Hs]. intros l q A1 A2. rewrite Hn. apply Ik.
        intros (s2 & l2 & q2 & A3 & A4 & A5 & A6). apply N. exists l, q, s2, l2, q2.
        apply full_inj_same in A6. apply append_inj_l_s in A6. auto 10.
    + intros k K. rewrite Ik; [apply Hk|].
      * intros l q A1 A2 ->. apply K. exists s, l, q. repeat split; auto. now left.
      * intros (s2 & l2 & q2 & A3 & A4 & A5 & A6). apply K. exists s2, l2, q2. repeat split; auto. now right.
Qed.

Lemma take_holds w prefix b a ss w' os : take_inputs w prefix b a ss = (w', Ok os) -> fix_all w prefix b a ss = (w', Ok tt).
Proof.
  unfold take_inputs. destruct (calls_of (w_heap w) a ss); [|discriminate].
  destruct (fix_all w prefix b a ss) as [w1 [[]|]]; [|discriminate]. intros H. now injection H as -> _.
Qed.

Lemma take_exception w prefix b a ss w' x : take_inputs w prefix b a ss = (w', Raise x) -> x = EAbsentRequired.
Proof.
  unfold take_inputs. destruct (calls_of (w_heap w) a ss); [|congruence].
  destruct (fix_all w prefix b a ss) as [w1 [[]|]]; congruence.
Qed.

Lemma totalize_refused w name a os : os <> [] -> forallb is_node_opd os = true -> fst (totalize w name a os) = w.
Proof.
  intros Hn Hf. unfold totalize.
  assert (M : node_minmax false os = Raise EUnexpectedValue).
  { unfold node_minmax. rewrite Hf. destruct os as [|o r]; [contradiction|]. simpl in Hf. destruct o; try discriminate Hf. reflexivity. }
  destruct (attr_qty (w_mod w) a) as [l|]; [|reflexivity]. cbn [rbind]. destruct (build_qty (w_heap w) l); [|reflexivity].
  cbn [rbind]. rewrite M. reflexivity.
Qed.

Definition inlet_equations : list (string * string * string) :=
  [("eq_P_", "P", "P"); ("eq_T_", "T", "T"); ("eq_mdot_", "mdot", "mdot"); ("eq_ndot_", "mdot", "ndot")].

Lemma inlets_kept w ss w' x : ss <> [] -> unit_inlets w ss = (w', Raise x) -> x <> EException -> x <> EAbsentRequired ->
  (forall prefix b a, In (prefix, b, a) inlet_equations -> told_apart (w_heap w') ss b a) ->
  forall prefix b a s, In (prefix, b, a) inlet_equations -> In s ss -> stays_at_value (w_heap w') s (w_mod w') prefix b a.
Proof.
  intros Hs H X1 X2. unfold unit_inlets in H.
  destruct (take_streams _ _ ss) as [[h m] [[]|y]]; [|injection H as _ <-; contradiction].
  set (w1 := mkW h (w_uids (ensure_inputs w)) m) in *. clearbody w1.
  destruct (take_inputs w1 _ _ _ ss) as [w2 [ps|y]] eqn:T1;
    [|cbn [and_then] in H; injection H as _ <-; apply take_exception in T1; contradiction].
  cbn [and_then] in H.
  destruct (take_inputs w2 _ _ _ ss) as [w3 [ts|y]] eqn:T2;
    [|cbn [and_then] in H; injection H as _ <-; apply take_exception in T2; contradiction].
  cbn [and_then] in H.
  destruct (take_inputs w3 _ _ _ ss) as [w4 [ms|y]] eqn:T3;
    [|cbn [and_then] in H; injection H as _ <-; apply take_exception in T3; contradiction].
  cbn [and_then] in H.
  destruct (take_inputs w4 _ _ _ ss) as [w5 [ns|y]] eqn:T4;
    [|cbn [and_then] in H; injection H as _ <-; apply take_exception in T4; contradiction].
  cbn [and_then] in H.
  destruct (take_nodes _ _ _ _ _ _ _ T1) as [L F].
  assert (Hps : ps <> []) by (intros ->; destruct ss; [contradiction|discriminate]).
  assert (R := totalize_raises w5 "totalization_P" "P_in" ps Hps F).
  assert (K := totalize_refused w5 "totalization_P" "P_in" ps Hps F).
  destruct (totalize w5 _ _ ps) as [w6 [[]|y]]; [now contradiction R|]. cbn [and_then] in H. cbn [fst] in K. subst w6.
  injection H as <- _. clear R L F Hps X1 X2.
  apply take_holds in T1, T2, T3, T4.
  assert (E : forall w p b a w'', fix_all w p b a ss = (w'', Ok tt) -> p <> "" -> w_heap w'' = w_heap w).
  { clear. induction ss as [|s r IH]; intros w p b a w'' H Hp; cbn [fix_all] in H; [now injection H as <-|].
    destruct (fix_named w p b a s) as [w1 [[]|]] eqn:L; [|discriminate].
    destruct (fix_holds _ _ _ _ _ _ Hp L) as (Hh & _). rewrite <- Hh. now apply (IH w1 p b a w''). }
  assert (E1 := E w1 "eq_P_" "P" "P" w2 T1 ltac:(discriminate)). assert (E2 := E w2 "eq_T_" "T" "T" w3 T2 ltac:(discriminate)).
  assert (E3 := E w3 "eq_mdot_" "mdot" "mdot" w4 T3 ltac:(discriminate)). assert (E4 := E w4 "eq_ndot_" "mdot" "ndot" w5 T4 ltac:(discriminate)). clear E.
  intros Ht.
  assert (A1 : told_apart (w_heap w1) ss "P" "P").
  { replace (w_heap w1) with (w_heap w5) by congruence. apply (Ht "eq_P_"). cbn; auto. }
  assert (A2 : told_apart (w_heap w2) ss "T" "T").
  { replace (w_heap w2) with (w_heap w5) by congruence. apply (Ht "eq_T_"). cbn; auto. }
  assert (A3 : told_apart (w_heap w3) ss "mdot" "mdot").
  { replace (w_heap w3) with (w_heap w5) by congruence. apply (Ht "eq_mdot_"). cbn; auto. }
  assert (A4 : told_apart (w_heap w4) ss "mdot" "ndot").
  { replace (w_heap w4) with (w_heap w5) by congruence. apply (Ht "eq_ndot_"). cbn; auto. }
  destruct (fix_all_holds "eq_P_" "P" "P" ss w1 w2 ltac:(discriminate) A1 T1) as (_ & _ & N1 & S1 & K1).
  destruct (fix_all_holds "eq_T_" "T" "T" ss w2 w3 ltac:(discriminate) A2 T2) as (_ & _ & N2 & S2 & K2).
  destruct (fix_all_holds "eq_mdot_" "mdot" "mdot" ss w3 w4 ltac:(discriminate) A3 T3) as (_ & _ & N3 & S3 & K3).
  destruct (fix_all_holds "eq_ndot_" "mdot" "ndot" ss w4 w5 ltac:(discriminate) A4 T4) as (_ & _ & N4 & S4 & K4).
  rewrite <- E1 in S1. rewrite <- E2 in S1. rewrite <- E3 in S1. rewrite <- E4 in S1.
  rewrite <- E2 in S2. rewrite <- E3 in S2. rewrite <- E4 in S2. rewrite <- E3 in S3. rewrite <- E4 in S3. rewrite <- E4 in S4.
  intros prefix b a s Hi I. unfold inlet_equations in Hi. cbn [In] in Hi.
  destruct Hi as [Hi|[Hi|[Hi|[Hi|[]]]]]; injection Hi as <- <- <-.
  - apply stays_kept with (w_mod w2); [congruence| |now apply S1]. intros l q _ _.
    rewrite K4, K3, K2; [reflexivity| | |]; intros (s' & l' & q' & _ & _ & _ & X); discriminate X.
  - apply stays_kept with (w_mod w3); [congruence| |now apply S2]. intros l q _ _.
    rewrite K4, K3; [reflexivity| |]; intros (s' & l' & q' & _ & _ & _ & X); discriminate X.
  - apply stays_kept with (w_mod w4); [congruence| |now apply S3]. intros l q _ _.
    rewrite K4; [reflexivity|]; intros (s' & l' & q' & _ & _ & _ & X); discriminate X.
  - now apply S4.
Qed.

Lemma resolve_keeps d k ss outs w w1 w' outs' x : ss <> [] ->
  run_cmds w (d_cons d ++ d_pars d ++ d_vars d) = (w1, Ok tt) ->
  unit_resolve d k (Some ss) outs w = (w', outs', Raise x) -> x <> EException -> x <> EAbsentRequired ->
  (forall prefix b a, In (prefix, b, a) inlet_equations -> told_apart (w_heap w') ss b a) ->
  outs' = outs /\
  forall prefix b a s, In (prefix, b, a) inlet_equations -> In s ss -> stays_at_value (w_heap w') s (w_mod w') prefix b a.
Proof.
  intros Hs R H X1 X2 Ht. unfold unit_resolve in H. rewrite R in H.
  assert (U := unit_inlets_raise w1 ss).
  destruct ss as [|s r]; [contradiction|]. destruct (unit_inlets w1 (s :: r)) as [w2 [[]|y]] eqn:I; [now contradiction U|].
  injection H as <- <- <-. split; [reflexivity|]. now apply (inlets_kept w1 (s :: r) w2 y).
Qed.

(** Streams with distinct names are told apart. *)
Definition name_at (h : heap) (b : string) (s : mstate) : option string :=
  match attr_qty s b with Ok l => match hget h l with Some q => Some (q_name q) | None => None end | Raise _ => None end.
Lemma distinct_apart h b a : forall ss, NoDup (map (name_at h b) ss) -> told_apart h ss b a.
Proof.
  induction ss as [|s r IH]; cbn [map]; intros N; [intros s ? ? ? ? ? []|].
  apply NoDup_cons_iff in N. destruct N as [N1 N2].
  assert (G : forall s' l l' q q', In s' r -> attr_qty s b = Ok l -> attr_qty s' b = Ok l' -> hget h l = Some q -> hget h l' = Some q' ->
    q_name q <> q_name q').
  { intros s' l l' q q' I A A' Q Q' E. apply N1. apply in_map_iff. exists s'. split; [|exact I].
    unfold name_at. rewrite A, A', Q, Q'. now rewrite E. }
  intros s1 s2 l l' q q' [<-|I1] [<-|I2] A A' Q Q' E; [reflexivity| | |].
  - now contradiction (G s2 l l' q q' I2 A A' Q Q').
  - now contradiction (G s1 l' l q' q I1 A' A Q' Q).
  - exact (IH N2 s1 s2 l l' q q' I1 I2 A A' Q Q' E).
Qed.
