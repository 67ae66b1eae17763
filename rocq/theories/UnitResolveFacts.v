(** Proofs about resolving unit operations. *)
From Verif Require Import Base BaseFacts Num UnitModel Sympy Node Build QtyFacts EquationModel ModelModel PackageModel UnitOpModel
  SpecUnits SpecExpr SpecQty SpecModel SpecUnitOps BuildFacts EquationFacts ModelFacts UnitOpFacts UnitLibFacts
  UnitResolveModel SpecUnitResolve.
From Coq Require Import Reals.
Notation num := Verif.Num.num.

(** Inlets. *)
Lemma take_nodes w p b a ss w' os : take_inputs w p b a ss = (w', Ok os) ->
  List.length os = List.length ss /\ forallb is_node_opd os = true.
Proof.
  unfold take_inputs. destruct (calls_of (w_heap w) a ss) as [l|] eqn:C; [|discriminate].
  destruct (fix_all w p b a ss) as [w1 [[]|]]; [|discriminate]. intros H. injection H as <- <-. exact (calls_nodes _ _ _ _ C).
Qed.

Lemma unit_inlets_raise w ss : snd (unit_inlets w ss) <> Ok tt.
Proof.
  unfold unit_inlets. destruct (take_streams _ _ ss) as [[h m] [[]|x]]; [|discriminate].
  destruct (take_inputs _ "eq_P_" "P" "P" ss) as [w2 [ps|]]; [|discriminate]. cbn [and_then].
  destruct (take_inputs w2 _ _ _ ss) as [w3 [ts|]]; [|discriminate]. cbn [and_then].
  destruct (take_inputs w3 _ _ _ ss) as [w4 [ms|]]; [|discriminate]. cbn [and_then].
  destruct (take_inputs w4 _ _ _ ss) as [w5 [ns|]]; [|discriminate]. cbn [and_then].
  destruct (totalize w5 _ _ ps) as [w6 [[]|]]; [|discriminate]. cbn [and_then].
  destruct (totalize w6 _ _ ts) as [w7 [[]|]]; [|discriminate]. cbn [and_then].
  destruct (attr_qty (w_mod w7) "mdot_in"); discriminate.
Qed.

Lemma resolve_inlets d k ss outs w : ss <> [] -> snd (unit_resolve d k (Some ss) outs w) <> Ok tt.
Proof.
  intros Hs. unfold unit_resolve. destruct (run_cmds w _) as [w1 [[]|x]]; [|discriminate].
  destruct ss as [|s r]; [contradiction|]. assert (U := unit_inlets_raise w1 (s :: r)).
  destruct (unit_inlets w1 (s :: r)) as [w2 [[]|x]]; [now contradiction U|discriminate].
Qed.

Lemma resolve_unset d k outs w : snd (unit_resolve d k None outs w) <> Ok tt.
Proof. unfold unit_resolve. destruct (run_cmds w _) as [w1 [[]|x]]; discriminate. Qed.

Lemma resolve_kind d k o w : snd (unit_resolve d k (Some []) [(false, o)] w) <> Ok tt.
Proof. unfold unit_resolve. destruct (run_cmds w _) as [w1 [[]|x]]; discriminate. Qed.

(** No or several outlets. *)
Lemma run_cmds_split cs : forall cs' w, run_cmds w (cs ++ cs') =
  match run_cmds w cs with (w1, Ok _) => run_cmds w1 cs' | (w1, Raise x) => (w1, Raise x) end.
Proof.
  induction cs as [|c cs IH]; intros cs' w; simpl; [reflexivity|].
  destruct (run_cmd w c) as [w1 [[]|x]]; [apply IH|reflexivity].
Qed.

Lemma resolve_plain d k outs w : List.length outs <> 1%nat ->
  unit_resolve d k (Some []) outs w = (fst (model_call d w), outs, snd (model_call d w)).
Proof.
  intros Hl. unfold unit_resolve, model_call. replace (d_cons d ++ d_pars d ++ d_vars d ++ d_eqs d)
    with ((d_cons d ++ d_pars d ++ d_vars d) ++ d_eqs d) by now rewrite <- !app_assoc.
  rewrite (run_cmds_split (d_cons d ++ d_pars d ++ d_vars d)). destruct (run_cmds w _) as [w1 [[]|x]]; [|reflexivity].
  replace (unit_outlets k w1 outs) with (w1, outs, Ok tt : res Datatypes.unit).
  2: { destruct outs as [|[[] o] [|]]; try reflexivity; now contradiction Hl. }
  destruct (run_cmds w1 (d_eqs d)); reflexivity.
Qed.

(** One outlet. *)
Definition as_built (la lb : loc) : ueq loc := UResid (UBin BSub (UQty la) (UQty lb)).

Lemma link_create w name o a m b w' : link w name o a m b = (w', Ok tt) ->
  exists la lb e, attr_qty o a = Ok la /\ attr_qty m b = Ok lb /\ well_formed_eq (w_heap w) (as_built la lb) /\
    (exists q, hget (w_heap w) lb = Some q) /\ user_create w name (as_built la lb) true = (w', Ok e).
Proof.
  unfold link. destruct (attr_qty o a) as [la|] eqn:A; [|discriminate]. cbn [rbind].
  destruct (build_qty (w_heap w) la) as [x|] eqn:B; [|discriminate]. cbn [rbind].
  destruct (attr_qty m b) as [lb|] eqn:C; [|discriminate]. cbn [rbind].
  destruct (build_qty (w_heap w) lb) as [y|] eqn:D; [|discriminate]. cbn [rbind].
  destruct (node_op BSub x (ONode y)) as [n|] eqn:E; [|discriminate]. intros H.
  assert (Bn : build (w_heap w) (UBin BSub (UQty la) (UQty lb)) = Ok n).
  { cbn [build]. rewrite B. cbn [rbind]. rewrite D. exact E. }
  destruct (create_equation w name (Some (EANode n)) true) as [w1 [e|]] eqn:Cr; [|discriminate]. injection H as <-.
  exists la, lb, e. split; [reflexivity|]. split; [reflexivity|]. split; [exists n; exact Bn|]. split.
  - unfold build_qty in D. destruct (hget (w_heap w) lb) as [q|]; [now exists q|discriminate].
  - unfold user_create, as_built. cbn [build_eq]. rewrite Bn. exact Cr.
Qed.

Lemma link_holds w name o a w' b : name <> "" -> link w name o a (w_mod w) b = (w', Ok tt) ->
  w_heap w' = w_heap w /\ m_attrs (w_mod w') = m_attrs (w_mod w) /\ m_name (w_mod w') = m_name (w_mod w) /\
  passes_on (w_heap w) o (w_mod w') name a b /\
  forall k, k <> (name ++ "_" ++ m_name (w_mod w))%string -> dget k (m_eqs (w_mod w')) = dget k (m_eqs (w_mod w)).
Proof.
  intros Hn H. destruct (link_create _ _ _ _ _ _ _ H) as (la & lb & e & A & B & W & _ & C).
  destruct (create_decided w name (as_built la lb) W) as [D1 D2].
  assert (U : uses_declared w (as_built la lb) \/ ~ uses_declared w (as_built la lb)) by apply Classical_Prop.classic.
  destruct U as [U|U].
  2: { destruct (D2 U) as (x & E & _). rewrite C in E. discriminate. }
  destruct (D1 U) as (x & e' & E & Hh & Hm & He & n & En & Dn). rewrite C in E. injection E as <- <-.
  rewrite Hm. cbn [m_attrs m_name m_eqs with_eqs]. repeat split; [exact Hh| |].
  - exists la, lb, e, n. split; [exact A|]. split; [exact B|]. cbn [m_name m_eqs with_eqs].
    split; [rewrite dget_dset, (He Hn); unfold full_name; now rewrite String.eqb_refl|]. split; [exact En|].
    intros v en Hv. rewrite (Dn v en Hv). reflexivity.
  - intros k Hk. rewrite dget_dset. destruct (String.eqb_spec k (eq_name e)) as [->|_]; [|reflexivity].
    now contradiction Hk; rewrite (He Hn).
Qed.

Lemma passes_kept h o m m' name a b : m_attrs m' = m_attrs m -> m_name m' = m_name m ->
  dget (name ++ "_" ++ m_name m)%string (m_eqs m') = dget (name ++ "_" ++ m_name m)%string (m_eqs m) ->
  passes_on h o m name a b -> passes_on h o m' name a b.
Proof.
  intros Ha Hn Hd (la & lb & e & n & A & B & C & D). exists la, lb, e, n. split; [exact A|].
  split; [unfold attr_qty in *; now rewrite Ha|]. rewrite Hn, Hd. split; [exact C|exact D].
Qed.

Lemma link_all_holds l : forall w o w', Forall (fun x => fst (fst x) <> "") l -> NoDup (map (fun x => fst (fst x)) l) ->
  link_all w o l = (w', Ok tt) ->
  w_heap w' = w_heap w /\ m_attrs (w_mod w') = m_attrs (w_mod w) /\ m_name (w_mod w') = m_name (w_mod w) /\
  (forall name a b, In (name, a, b) l -> passes_on (w_heap w) o (w_mod w') name a b) /\
  forall k, (forall x, In x l -> k <> (fst (fst x) ++ "_" ++ m_name (w_mod w))%string) ->
    dget k (m_eqs (w_mod w')) = dget k (m_eqs (w_mod w)).
Proof.
  induction l as [|[[name a] b] r IH]; intros w o w' Hl Hd H; cbn [link_all] in H.
  - injection H as <-. repeat split. intros ? ? ? [].
  - destruct (link w name o a (w_mod w) b) as [w1 [[]|]] eqn:L; [|discriminate].
    inversion Hl as [|? ? H1 H2]; subst. cbn [map fst] in Hd. apply NoDup_cons_iff in Hd. destruct Hd as [Hd1 Hd2].
    destruct (link_holds _ _ _ _ _ _ H1 L) as (Hh & Ha & Hn & Hp & Hf).
    destruct (IH w1 o w' H2 Hd2 H) as (Ih & Ia & In' & Ip & If).
    split; [congruence|]. split; [congruence|]. split; [congruence|]. split.
    + intros name' a' b' [X|X].
      * injection X as <- <- <-. apply passes_kept with (w_mod w1); [exact Ia|exact In'| |exact Hp].
        apply If. intros [[n' x] y] Hx E. cbn [fst] in E. apply full_inj_same in E. subst n'. apply Hd1.
        apply in_map_iff. now exists (name, x, y).
      * rewrite <- Hh. now apply Ip.
    + intros k Hk. rewrite If; [apply Hf; exact (Hk (name, a, b) (or_introl eq_refl))|]. intros x Hx. rewrite Hn. apply Hk. now right.
Qed.

Definition outlet_names : list string := ["tot_P_out"; "tot_T_out"; "tot_H_out"; "tot_ndot_out"; "tot_mdot_out"].

Lemma outlet_linked w o w' : link_all w o outlet_balances = (w', Ok tt) ->
  w_heap w' = w_heap w /\ m_attrs (w_mod w') = m_attrs (w_mod w) /\ m_name (w_mod w') = m_name (w_mod w) /\
  passes_on (w_heap w) o (w_mod w') "tot_P_out" "P" "P_in" /\ passes_on (w_heap w) o (w_mod w') "tot_T_out" "T" "T_in" /\
  passes_on (w_heap w) o (w_mod w') "tot_H_out" "H" "H_in" /\ passes_on (w_heap w) o (w_mod w') "tot_ndot_out" "ndot" "ndot_in" /\
  passes_on (w_heap w) o (w_mod w') "tot_mdot_out" "mdot" "mdot_in" /\
  (forall k, (forall n, In n outlet_names -> k <> (n ++ "_" ++ m_name (w_mod w))%string) ->
    dget k (m_eqs (w_mod w')) = dget k (m_eqs (w_mod w))).
Proof.
  intros H. apply link_all_holds in H.
  2: { repeat constructor; discriminate. }
  2: { cbn. repeat (apply NoDup_cons_iff; split; [cbn; intuition discriminate|]). constructor. }
  destruct H as (Hh & Ha & Hn & Hp & Hk). split; [exact Hh|]. split; [exact Ha|]. split; [exact Hn|].
  repeat (split; [apply Hp; cbn; auto 10|]). intros k K. apply Hk.
  intros [[n x] y] Hx. cbn [fst]. apply K. unfold outlet_balances in Hx. unfold outlet_names.
  cbn [In] in *. repeat (destruct Hx as [Hx|Hx]; [injection Hx as <- <- <-; auto 10|]). contradiction.
Qed.

Lemma resolve_outlet d k o w w' outs : k_names k = [] -> unit_resolve d (Some k) (Some []) [(true, o)] w = (w', outs, Ok tt) ->
  outs = [(true, o)] /\
  exists w1 h m w2, run_cmds w (d_cons d ++ d_pars d ++ d_vars d) = (w1, Ok tt) /\
    incorporate (w_heap w1) (w_mod w1) o (mkInc true true true false false) = (h, m, Ok tt) /\
    w_heap w2 = h /\ m_attrs (w_mod w2) = m_attrs m /\ m_name (w_mod w2) = m_name m /\
    passes_on h o (w_mod w2) "tot_P_out" "P" "P_in" /\ passes_on h o (w_mod w2) "tot_T_out" "T" "T_in" /\
    passes_on h o (w_mod w2) "tot_H_out" "H" "H_in" /\ passes_on h o (w_mod w2) "tot_ndot_out" "ndot" "ndot_in" /\
    passes_on h o (w_mod w2) "tot_mdot_out" "mdot" "mdot_in" /\
    (forall key, (forall n, In n ["tot_P_out"; "tot_T_out"; "tot_H_out"; "tot_ndot_out"; "tot_mdot_out"] ->
       key <> (n ++ "_" ++ m_name m)%string) -> dget key (m_eqs (w_mod w2)) = dget key (m_eqs m)) /\
    run_cmds w2 (d_eqs d) = (w', Ok tt).
Proof.
  intros Hk. unfold unit_resolve. destruct (run_cmds w _) as [w1 [[]|x]]; [|discriminate]. cbn [unit_outlets].
  destruct (incorporate (w_heap w1) (w_mod w1) o stream_flags) as [[h m] [[]|x]] eqn:I; [|discriminate].
  destruct (link_all (mkW h (w_uids w1) m) o outlet_balances) as [w2 [[]|x]] eqn:L; [|discriminate].
  rewrite Hk. cbn [link_phases]. destruct (run_cmds w2 (d_eqs d)) as [w3 r] eqn:R. intros H. injection H as -> <- ->.
  split; [reflexivity|]. apply outlet_linked in L. destruct L as (A & B & C & D1 & D2 & D3 & D4 & D5 & E).
  exists w1, h, m, w2. split; [reflexivity|]. split; [exact I|]. repeat (split; [assumption|]). exact R.
Qed.

(** With phases: the outlet must declare the fraction of the model. *)
Lemma resolve_phases d k o w w' outs p ps : k_names k = p :: ps ->
  unit_resolve d (Some k) (Some []) [(true, o)] w = (w', outs, Ok tt) ->
  exists w1 h m l q, run_cmds w (d_cons d ++ d_pars d ++ d_vars d) = (w1, Ok tt) /\
    incorporate (w_heap w1) (w_mod w1) o (mkInc true true true false false) = (h, m, Ok tt) /\
    attr_qty m ("z_" ++ p)%string = Ok l /\ hget h l = Some q /\ In (q_name q) (declared o).
Proof.
  intros Hk. unfold unit_resolve. destruct (run_cmds w _) as [w1 [[]|x]]; [|discriminate]. cbn [unit_outlets].
  destruct (incorporate (w_heap w1) (w_mod w1) o stream_flags) as [[h m] [[]|x]] eqn:I; [|discriminate].
  destruct (link_all (mkW h (w_uids w1) m) o outlet_balances) as [w2 [[]|x]] eqn:L; [|discriminate].
  rewrite Hk. cbn [link_phases].
  destruct (link_all w2 o [(molar_link p, z_of p, z_of p); (mass_link p, w_of p, w_of p)]) as [w3 [[]|x]] eqn:L2; [|discriminate].
  destruct (link (mkW (w_heap w3) (w_uids w3) o) (molar_link p) o (z_of p) (w_mod w3) (z_of p)) as [w4 [[]|x]] eqn:L3; [|discriminate].
  intros _. apply outlet_linked in L. destruct L as (A & B & _).
  apply link_all_holds in L2.
  2: { repeat constructor; discriminate. }
  2: { cbn [map fst]. repeat (apply NoDup_cons_iff; split; [cbn; intuition discriminate|]). constructor. }
  destruct L2 as (A2 & B2 & _).
  destruct (link_create _ _ _ _ _ _ _ L3) as (la & lb & e & X & Y & W & [q Hq] & C). cbn [w_heap] in *.
  exists w1, h, m, lb, q. split; [reflexivity|]. split; [exact I|].
  split; [unfold attr_qty in *; cbn [w_mod] in B; now rewrite B2, B in Y|]. split; [now rewrite A2, A in Hq|].
  set (wo := mkW (w_heap w3) (w_uids w3) o) in *. destruct (create_decided wo (molar_link p) (as_built la lb) W) as [_ D2].
  assert (U : In (q_name q) (declared o) \/ ~ In (q_name q) (declared o)) by apply Classical_Prop.classic.
  destruct U as [U|U]; [exact U|]. destruct D2 as (x & E & _); [|rewrite C in E; discriminate].
  intros G. apply U. apply (G lb q); [|exact Hq]. cbn. auto.
Qed.

(** What the outlet gets. *)
Lemma link_target w name o a m b w' : name <> "" -> link w name o a m b = (w', Ok tt) ->
  w_heap w' = w_heap w /\ m_attrs (w_mod w') = m_attrs (w_mod w) /\ m_name (w_mod w') = m_name (w_mod w) /\
  (exists la lb e n, attr_qty o a = Ok la /\ attr_qty m b = Ok lb /\ dget (name ++ "_" ++ m_name (w_mod w))%string (m_eqs (w_mod w')) = Some e /\
     eq_expr e = Some n /\ forall v en, env_for (w_heap w) v en ->
       den (nd_sym n) en = match qty_meaning (w_heap w) v la, qty_meaning (w_heap w) v lb with Some x, Some y => Some (x - y)%R | _, _ => None end) /\
  forall k, k <> (name ++ "_" ++ m_name (w_mod w))%string -> dget k (m_eqs (w_mod w')) = dget k (m_eqs (w_mod w)).
Proof.
  intros Hn H. destruct (link_create _ _ _ _ _ _ _ H) as (la & lb & e & A & B & W & _ & C).
  destruct (create_decided w name (as_built la lb) W) as [D1 D2].
  assert (U : uses_declared w (as_built la lb) \/ ~ uses_declared w (as_built la lb)) by apply Classical_Prop.classic.
  destruct U as [U|U].
  2: { destruct (D2 U) as (x & E & _). rewrite C in E. discriminate. }
  destruct (D1 U) as (x & e' & E & Hh & Hm & He & n & En & Dn). rewrite C in E. injection E as <- <-.
  rewrite Hm. cbn [m_attrs m_name m_eqs with_eqs]. repeat split; [exact Hh| |].
  - exists la, lb, e, n. split; [exact A|]. split; [exact B|].
    split; [rewrite dget_dset, (He Hn); unfold full_name; now rewrite String.eqb_refl|]. split; [exact En|].
    intros v en Hv. rewrite (Dn v en Hv). reflexivity.
  - intros k Hk. rewrite dget_dset. destruct (String.eqb_spec k (eq_name e)) as [->|_]; [|reflexivity].
    now contradiction Hk; rewrite (He Hn).
Qed.

Lemma gives_kept h o o' m m' name a b : m_attrs o' = m_attrs o -> m_name o' = m_name o -> m_attrs m' = m_attrs m ->
  dget (name ++ "_" ++ m_name o)%string (m_eqs o') = dget (name ++ "_" ++ m_name o)%string (m_eqs o) ->
  gives_back h o m name a b -> gives_back h o' m' name a b.
Proof.
  intros Ha Hn Hm Hd (la & lb & e & n & A & B & C & D). exists la, lb, e, n. split; [unfold attr_qty in *; now rewrite Ha|].
  split; [unfold attr_qty in *; now rewrite Hm|]. rewrite Hn, Hd. split; [exact C|exact D].
Qed.

Lemma molar_not_mass p q : molar_link p <> mass_link q.
Proof. discriminate. Qed.
Lemma app_inj_l a b c : (a ++ b)%string = (a ++ c)%string -> b = c.
Proof. induction a; cbn; intros H; [exact H|injection H; auto]. Qed.

Lemma phases_given ps : forall w o w' o', link_phases w o ps = (w', o', Ok tt) ->
  w_heap w' = w_heap w /\ m_attrs (w_mod w') = m_attrs (w_mod w) /\ m_attrs o' = m_attrs o /\ m_name o' = m_name o /\
  (forall p, In p ps -> gives_back (w_heap w) o' (w_mod w') (molar_link p) (z_of p) (z_of p) /\
                        gives_back (w_heap w) o' (w_mod w') (mass_link p) (w_of p) (w_of p)) /\
  forall k, (forall p, In p ps -> k <> (molar_link p ++ "_" ++ m_name o)%string /\ k <> (mass_link p ++ "_" ++ m_name o)%string) ->
    dget k (m_eqs o') = dget k (m_eqs o).
Proof.
  induction ps as [|p r IH]; intros w o w' o' H; cbn [link_phases] in H.
  - injection H as <- <-. do 4 (split; [reflexivity|]). split; [intros ? []|reflexivity].
  - destruct (link_all w o [(molar_link p, z_of p, z_of p); (mass_link p, w_of p, w_of p)]) as [w1 [[]|x]] eqn:L; [|discriminate].
    destruct (link (mkW (w_heap w1) (w_uids w1) o) (molar_link p) o (z_of p) (w_mod w1) (z_of p)) as [w2 [[]|x]] eqn:L2; [|discriminate].
    destruct (link w2 (mass_link p) (w_mod w2) (w_of p) (w_mod w1) (w_of p)) as [w3 [[]|x]] eqn:L3; [|discriminate].
    apply link_all_holds in L.
    2: { repeat constructor; discriminate. }
    2: { cbn [map fst]. repeat (apply NoDup_cons_iff; split; [cbn; intuition discriminate|]). constructor. }
    destruct L as (H1 & A1 & _). apply link_target in L2; [|discriminate]. apply link_target in L3; [|discriminate].
    cbn [w_heap w_mod] in L2. destruct L2 as (H2 & A2 & N2 & G2 & F2). destruct L3 as (H3 & A3 & N3 & G3 & F3).
    destruct (IH _ _ _ _ H) as (H4 & A4 & A5 & N5 & G5 & F5). cbn [w_heap w_mod] in *.
    split; [congruence|]. split; [congruence|]. split; [congruence|]. split; [congruence|]. split.
    + assert (K : forall q, In q r -> gives_back (w_heap w) o' (w_mod w') (molar_link q) (z_of q) (z_of q) /\ gives_back (w_heap w) o' (w_mod w') (mass_link q) (w_of q) (w_of q)).
      { intros q Hq. replace (w_heap w) with (w_heap w3) by congruence. now apply G5. }
      intros q [<-|Hq]; [|now apply K]. destruct (in_dec string_dec p r) as [Hp|Hp]; [now apply K|].
      assert (Fm : dget (molar_link p ++ "_" ++ m_name (w_mod w3))%string (m_eqs o') = dget (molar_link p ++ "_" ++ m_name (w_mod w3))%string (m_eqs (w_mod w3))).
      { apply F5. intros q Hq. split; intros E; apply full_inj_same in E; [|discriminate E]. unfold molar_link in E. apply app_inj_l in E.
        apply (full_inj_same p q "outlet") in E. subst q. contradiction. }
      assert (Fs : dget (mass_link p ++ "_" ++ m_name (w_mod w3))%string (m_eqs o') = dget (mass_link p ++ "_" ++ m_name (w_mod w3))%string (m_eqs (w_mod w3))).
      { apply F5. intros q Hq. split; intros E; apply full_inj_same in E; [discriminate E|]. unfold mass_link in E. apply app_inj_l in E.
        apply (full_inj_same p q "outlet") in E. subst q. contradiction. }
      split.
      * apply (gives_kept _ (w_mod w3) _ (w_mod w1)); [exact A5|exact N5|exact A4|exact Fm|].
        destruct G2 as (la & lb & e & n & X & Y & Z & D). exists la, lb, e, n.
        split; [unfold attr_qty in *; rewrite A3, A2; exact X|]. split; [exact Y|].
        rewrite N3, N2, F3; [rewrite <- H1; split; [exact Z|exact D]|]. rewrite N2. intros E. apply full_inj_same in E. discriminate E.
      * apply (gives_kept _ (w_mod w3) _ (w_mod w1)); [exact A5|exact N5|exact A4|exact Fs|].
        destruct G3 as (la & lb & e & n & X & Y & Z & D). exists la, lb, e, n.
        split; [unfold attr_qty in *; rewrite A3; exact X|]. split; [exact Y|]. rewrite N3. split; [exact Z|].
        replace (w_heap w) with (w_heap w2) by congruence. exact D.
    + intros k Hk. rewrite F5, F3, F2; [reflexivity| | |].
      * apply Hk. now left.
      * rewrite N2. apply Hk. now left.
      * intros q Hq. rewrite N3, N2. apply Hk. now right.
Qed.

Lemma resolve_given d k o w w' outs : unit_resolve d (Some k) (Some []) [(true, o)] w = (w', outs, Ok tt) ->
  exists o' h m, outs = [(true, o')] /\ m_attrs o' = m_attrs o /\ m_name o' = m_name o /\
    (exists u, run_cmds (mkW h u m) (d_eqs d) = (w', Ok tt)) /\
    (forall p, In p (k_names k) -> gives_back h o' m ("molar_conservation_phase_" ++ p ++ "_outlet")%string ("z_" ++ p)%string ("z_" ++ p)%string /\
       gives_back h o' m ("mass_conservation_phase_" ++ p ++ "_outlet")%string ("w_" ++ p)%string ("w_" ++ p)%string) /\
    forall key, (forall p, In p (k_names k) -> key <> (("molar_conservation_phase_" ++ p ++ "_outlet") ++ "_" ++ m_name o)%string /\
        key <> (("mass_conservation_phase_" ++ p ++ "_outlet") ++ "_" ++ m_name o)%string) -> dget key (m_eqs o') = dget key (m_eqs o).
Proof.
  unfold unit_resolve. destruct (run_cmds w _) as [w1 [[]|x]]; [|discriminate]. cbn [unit_outlets].
  destruct (incorporate (w_heap w1) (w_mod w1) o stream_flags) as [[h m] [[]|x]] eqn:I; [|discriminate].
  destruct (link_all (mkW h (w_uids w1) m) o outlet_balances) as [w2 [[]|x]] eqn:L; [|discriminate].
  destruct (link_phases w2 o (k_names k)) as [[w3 o'] [[]|x]] eqn:P; [|discriminate].
  destruct (run_cmds w3 (d_eqs d)) as [w4 r] eqn:R. intros H. injection H as -> <- ->.
  destruct (phases_given _ _ _ _ _ P) as (A & B & C & D & E & F). exists o', (w_heap w3), (w_mod w3). split; [reflexivity|]. split; [exact C|]. split; [exact D|].
  split; [exists (w_uids w3); destruct w3; exact R|]. rewrite A. split; [exact E|exact F].
Qed.

Lemma resolve_no_package d o w : snd (unit_resolve d None (Some []) [(true, o)] w) <> Ok tt.
Proof.
  unfold unit_resolve. destruct (run_cmds w _) as [w1 [[]|x]]; [|discriminate]. cbn [unit_outlets].
  destruct (incorporate (w_heap w1) (w_mod w1) o stream_flags) as [[h m] [[]|x]]; [|discriminate].
  destruct (link_all (mkW h (w_uids w1) m) o outlet_balances) as [w2 [[]|x]]; discriminate.
Qed.

(** Examples. *)
Definition symbol_of (m : mstate) (key : string) :=
  match dget key (m_eqs m) with
  | Some e => match eq_expr e with Some n => Some (nd_sym n) | None => None end
  | None => None
  end.
Lemma symbol_zero m key x : symbol_of m key = Some (SSub (SSym x) (SSym x)) ->
  exists e n, dget key (m_eqs m) = Some e /\ eq_expr e = Some n /\ forall en, den (nd_sym n) en = Some 0%R.
Proof.
  unfold symbol_of. destruct (dget key (m_eqs m)) as [e|]; [|discriminate]. destruct (eq_expr e) as [n|] eqn:En; [|discriminate].
  intros W. exists e, n. split; [reflexivity|]. split; [exact En|]. intros en. injection W as W. rewrite W. cbn. f_equal.
  apply Rminus_diag_eq. reflexivity.
Qed.
