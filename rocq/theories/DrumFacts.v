(** Proofs about what tanks and steady flashes are made of. *)
From Verif Require Import Base BaseFacts Num UnitModel Sympy Node Build QtyFacts EquationModel ModelModel PackageModel UnitOpModel
  SpecUnits SpecExpr SpecQty SpecModel SpecUnitOps BuildFacts EquationFacts ModelFacts UnitOpFacts UnitLibFacts.
From Coq Require Import Reals Lra.
Notation num := Verif.Num.num.

(** ** What is known of the attributes of a model *)
Record info := mkInfo { i_units : unit; i_var : bool; i_dom : bool }.
Definition view := string -> option info.
Definition upd (s : view) (a : string) (i : info) : view := fun b => if String.eqb b a then Some i else s b.

Record sees (w : mworld) (s : view) : Prop := mkSees {
  se_apart : forall a b l, dget a (m_attrs (w_mod w)) = Some (AQty l) -> dget b (m_attrs (w_mod w)) = Some (AQty l) -> a = b;
  se_in : forall a l, dget a (m_attrs (w_mod w)) = Some (AQty l) -> (l < List.length (w_heap w))%nat;
  se_is : forall a i, s a = Some i -> exists l q, dget a (m_attrs (w_mod w)) = Some (AQty l) /\ hget (w_heap w) l = Some q /\
    q_units q = i_units i /\ qkind_eqb (q_kind q) KVariable = i_var i /\ q_domain q = i_dom i /\ In (q_name q) (declared (w_mod w));
  se_only : forall a l, dget a (m_attrs (w_mod w)) = Some (AQty l) -> s a <> None
}.

Definition view_cmd (c : cmd) (s : view) : option view :=
  match c with
  | CVar a _ u ex ty _ => if negb ex || String.eqb ty "input" || String.eqb ty "output" then Some (upd s a (mkInfo u true false)) else None
  | CPar a _ u _ => Some (upd s a (mkInfo u false false))
  | CDist a => match s a with Some (mkInfo u true _) => Some (upd s a (mkInfo u true true)) | _ => None end
  | _ => None
  end.
Fixpoint view_cmds (cs : list cmd) (s : view) : option view :=
  match cs with [] => Some s | c :: r => match view_cmd c s with Some s' => view_cmds r s' | None => None end end.

Lemma created_sees w s a q m' : sees w s -> m_attrs m' = m_attrs (w_mod w) -> incl (declared (w_mod w)) (declared m') ->
  In (q_name q) (declared m') ->
  sees (mkW (w_heap w ++ [q]) (w_uids w) (set_attr m' a (AQty (List.length (w_heap w)))))
       (upd s a (mkInfo (q_units q) (qkind_eqb (q_kind q) KVariable) (q_domain q))).
Proof.
  intros [A I K O] M D N.
  assert (Hd : forall b, dget b (m_attrs (set_attr m' a (AQty (List.length (w_heap w))))) =
                 if String.eqb b a then Some (AQty (List.length (w_heap w))) else dget b (m_attrs (w_mod w))).
  { intros b. cbn. now rewrite dget_dset, M. }
  assert (L : forall b l, dget b (m_attrs (w_mod w)) = Some (AQty l) -> l <> List.length (w_heap w)).
  { intros b l Hb E. apply I in Hb. lia. }
  split; cbn [w_mod w_heap].
  - intros b c l. rewrite !Hd. destruct (String.eqb_spec b a) as [->|_], (String.eqb_spec c a) as [->|_]; intros B C; auto.
    + injection B as <-. now destruct (L _ _ C).
    + injection C as <-. now destruct (L _ _ B).
    + exact (A _ _ _ B C).
  - intros b l. rewrite Hd, app_length. cbn. destruct (String.eqb_spec b a) as [->|_]; intros B; [injection B as <-; lia|].
    apply I in B. lia.
  - intros b i. unfold upd. rewrite Hd. destruct (String.eqb_spec b a) as [->|_]; intros B.
    + injection B as <-. exists (List.length (w_heap w)), q. cbn [i_units i_var i_dom]. split; [reflexivity|]. split; [apply hget_end|].
      repeat split. exact N.
    + destruct (K b i B) as (l & p & K1 & K2 & K3 & K4 & K5 & K6). exists l, p. split; [exact K1|]. split; [now apply hget_snoc|].
      repeat split; auto.
  - intros b l. rewrite Hd. unfold upd. destruct (String.eqb_spec b a) as [->|_]; intros B; [discriminate|]. exact (O _ _ B).
Qed.

Lemma view_step c s s' w : sees w s -> view_cmd c s = Some s' -> exists w', run_cmd w c = (w', Ok tt) /\ sees w' s' /\
  m_eqs (w_mod w') = m_eqs (w_mod w).
Proof.
  intros S V. destruct c as [a n u ex ty v|a n u v| | |a|]; try discriminate.
  - cbn [view_cmd] in V. destruct (_ || _ || _)%bool eqn:T in V; [|discriminate]. injection V as <-.
    cbn [run_cmd]. unfold create_variable.
    set (q := mkQty KVariable (full_name n (m_name (w_mod w))) u v false (m_name (w_mod w)) ex ty false).
    set (m1 := with_vars (w_mod w) (dset (q_name q) (List.length (w_heap w)) (m_vars (w_mod w)))).
    assert (D1 : incl (declared (w_mod w)) (declared m1)) by (apply declared_vars).
    assert (D2 : In (q_name q) (declared m1)).
    { unfold declared. apply in_or_app. left. cbn. apply in_dkeys_dset. now left. }
    destruct ex.
    + cbn [negb orb] in T. destruct (String.eqb ty "input").
      * cbn [assign_qty]. eexists. split; [reflexivity|]. split; [|reflexivity].
        apply (created_sees w s a q (with_in m1 (m_in m1 ++ [List.length (w_heap w)])) S eq_refl D1 D2).
      * cbn [orb] in T. rewrite T. cbn [assign_qty]. eexists. split; [reflexivity|]. split; [|reflexivity].
        apply (created_sees w s a q (with_out m1 (m_out m1 ++ [List.length (w_heap w)])) S eq_refl D1 D2).
    + cbn [assign_qty]. eexists. split; [reflexivity|]. split; [|reflexivity].
      apply (created_sees w s a q m1 S eq_refl D1 D2).
  - cbn [view_cmd] in V. injection V as <-. cbn [run_cmd]. unfold create_parameter. cbn [assign_qty].
    set (q := mkQty KParameter (full_name n (m_name (w_mod w))) u v false (m_name (w_mod w)) false "" false).
    eexists. split; [reflexivity|]. split; [|reflexivity].
    apply (created_sees w s a q (with_pars (w_mod w) (dset (q_name q) (List.length (w_heap w)) (m_pars (w_mod w)))) S eq_refl).
    + apply declared_pars.
    + unfold declared. apply in_or_app. right. apply in_or_app. left. cbn. apply in_dkeys_dset. now left.
  - cbn [view_cmd] in V. destruct (s a) as [[u [|] d]|] eqn:Sa; try discriminate. injection V as <-.
    destruct S as [A I K O]. destruct (K a _ Sa) as (l & q & K1 & K2 & K3 & K4 & K5 & K6). cbn [i_units i_var i_dom] in *.
    cbn [run_cmd]. unfold attr_qty. rewrite K1, K2, K4. eexists. split; [reflexivity|]. split; [|reflexivity].
    assert (Hl : forall l', hget (hset (w_heap w) l (set_domain q)) l' = if Nat.eqb l' l then Some (set_domain q) else hget (w_heap w) l').
    { intros l'. destruct (Nat.eqb_spec l' l) as [->|Hne].
      - apply hget_hset_eq. now apply I in K1.
      - now apply hget_hset_neq. }
    split; cbn [w_mod w_heap].
    + exact A.
    + intros b l' B. apply I in B. now rewrite length_hset.
    + intros b i. unfold upd. destruct (String.eqb_spec b a) as [->|Nb]; intros B.
      * injection B as <-. exists l, (set_domain q). rewrite Hl, Nat.eqb_refl. cbn. repeat split; auto.
      * destruct (K b i B) as (l' & p & J1 & J2 & J3 & J4 & J5 & J6). exists l', p. rewrite Hl.
        destruct (Nat.eqb_spec l' l) as [->|_]; [destruct Nb; exact (A _ _ _ J1 K1)|]. repeat split; auto.
    + intros b l' B. unfold upd. destruct (String.eqb b a); [discriminate|]. exact (O _ _ B).
Qed.

Lemma view_run cs : forall s s' w, sees w s -> view_cmds cs s = Some s' -> exists w', run_cmds w cs = (w', Ok tt) /\ sees w' s' /\
  m_eqs (w_mod w') = m_eqs (w_mod w).
Proof.
  induction cs as [|c cs IH]; intros s s' w S V.
  - injection V as <-. exists w. auto.
  - cbn [view_cmds] in V. destruct (view_cmd c s) as [s1|] eqn:V1; [|discriminate].
    destruct (view_step c s s1 w S V1) as (w1 & R1 & S1 & E1). destruct (IH s1 s' w1 S1 V) as (w2 & R2 & S2 & E2).
    exists w2. split; [cbn [run_cmds]; now rewrite R1|]. split; [exact S2|congruence].
Qed.

Lemma view_app cs : forall cs' s s1, view_cmds cs s = Some s1 -> view_cmds (cs ++ cs') s = view_cmds cs' s1.
Proof.
  induction cs as [|c cs IH]; intros cs' s s1 V; [injection V as <-; reflexivity|].
  cbn [view_cmds app] in *. destruct (view_cmd c s) as [s2|]; [|discriminate]. now apply IH.
Qed.

Definition nothing : view := fun _ => None.
Lemma new_sees h u n : sees (mkW h u (new_model n)) nothing.
Proof. split; intros; discriminate. Qed.

(** Fractions are never distributed. *)
Definition still (s : view) : Prop := forall a i, s a = Some i -> i_dom i = false.
Lemma fractions_view ps : forall s, still s -> exists s1, view_cmds (fractions ps) s = Some s1 /\ still s1.
Proof.
  induction ps as [|p ps IH]; intros s H; [exists s; auto|].
  change (fractions (p :: ps)) with (hidden (z_in p) :: hidden (w_in p) :: hidden (z_out p) :: hidden (w_out p) :: fractions ps).
  cbn [view_cmds view_cmd hidden negb orb]. apply IH.
  intros a i. unfold upd. repeat (destruct (String.eqb a _); [intros B; now injection B as <-|]). apply H.
Qed.

(** ** Tanks *)
Lemma tank_made h u name k : exists w1, run_script (mkW h u (new_model name)) (tank_init (Some k)) = (w1, Ok tt) /\
  (forall a, In a ["N"; "M"; "E"; "level"] -> exists q, quantity w1 a = Some q /\ q_kind q = KVariable /\ q_domain q = true) /\
  (forall a q, quantity w1 a = Some q -> q_domain q = true -> In a ["N"; "M"; "E"; "level"]).
Proof.
  destruct (fractions_view (multi k) nothing) as (s0 & V0 & T0); [discriminate|].
  unfold run_script, tank_init. cbn [fst snd]. rewrite multi_fractions.
  match goal with |- context [run_cmds ?w (?x ++ ?y)] => set (ys := y); set (start := w) end.
  assert (V : exists s1, view_cmds ys s0 = Some s1 /\ (forall a, In a ["N"; "M"; "E"; "level"] -> exists i, s1 a = Some i /\ i_var i = true /\ i_dom i = true) /\
    (forall a i, s1 a = Some i -> i_dom i = true -> In a ["N"; "M"; "E"; "level"])).
  { unfold ys, var, par. cbn [view_cmds view_cmd negb orb String.eqb Ascii.eqb Bool.eqb upd]. eexists. split; [reflexivity|]. split.
    - intros a [<-|[<-|[<-|[<-|[]]]]]; eexists; (split; [reflexivity|split; reflexivity]).
    - intros a i. unfold upd.
      repeat match goal with |- context [String.eqb a ?b] => destruct (String.eqb_spec a b) as [->|_]; [intros B; injection B as <-; cbn; first [discriminate|tauto]|] end.
      intros B J. apply T0 in B. congruence. }
  destruct V as (s1 & V1 & P1 & P2).
  destruct (view_run (fractions (multi k) ++ ys) nothing s1 start (new_sees h u name)) as (w1 & R & [_ _ K O] & _).
  { now rewrite (view_app _ ys _ _ V0). }
  rewrite R. exists w1. split; [reflexivity|]. split.
  - intros a I. destruct (P1 a I) as (i & B & J1 & J2). destruct (K a i B) as (l & q & K1 & K2 & _ & K4 & K5 & _).
    exists q. unfold quantity, attr_qty. rewrite K1. split; [exact K2|]. split; [|congruence]. rewrite J1 in K4.
    destruct (q_kind q); (reflexivity || discriminate).
  - intros a q Q D. unfold quantity, attr_qty in Q. destruct (dget a (m_attrs (w_mod w1))) as [[l|e]|] eqn:G; try discriminate.
    destruct (s1 a) as [i|] eqn:B; [|now destruct (O a l G)].
    apply (P2 a i B). destruct (K a i B) as (l' & q' & K1 & K2 & _ & _ & K5 & _). congruence.
Qed.

(** ** Flashes *)
Lemma setting_sees c w s : is_setting c -> sees w s -> sees (fst (run_cmd w c)) s /\ w_mod (fst (run_cmd w c)) = w_mod w.
Proof.
  intros Hc S. destruct c as [| | |a sv ou| |]; try contradiction. cbn [run_cmd].
  destruct (attr_qty (w_mod w) a) as [l|] eqn:AQ; [|auto].
  destruct (match sv with SANum n0 => Ok (SVNum n0) | SAAttr b => _ end) as [x|]; [|auto].
  unfold heap_set_value. destruct (hget (w_heap w) l) as [q|] eqn:B; [|cbn [fst]; destruct w; auto].
  destruct (set_value q x ou) as [q'|] eqn:Sv; [|cbn [fst]; destruct w; auto]. cbn [fst w_mod].
  assert (Qn : q_name q' = q_name q /\ q_units q' = q_units q /\ q_kind q' = q_kind q /\ q_domain q' = q_domain q).
  { destruct x as [p|[z|f]|]; simpl in Sv.
    - destruct (isinstance_of p q); [|discriminate]. destruct ou; [discriminate|]. unfold rbind in Sv.
      destruct (coherent _ _) as [[]|]; try discriminate. injection Sv as <-. auto.
    - destruct ou; [|injection Sv as <-; auto]. unfold rbind in Sv. destruct (coherent _ _) as [[]|]; try discriminate.
      injection Sv as <-. auto.
    - injection Sv as <-. auto.
    - discriminate. }
  destruct Qn as (Q1 & Q2 & Q3 & Q4). destruct S as [A I K O]. split; [|reflexivity].
  assert (Hl : forall l', hget (hset (w_heap w) l q') l' = if Nat.eqb l' l then Some q' else hget (w_heap w) l').
  { intros l'. destruct (Nat.eqb_spec l' l) as [->|Hne].
    - apply hget_hset_eq. unfold hget in B. apply nth_error_Some. congruence.
    - now apply hget_hset_neq. }
  split; cbn [w_mod w_heap]; auto.
  - intros b l' J. rewrite length_hset. exact (I _ _ J).
  - intros b i J. destruct (K b i J) as (l' & p & J1 & J2 & J3 & J4 & J5 & J6). destruct (Nat.eqb_spec l' l) as [->|N].
    + replace p with q in * by congruence. exists l, q'. rewrite Hl, Nat.eqb_refl, Q1, Q2, Q3, Q4. repeat split; auto.
    + exists l', p. rewrite Hl, (proj2 (Nat.eqb_neq _ _) N). repeat split; auto.
Qed.
Lemma settle_sees l : forall w s, Forall is_setting l -> sees w s -> sees (settle w l) s /\ w_mod (settle w l) = w_mod w.
Proof.
  induction l as [|c l IH]; intros w s Hl S; [auto|]. apply Forall_cons_iff in Hl. destruct Hl as [Hc Hl].
  destruct (setting_sees c w s Hc S) as [S1 M1]. destruct (IH _ s Hl S1) as [S2 M2]. unfold settle in *. cbn [fold_left].
  split; [exact S2|congruence].
Qed.

Lemma flash_balance h u name k : (k_number k < 2)%Z ->
  exists w1, run_script (mkW h u (new_model name)) (flash_steady_init (Some k)) = (w1, Ok tt) /\
  forall l, Forall is_setting l -> exists w3, run_script (settle w1 l) (flash_steady_equations (Some k)) = (w3, Raise EName) /\
    forall en v, agrees w3 en v -> (solution (w_mod w3) en <-> v "ndot_in" = (v "ndot_L_out" + v "ndot_V_out")%R).
Proof.
  intros N. unfold run_script, flash_steady_init, flash_steady_equations. cbn [fst snd]. rewrite (proj2 (Z.leb_gt _ _) N). cbn [app].
  assert (V : exists s1, view_cmds flash_steady_vars nothing = Some s1 /\
    forall a, In a ["ndot_in"; "ndot_L_out"; "ndot_V_out"] -> s1 a = Some (mkInfo u_molar_flow true false)).
  { eexists. split; [reflexivity|]. intros a [<-|[<-|[<-|[]]]]; reflexivity. }
  destruct V as (s1 & V1 & P1).
  destruct (view_run _ nothing s1 _ (new_sees h u name) V1) as (w1 & R & S & E1). rewrite R. exists w1. split; [reflexivity|].
  intros l Hl. destruct (settle_sees l w1 s1 Hl S) as [[_ _ K _] M]. set (w := settle w1 l) in *.
  destruct (K "ndot_in" _ (P1 _ (or_introl eq_refl))) as (l1 & q1 & A1 & B1 & C1 & _ & _ & D1).
  destruct (K "ndot_L_out" _ (P1 _ (or_intror (or_introl eq_refl)))) as (l2 & q2 & A2 & B2 & C2 & _ & _ & D2).
  destruct (K "ndot_V_out" _ (P1 _ (or_intror (or_intror (or_introl eq_refl))))) as (l3 & q3 & A3 & B3 & C3 & _ & _ & D3).
  cbn [i_units] in C1, C2, C3.
  set (E' := UBin BSub (UBin BSub (UQty l1) (UQty l2)) (UQty l3)).
  assert (R1 : resolve (attr_qty (w_mod w)) (minus (minus (UQty "ndot_in") (UQty "ndot_L_out")) (UQty "ndot_V_out")) = Ok E').
  { unfold minus. cbn [resolve]. unfold attr_qty. now rewrite A1, A2, A3. }
  assert (U1 : unit_sub u_molar_flow u_molar_flow = Ok u_molar_flow) by (vm_compute; reflexivity).
  assert (BE : exists nd, build (w_heap w) E' = Ok nd).
  { assert (Un : forall i q, nd_unit (qty_call i q) = q_units q) by (intros i q; unfold qty_call; now destruct (q_spec q)).
    unfold E'. cbn [build]. unfold build_qty. rewrite B1, B2, B3. cbn [rbind]. unfold node_op, node_sub. cbn [rbind]. rewrite ?Un, ?C1, ?C2, ?U1. cbn [rbind].
    cbn [nd_unit]. rewrite C3, ?U1. cbn [rbind]. eexists. reflexivity. }
  destruct BE as (nd & BE).
  assert (W : well_formed_eq (w_heap w) (UResid E')) by (exists nd; exact BE).
  destruct (proj1 (create_decided w "molar_conservation" (UResid E') W)) as (w' & e & C & Ch & Cm & Cn & Ce).
  { intros i o Ho Hi. cbn in Ho. destruct Ho as [[<-|<-]|<-]; congruence. }
  cbn [run_cmds]. unfold eqc. cbn [run_cmd resolve_eq]. rewrite R1. cbn [rbind].
  unfold user_create in C. cbn [build_eq] in C |- *. rewrite BE in *. cbn [rbind] in *. rewrite C.
  eexists. split; [reflexivity|].
  intros en v G. unfold solution. cbn [w_mod set_attr m_eqs with_attrs] in *. rewrite Cm in *. cbn [m_eqs with_eqs] in *.
  rewrite M, E1 in *. cbn [m_eqs new_model w_mod] in *.
  assert (T : forall a i q, In a ["ndot_in"; "ndot_L_out"; "ndot_V_out"] -> dget a (m_attrs (w_mod w1)) = Some (AQty i) -> hget (w_heap w) i = Some q ->
    qty_meaning (w_heap w) (read (w_heap w) en) i = Some (v a)).
  { intros a i q I Ai Bi. destruct (G a q) as [T1 T2].
    - unfold quantity, attr_qty. cbn [w_mod w_heap m_attrs set_attr with_attrs with_eqs]. rewrite dget_dset.
      destruct (String.eqb_spec a "molar_conservation") as [->|_]; [destruct I as [I|[I|[I|[]]]]; discriminate|]. 
      rewrite Ch. now rewrite Ai.
    - unfold qty_meaning. rewrite Bi. destruct (q_spec q); [now apply T2|]. cbn. now rewrite Bi, T1. }
  destruct Ce as (n' & En & Dn). specialize (Dn (read (w_heap w) en) en (read_for _ _)). cbn in Dn.
  rewrite (T _ _ _ (or_introl eq_refl) A1 B1), (T _ _ _ (or_intror (or_introl eq_refl)) A2 B2),
    (T _ _ _ (or_intror (or_intror (or_introl eq_refl))) A3 B3) in Dn. cbn in Dn.
  split.
  - intros Z. destruct (Z (eq_name e) e) as (n'' & En' & D0); [now rewrite dget_dset_eq|].
    rewrite En in En'. injection En' as <-. rewrite Dn in D0. injection D0 as D0. lra.
  - intros Z k' e' J. rewrite dget_dset in J. destruct (String.eqb k' (eq_name e)); [|discriminate]. injection J as <-.
    exists n'. split; [exact En|]. rewrite Dn. f_equal. lra.
Qed.
