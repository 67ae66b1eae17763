(** Proofs for SpecPhases.v. *)
From Verif Require Import Base BaseFacts Num UnitModel Sympy Node Build EquationModel ModelModel PackageModel UnitOpModel SpecPackage SpecUnits SpecUnitOps SpecMeasure
  QtyFacts MeasureFacts SpecPhases.
Notation num := Verif.Num.num.

(** ** Attributes through a run *)
Definition assigned_to (c : cmd) : option string :=
  match c with CVar a _ _ _ _ _ | CPar a _ _ _ | CCon a _ _ _ | CEq a _ _ _ => Some a | _ => None end.
Definition has_attr (w : mworld) (a : string) : Prop := exists l, dget a (m_attrs (w_mod w)) = Some (AQty l) /\ (l < List.length (w_heap w))%nat.
Definition is_creation (c : cmd) : bool :=
  match c with
  | CVar _ _ _ ex ty _ => negb ex || String.eqb ty "input" || String.eqb ty "output"
  | CPar _ _ _ _ | CCon _ _ _ _ => true
  | _ => false
  end.
Definition no_equation (a : string) (c : cmd) : bool := match c with CEq b _ _ _ => negb (String.eqb b a) | _ => true end.

Lemma hset_length h l q : List.length (hset h l q) = List.length h.
Proof. revert l. induction h as [|x r IH]; intros [|l]; simpl; auto. Qed.
Lemma attr_quantity w a : has_attr w a -> exists q, quantity w a = Some q.
Proof.
  intros (l & D & L). unfold quantity, attr_qty. rewrite D. destruct (hget (w_heap w) l) as [q|] eqn:E; [eauto|].
  unfold hget in E. apply nth_error_None in E. lia.
Qed.
Lemma quantity_attr w a q : quantity w a = Some q -> dget a (m_attrs (w_mod w)) <> None.
Proof. unfold quantity, attr_qty. now destruct (dget a (m_attrs (w_mod w))). Qed.

Lemma step_attrs c w : let w' := fst (run_cmd w c) in
  (List.length (w_heap w) <= List.length (w_heap w'))%nat /\
  (forall b, assigned_to c <> Some b -> dget b (m_attrs (w_mod w')) = dget b (m_attrs (w_mod w))) /\
  (is_creation c = true -> snd (run_cmd w c) = Ok tt /\ forall a, assigned_to c = Some a -> has_attr w' a) /\
  (forall a, match c with CEq _ _ _ _ => False | _ => True end -> has_attr w a -> has_attr w' a).
Proof.
  assert (Cr : forall a q m', m_attrs m' = m_attrs (w_mod w) ->
    let w' := mkW (w_heap w ++ [q]) (w_uids w) (set_attr m' a (AQty (List.length (w_heap w)))) in
    (List.length (w_heap w) <= List.length (w_heap w'))%nat /\
    (forall b, Some a <> Some b -> dget b (m_attrs (w_mod w')) = dget b (m_attrs (w_mod w))) /\
    (forall b, Some a = Some b -> has_attr w' b) /\ (forall b, has_attr w b -> has_attr w' b)).
  { intros a q m' E w'. subst w'. cbn [w_heap w_mod set_attr with_attrs m_attrs]. rewrite app_length. cbn [List.length]. split; [lia|].
    split; [intros b N; rewrite E, dget_dset_neq by congruence; reflexivity|].
    assert (H : has_attr (mkW (w_heap w ++ [q]) (w_uids w) (set_attr m' a (AQty (List.length (w_heap w))))) a).
    { exists (List.length (w_heap w)). cbn. rewrite dget_dset_eq, app_length. cbn. split; [reflexivity|lia]. }
    split; [intros b Eb; injection Eb as <-; exact H|]. intros b (l & D & L). destruct (String.string_dec b a) as [->|N]; [exact H|].
    exists l. cbn. rewrite E, dget_dset_neq, app_length by congruence. split; [exact D|lia]. }
  assert (Gr : forall q m', m_attrs m' = m_attrs (w_mod w) -> let w' := mkW (w_heap w ++ [q]) (w_uids w) m' in
    (List.length (w_heap w) <= List.length (w_heap w'))%nat /\
    (forall b, dget b (m_attrs (w_mod w')) = dget b (m_attrs (w_mod w))) /\ (forall b, has_attr w b -> has_attr w' b)).
  { intros q m' E w'. subst w'. cbn [w_heap w_mod]. rewrite app_length. split; [lia|]. rewrite E. split; [auto|].
    intros b (l & D & L). exists l. cbn. rewrite E, app_length. split; [exact D|lia]. }
  assert (Ch : forall l q, let w' := mkW (hset (w_heap w) l q) (w_uids w) (w_mod w) in
    (List.length (w_heap w) <= List.length (w_heap w'))%nat /\ (forall b, has_attr w b -> has_attr w' b)).
  { intros l q w'. subst w'. unfold has_attr. cbn [w_heap w_mod]. rewrite hset_length. auto. }
  destruct c as [a n u ex ty v|a n u v|a n u v|a v u|a|a n q k]; cbn [assigned_to is_creation].
  - cbn [run_cmd]. unfold create_variable.
    destruct ex; [destruct (String.eqb ty "input") eqn:T1; [|destruct (String.eqb ty "output") eqn:T2]|]; cbn [assign_qty fst snd negb orb].
    + edestruct Cr as (A & B & C & D); [|split; [exact A|split; [exact B|split; [auto|auto]]]]. reflexivity.
    + edestruct Cr as (A & B & C & D); [|split; [exact A|split; [exact B|split; [auto|auto]]]]. reflexivity.
    + edestruct Gr as (A & B & D); [|split; [exact A|split; [auto|split; [discriminate|auto]]]]. reflexivity.
    + edestruct Cr as (A & B & C & D); [|split; [exact A|split; [exact B|split; [auto|auto]]]]. reflexivity.
  - edestruct Cr as (A & B & C & D); [|split; [exact A|split; [exact B|split; [auto|auto]]]]. reflexivity.
  - edestruct Cr as (A & B & C & D); [|split; [exact A|split; [exact B|split; [auto|auto]]]]. reflexivity.
  - assert (S : (List.length (w_heap w) <= List.length (w_heap w))%nat) by lia. cbn [run_cmd].
    destruct (attr_qty (w_mod w) a) as [l|]; [|cbn [fst snd]; auto 10 using le_n; repeat split; auto; discriminate].
    destruct (match v with SANum n => _ | SAAttr b => _ end) as [sv|]; [|cbn [fst snd]; repeat split; auto; discriminate].
    unfold heap_set_value. destruct (hget (w_heap w) l) as [p|]; [|cbn [fst snd]; repeat split; auto; discriminate].
    destruct (set_value p sv u) as [p'|]; cbn [fst snd]; [|repeat split; auto; discriminate].
    destruct (Ch l p') as [A B]. split; [exact A|]. split; [auto|]. split; [discriminate|auto].
  - cbn [run_cmd]. destruct (attr_qty (w_mod w) a) as [l|]; [|cbn [fst snd]; repeat split; auto; discriminate].
    destruct (hget (w_heap w) l) as [p|]; [|cbn [fst snd]; repeat split; auto; discriminate].
    destruct (qkind_eqb (q_kind p) KVariable); cbn [fst snd]; [|repeat split; auto; discriminate].
    destruct (Ch l (set_domain p)) as [A B]. split; [exact A|]. split; [auto|]. split; [discriminate|auto].
  - cbn [run_cmd]. destruct (let* q' := _ in _) as [arg|]; [|cbn [fst snd]; repeat split; auto; discriminate].
    destruct (create_equation w n (Some arg) k) as [w' [e|x]] eqn:E; destruct (create_equation_attrs _ _ _ _ _ _ E) as [Eh Ea]; cbn [fst snd w_heap w_mod].
    + rewrite Eh. split; [lia|]. split; [|split; [discriminate|intros ? []]]. intros b N. cbn. rewrite Ea, dget_dset_neq by congruence. reflexivity.
    + rewrite Eh, Ea. split; [lia|]. split; [auto|]. split; [discriminate|intros ? []].
Qed.
Lemma run_attrs a cs : forall w, dget a (m_attrs (w_mod (fst (run_cmds w cs)))) <> None -> dget a (m_attrs (w_mod w)) <> None \/ exists c, In c cs /\ assigned_to c = Some a.
Proof.
  induction cs as [|c cs IH]; intros w; [auto|]. cbn [run_cmds]. destruct (step_attrs c w) as (_ & B & _).
  assert (One : dget a (m_attrs (w_mod (fst (run_cmd w c)))) <> None -> dget a (m_attrs (w_mod w)) <> None \/ exists c', In c' (c :: cs) /\ assigned_to c' = Some a).
  { intros H. destruct (assigned_to c) as [b|] eqn:Ac.
    - destruct (String.string_dec b a) as [->|N]; [right; exists c; split; [now left|exact Ac]|]. left. rewrite <- (B a) by congruence. exact H.
    - left. rewrite <- (B a) by congruence. exact H. }
  destruct (run_cmd w c) as [w' [[]|x]]; cbn [fst] in *; [|exact One].
  intros H. destruct (IH w' H) as [K|(c' & I & K)]; [now apply One|]. right. exists c'. split; [now right|exact K].
Qed.
Lemma kept_attr a cs : forall w, forallb (no_equation a) cs = true -> has_attr w a -> has_attr (fst (run_cmds w cs)) a.
Proof.
  induction cs as [|c cs IH]; intros w F H; [exact H|]. cbn [forallb] in F. apply andb_prop in F. destruct F as [F1 F2]. cbn [run_cmds].
  assert (G : has_attr (fst (run_cmd w c)) a).
  { destruct (step_attrs c w) as (A & B & _ & D). destruct c as [| | | | |b n q k]; try now apply D.
    destruct H as (l & H & L). exists l. rewrite B; [split; [exact H|lia]|]. cbn. intros E. injection E as ->. cbn in F1. now rewrite String.eqb_refl in F1. }
  destruct (run_cmd w c) as [w' [[]|x]]; [now apply IH|exact G].
Qed.
Lemma creations_run cs : forall w, forallb is_creation cs = true -> snd (run_cmds w cs) = Ok tt /\
  forall a c, In c cs -> assigned_to c = Some a -> has_attr (fst (run_cmds w cs)) a.
Proof.
  induction cs as [|c cs IH]; intros w F; [split; [reflexivity|intros a c []]|]. cbn [forallb] in F. apply andb_prop in F. destruct F as [F1 F2]. cbn [run_cmds].
  destruct (step_attrs c w) as (_ & _ & C & _). destruct (C F1) as [C1 C2]. destruct (run_cmd w c) as [w' [[]|x]]; [|discriminate C1].
  destruct (IH w' F2) as [I1 I2]. split; [exact I1|]. intros a c' [<-|I] A; [|now apply (I2 a c')]. apply kept_attr; [|now apply C2].
  apply forallb_forall. rewrite forallb_forall in F2. intros d Hd. specialize (F2 d Hd). destruct d; try reflexivity. discriminate F2.
Qed.
Lemma run_parts cs cs' w : snd (run_cmds w cs) = Ok tt -> run_cmds w (cs ++ cs') = run_cmds (fst (run_cmds w cs)) cs'.
Proof.
  revert w. induction cs as [|c cs IH]; intros w; [reflexivity|]. cbn [run_cmds app]. destruct (run_cmd w c) as [w' [[]|x]]; [apply IH|discriminate].
Qed.
Lemma made_attr first rest w a c : forallb is_creation first = true -> forallb (no_equation a) rest = true -> In c first -> assigned_to c = Some a ->
  has_attr (fst (run_cmds w (first ++ rest))) a.
Proof.
  intros F N I A. destruct (creations_run first w F) as [C1 C2]. rewrite run_parts by exact C1. apply kept_attr; [exact N|]. now apply (C2 a c).
Qed.
Lemma script_world w s : fst (run_script w s) = fst (run_cmds w (fst s)).
Proof. unfold run_script. now destruct (run_cmds w (fst s)) as [w' [[]|x]]. Qed.

(** ** Fractions *)
Definition unphased (c : cmd) : bool := match assigned_to c with Some a => negb (fraction a) | None => true end.
Lemma unphased_no a c : fraction a = true -> unphased c = true -> no_equation a c = true.
Proof.
  intros F U. destruct c; try reflexivity. unfold unphased in U. cbn in *. apply negb_true_iff. apply String.eqb_neq. intros ->. now rewrite F in U.
Qed.
Lemma unphased_all a cs : fraction a = true -> forallb unphased cs = true -> forallb (no_equation a) cs = true.
Proof. intros F U. apply forallb_forall. rewrite forallb_forall in U. intros c Hc. apply unphased_no; auto. Qed.

(** An __init__ whose fraction commands are [fr], with creations before them. *)
Definition phased (cs fr : list cmd) : Prop :=
  exists pre post, cs = pre ++ fr ++ post /\ forallb is_creation pre = true /\ forallb unphased pre = true /\ forallb unphased post = true /\ forallb is_creation fr = true.
Lemma phased_exact cs fr h u name a : phased cs fr -> fraction a = true ->
  (exists q, quantity (fst (run_cmds (mkW h u (new_model name)) cs)) a = Some q) <-> exists c, In c fr /\ assigned_to c = Some a.
Proof.
  intros (pre & post & -> & P1 & P2 & P3 & P4) F. split.
  - intros (q & Q). apply quantity_attr in Q. apply run_attrs in Q. destruct Q as [Q|(c & I & A)]; [now contradiction Q|].
    rewrite !in_app_iff in I. exists c. split; [|exact A]. rewrite forallb_forall in P2, P3.
    destruct I as [I|[I|I]]; [specialize (P2 c I)|exact I|specialize (P3 c I)]; exfalso; unfold unphased in P2, P3; [rewrite A, F in P2; discriminate P2|rewrite A, F in P3; discriminate P3].
  - intros (c & I & A). apply attr_quantity. rewrite app_assoc. apply (made_attr (pre ++ fr) post _ a c); [now rewrite forallb_app, P1, P4|now apply unphased_all| |exact A].
    apply in_app_iff. now right.
Qed.
Lemma fractions_assign ps a : (exists c, In c (fractions ps) /\ assigned_to c = Some a) <-> exists p, In p ps /\ In a [z_in p; w_in p; z_out p; w_out p].
Proof.
  unfold fractions. split.
  - intros (c & I & A). apply in_flat_map in I. destruct I as (p & Ip & I). exists p. split; [exact Ip|].
    cbn [fraction_vars In] in I. destruct I as [<-|[<-|[<-|[<-|[]]]]]; injection A as <-; cbn [In]; auto 10.
  - intros (p & Ip & I). cbn [In] in I.
    exists (hidden a). split; [|reflexivity]. apply in_flat_map. exists p. split; [exact Ip|]. cbn [fraction_vars In].
    destruct I as [<-|[<-|[<-|[<-|[]]]]]; auto 10.
Qed.
Lemma fractions_creation ps : forallb is_creation (fractions ps) = true.
Proof. unfold fractions. induction ps as [|p ps IH]; [reflexivity|]. cbn [flat_map]. now rewrite forallb_app, IH. Qed.
Lemma flash_creation ps : forallb is_creation (flat_map flash_fractions ps) = true.
Proof. induction ps as [|p ps IH]; [reflexivity|]. cbn [flat_map]. now rewrite forallb_app, IH. Qed.
Lemma pars_creation ps : forallb is_creation (flat_map phase_pars ps) = true.
Proof. induction ps as [|p ps IH]; [reflexivity|]. cbn [flat_map]. now rewrite forallb_app, IH. Qed.
Lemma unphased_flat {A} (f : A -> list cmd) ps : (forall p, forallb unphased (f p) = true) -> forallb unphased (flat_map f ps) = true.
Proof. intros H. induction ps as [|p ps IH]; [reflexivity|]. cbn [flat_map]. now rewrite forallb_app, H, IH. Qed.

(** The commands that make the fractions, by class. *)
Definition fraction_cmds (class : string) (k : pack) : list cmd :=
  if String.eqb class "MultiphasicMaterialStream" then flat_map phase_pars (k_names k)
  else if String.eqb class "MaterialStream" then []
  else if String.eqb class "Mixer" then (if many (k_names k) then fractions (k_names k) else [])
  else if String.eqb class "Flash_SteadyState" then (if (2 <=? k_number k)%Z then flat_map flash_fractions (k_names k) else [])
  else (if (2 <=? k_number k)%Z then fractions (k_names k) else []).
Lemma creation_if (b : bool) cs : forallb is_creation cs = true -> forallb is_creation (if b then cs else []) = true.
Proof. now destruct b. Qed.
Lemma operations_phased lib k class init equations : In (class, init, equations) (unit_operations lib (Some k)) -> phased (fst init) (fraction_cmds class k).
Proof.
  intros H. unfold unit_operations in H. repeat (destruct H as [H|H]; [injection H as <- <- <-|]); [..|destruct H];
    match goal with |- context [fraction_cmds ?c k] => let s := eval cbv [fraction_cmds String.eqb Ascii.eqb Bool.eqb] in (fraction_cmds c k) in change (fraction_cmds c k) with s end.
  - set (fr := if many (k_names k) then fractions (k_names k) else []).
    assert (Cf : forallb is_creation fr = true) by (apply creation_if, fractions_creation).
    assert (T : forallb unphased (fst (mixer_sums (k_names k))) = true).
    { unfold mixer_sums. destruct (sum_of _); [|reflexivity]. destruct (sum_of _); [|reflexivity]. destruct (sum_of _); [|reflexivity]. now destruct (sum_of _). }
    assert (R : forallb unphased ((if many (k_names k) then flat_map mixer_phase (removelast (k_names k)) else []) ++ mixer_rest) = true).
    { rewrite forallb_app. apply andb_true_intro. split; [destruct (many (k_names k)); [now apply unphased_flat|reflexivity]|reflexivity]. }
    cbn [mixer_init]. fold fr. destruct (2 <=? k_number k)%Z; [destruct (snd (mixer_sums (k_names k)))|]; cbn [fst].
    + exists [], mixer_flows. repeat split; auto.
    + exists [], (mixer_flows ++ fst (mixer_sums (k_names k)) ++ (if many (k_names k) then flat_map mixer_phase (removelast (k_names k)) else []) ++ mixer_rest).
      split; [cbn [app]; now rewrite <- app_assoc|]. repeat split; auto. rewrite !forallb_app in *. now rewrite T, R.
    + exists [], (mixer_flows ++ (if many (k_names k) then flat_map mixer_phase (removelast (k_names k)) else []) ++ mixer_rest).
      split; [cbn [app]; now rewrite <- app_assoc|]. repeat split; auto.
  - exists valve_vars, []. split; [cbn [fst]; now rewrite app_nil_r|]. repeat split; try reflexivity. apply creation_if, fractions_creation.
  - exists pump_vars, []. split; [cbn [fst]; now rewrite app_nil_r|]. repeat split; try reflexivity. apply creation_if, fractions_creation.
  - cbn [heater_init]. destruct (2 <=? k_number k)%Z.
    + exists [], heater_vars. repeat split. apply fractions_creation.
    + destruct (k_star k) as [c|]; [destruct (l_Cp lib c)|]; (eexists [], _; split; [reflexivity|]; repeat split).
  - eexists [], _. split; [reflexivity|]. repeat split. apply creation_if, fractions_creation.
  - cbn [flash_dynamic_init]. destruct (2 <=? k_number k)%Z.
    + exists [], flash_dynamic_vars. repeat split. apply fractions_creation.
    + destruct (k_star k) as [c|]; [destruct (l_Cp lib c)|]; (eexists [], _; split; [reflexivity|]; repeat split).
  - eexists [], _. split; [reflexivity|]. repeat split. apply creation_if, flash_creation.
  - exists stream_vars, []. repeat split.
  - exists stream_vars, []. split; [cbn [fst multi_stream_init]; now rewrite app_nil_r|]. repeat split. apply pars_creation.
Qed.

Lemma pack_names s i k : pack_of s i = Some k -> number_of s i = Some (k_number k) /\ k_names k = map phase_said (names_of s i).
Proof.
  unfold pack_of, number_of, names_of. destruct (nth_error (s_pkgs s) i) as [p|]; [|discriminate]. intros H. injection H as <-. cbn. split; [reflexivity|].
  apply map_ext. now intros [n|].
Qed.

Lemma flash_assign ps a : (exists c, In c (flat_map flash_fractions ps) /\ assigned_to c = Some a) <->
  exists p, In p ps /\ In a [z_in p; w_in p; z_liquid p; w_liquid p; z_vapour p; w_vapour p].
Proof.
  split.
  - intros (c & I & A). apply in_flat_map in I. destruct I as (p & Ip & I). exists p. split; [exact Ip|].
    cbn [flash_fractions In] in I. destruct I as [<-|[<-|[<-|[<-|[<-|[<-|[]]]]]]]; injection A as <-; cbn [In]; auto 10.
  - intros (p & Ip & I). cbn [In] in I.
    assert (J : exists c, In c (flash_fractions p) /\ assigned_to c = Some a).
    { cbn [flash_fractions In]. destruct I as [<-|[<-|[<-|[<-|[<-|[<-|[]]]]]]];
        [exists (hidden (z_in p))|exists (hidden (w_in p))|exists (named_fraction (z_liquid p) (z_liquid p))|exists (named_fraction (w_liquid p) (w_out p))
        |exists (named_fraction (z_vapour p) (z_out p))|exists (named_fraction (w_vapour p) (w_out p))]; auto 10. }
    destruct J as (c & J & A). exists c. split; [apply in_flat_map; eauto|exact A].
Qed.
Lemma pars_assign ps a : (exists c, In c (flat_map phase_pars ps) /\ assigned_to c = Some a) <->
  exists p, In p ps /\ In a [("z_" ++ p)%string; ("w_" ++ p)%string].
Proof.
  split.
  - intros (c & I & A). apply in_flat_map in I. destruct I as (p & Ip & I). exists p. split; [exact Ip|].
    cbn [phase_pars In] in I. destruct I as [<-|[<-|[]]]; injection A as <-; cbn [In]; auto 10.
  - intros (p & Ip & I). cbn [In] in I.
    exists (par a u_dimless). split; [|reflexivity]. apply in_flat_map. exists p. split; [exact Ip|]. cbn [phase_pars In]. destruct I as [<-|[<-|[]]]; auto.
Qed.
Lemma append_nil (p : string) : (p ++ "")%string = p.
Proof. induction p as [|c p IH]; [reflexivity|]. cbn. now rewrite IH. Qed.
Lemma some_phase (ns : list phase) (P : string -> Prop) : (exists p, In p (map phase_said ns) /\ P p) <-> exists n, In n ns /\ P (phase_said n).
Proof.
  split.
  - intros (p & I & H). apply in_map_iff in I. destruct I as (n & <- & I). eauto.
  - intros (n & I & H). exists (phase_said n). split; [now apply in_map|exact H].
Qed.
Lemma condition_if (b : bool) (C : Prop) cs a (P : Prop) : (b = true <-> C) -> ((exists c, In c cs /\ assigned_to c = Some a) <-> P) ->
  ((exists c, In c (if b then cs else []) /\ assigned_to c = Some a) <-> C /\ P).
Proof.
  intros B H. destruct b.
  - rewrite H. split; [|tauto]. intros p. split; [now apply B|exact p].
  - split; [intros (c & [] & _)|]. intros [c _]. apply B in c. discriminate.
Qed.
Lemma fraction_cmds_assign class k ns a lib init equations : In (class, init, equations) (unit_operations lib (Some k)) -> k_names k = map phase_said ns ->
  (exists c, In c (fraction_cmds class k) /\ assigned_to c = Some a) <->
  has_fractions class (k_number k) ns /\ exists n, In n ns /\ In a (fraction_names class (phase_said n)).
Proof.
  intros H E.
  assert (Two : ((2 <=? k_number k)%Z = true <-> (2 <= k_number k)%Z)) by apply Z.leb_le.
  assert (Swap : forall p, (In a [z_in p; w_in p; z_out p; w_out p] <-> In a [z_in p; z_out p; w_in p; w_out p])) by (intros p; cbn [In]; tauto).
  assert (Usual : (exists c, In c (if (2 <=? k_number k)%Z then fractions (k_names k) else []) /\ assigned_to c = Some a) <->
    (2 <= k_number k)%Z /\ exists n, In n ns /\ In a [z_in (phase_said n); z_out (phase_said n); w_in (phase_said n); w_out (phase_said n)]).
  { apply condition_if; [exact Two|]. rewrite fractions_assign, E.
    rewrite (some_phase ns (fun p => In a [z_in p; w_in p; z_out p; w_out p])). split; intros (n & I & J); exists n; split; auto; now apply Swap. }
  unfold unit_operations in H. repeat (destruct H as [H|H]; [injection H as <- _ _|]); [..|destruct H]; try exact Usual.
  - change (fraction_cmds "Mixer" k) with (if many (k_names k) then fractions (k_names k) else []).
    apply condition_if.
    + unfold many. rewrite E, map_length. apply Nat.ltb_lt.
    + rewrite fractions_assign, E. rewrite (some_phase ns (fun p => In a [z_in p; w_in p; z_out p; w_out p])).
      split; intros (n & I & J); exists n; split; auto; now apply Swap.
  - change (fraction_cmds "Flash_SteadyState" k) with (if (2 <=? k_number k)%Z then flat_map flash_fractions (k_names k) else []).
    apply condition_if; [exact Two|]. rewrite flash_assign, E.
    rewrite (some_phase ns (fun p => In a [z_in p; w_in p; z_liquid p; w_liquid p; z_vapour p; w_vapour p])).
    split; intros (n & I & J); exists n; split; auto.
    + change (In a [z_in (phase_said n); z_liquid (phase_said n); z_vapour (phase_said n); w_in (phase_said n); w_liquid (phase_said n); w_vapour (phase_said n)]).
      cbn [In] in *. tauto.
    + change (In a [z_in (phase_said n); z_liquid (phase_said n); z_vapour (phase_said n); w_in (phase_said n); w_liquid (phase_said n); w_vapour (phase_said n)]) in J.
      cbn [In] in *. tauto.
  - split; [intros (c & [] & _)|intros [[] _]].
  - change (fraction_cmds "MultiphasicMaterialStream" k) with (flat_map phase_pars (k_names k)). rewrite pars_assign, E.
    rewrite (some_phase ns (fun p => In a [("z_" ++ p)%string; ("w_" ++ p)%string])).
    split; [intros (n & I & J)|intros (_ & n & I & J)]; [split; [exact Logic.I|]|]; exists n; split; auto.
    + change (In a [("z_" ++ phase_said n ++ "")%string; ("w_" ++ phase_said n ++ "")%string]). rewrite !append_nil. exact J.
    + change (In a [("z_" ++ phase_said n ++ "")%string; ("w_" ++ phase_said n ++ "")%string]) in J. rewrite !append_nil in J. exact J.
Qed.
Lemma fractions_exact known l i k lib class init equations : pack_of (prun known l) i = Some k ->
  In (class, init, equations) (unit_operations lib (Some k)) -> forall h u name a, fraction a = true ->
  (exists q, quantity (fst (run_script (mkW h u (new_model name)) init)) a = Some q) <->
  (exists number, number_of (prun known l) i = Some number /\ has_fractions class number (names_of (prun known l) i)) /\
  exists n, In n (names_of (prun known l) i) /\ In a (fraction_names class (phase_said n)).
Proof.
  intros K H h u name a F. destruct (pack_names _ _ _ K) as [N E]. rewrite script_world.
  rewrite (phased_exact _ _ h u name a (operations_phased _ _ _ _ _ H) F). rewrite (fraction_cmds_assign _ _ _ a _ _ _ H E). rewrite N.
  split.
  - intros [A B]. split; [exists (k_number k); auto|exact B].
  - intros [(z & Z & A) B]. injection Z as <-. auto.
Qed.
