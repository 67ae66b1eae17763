(** What the equations of the unit operations mean. *)
From Verif Require Import Base BaseFacts Num UnitModel Sympy Node Build QtyFacts EquationModel ModelModel PackageModel UnitOpModel
  SpecUnits SpecExpr SpecQty SpecModel SpecUnitOps BuildFacts EquationFacts ModelFacts UnitOpFacts.
From Coq Require Import Reals Lra.
Notation num := Verif.Num.num.

(** Units of the attributes of the library. *)
Definition table : dict unit :=
  [("ndot_in", u_molar_flow); ("ndot_out", u_molar_flow); ("mdot_in", u_mass_flow); ("mdot_out", u_mass_flow);
   ("Qdot_out", u_volume_flow); ("H_in", u_molar_energy); ("H_out", u_molar_energy); ("P_in", u_Pa); ("P_out", u_Pa);
   ("T_in", u_K); ("T_out", u_K); ("Delta_P", u_Pa); ("perc_open", u_dimless); ("mix_rho", u_density);
   ("Q", u_heat_rate); ("cp_mix", u_heat_capacity)].
Definition fraction_name (a : string) : bool :=
  match a with
  | String c (String d _) => (Ascii.eqb c "z" || Ascii.eqb c "w") && Ascii.eqb d "_"
  | _ => false
  end.
Definition units (a : string) : option unit :=
  if fraction_name a then Some u_dimless else dget a table.

Notation state := (state units).
Notation runs := (runs units).
Notation declared_by := (declared_by units).

Ltac unit_ok := vm_compute; reflexivity.
Ltac fresh_name := simpl; intuition discriminate.

Lemma new_state h u n : state (mkW h u (new_model n)) n [].
Proof. split; [reflexivity|intros a []|intros a l H; discriminate]. Qed.

Lemma new_eqs w en v : m_eqs (w_mod w) = [] -> eqs_are w en v [].
Proof. intros E. split; [intros k e H; rewrite E in H; discriminate|intros n E' []]. Qed.

(** ** Fractions *)
Fixpoint with_fractions (ps : list string) (D : list string) : list string :=
  match ps with
  | [] => D
  | p :: r => with_fractions r (w_out p :: z_out p :: w_in p :: z_in p :: D)
  end.

Lemma in_with_fractions a ps : forall D, In a (with_fractions ps D) <->
  In a D \/ exists p, In p ps /\ (a = z_in p \/ a = w_in p \/ a = z_out p \/ a = w_out p).
Proof.
  induction ps as [|p r IH]; intros D; cbn [with_fractions].
  - split; [now left|]. intros [H|[p [[] _]]]. exact H.
  - rewrite IH. cbn [In]. split.
    + intros [[H|[H|[H|[H|H]]]]|[p' [Hp H]]]; try (right; exists p; subst a; split; [now left|tauto]).
      * now left.
      * right. exists p'. auto.
    + intros [H|[p' [[<-|Hp] H]]]; [left; tauto| |right; exists p'; auto].
      left. destruct H as [->|[->|[->| ->]]]; tauto.
Qed.

Lemma units_z_in p : units (z_in p) = Some u_dimless. Proof. reflexivity. Qed.
Lemma units_w_in p : units (w_in p) = Some u_dimless. Proof. reflexivity. Qed.
Lemma units_z_out p : units (z_out p) = Some u_dimless. Proof. reflexivity. Qed.
Lemma units_w_out p : units (w_out p) = Some u_dimless. Proof. reflexivity. Qed.

Lemma with_fractions_known ps D : (forall a, In a D -> units a <> None) -> forall a, In a (with_fractions ps D) -> units a <> None.
Proof.
  intros H a Ha. apply in_with_fractions in Ha. destruct Ha as [Ha|[p [_ [->|[->|[->| ->]]]]]]; [now apply H|discriminate..].
Qed.

Lemma fractions_declared n ps : forall D, declared_by n (fractions ps) D (with_fractions ps D).
Proof.
  induction ps as [|p r IH]; intros D; [apply declared_nil|].
  change (fractions (p :: r)) with (hidden (z_in p) :: hidden (w_in p) :: hidden (z_out p) :: hidden (w_out p) :: fractions r).
  cbn [with_fractions].
  do 4 (eapply declared_cons' with (u := u_dimless); [cbn; repeat split; discriminate|reflexivity|]). apply IH.
Qed.

(** Differences of two fractions. *)
Definition difference_eqs (f g : string -> string) (p : string) : list cmd :=
  [eqc (f p) (minus (UQty (z_out p)) (UQty (z_in p))); eqc (g p) (minus (UQty (w_out p)) (UQty (w_in p)))].
Definition difference_list (f g : string -> string) (p : string) : list (string * uexpr string) :=
  [(f p, minus (UQty (z_out p)) (UQty (z_in p))); (g p, minus (UQty (w_out p)) (UQty (w_in p)))].

Lemma difference_runs n f g ps D : (forall p, units (f p) = None /\ f p <> "") -> (forall p, units (g p) = None /\ g p <> "") ->
  (forall a, In a D -> units a <> None) ->
  (forall p, In p ps -> In (z_in p) D /\ In (w_in p) D /\ In (z_out p) D /\ In (w_out p) D) ->
  exists L, runs n (flat_map (difference_eqs f g) ps) D D L /\
    forall x, In x L <-> In x (flat_map (difference_list f g) ps).
Proof.
  intros Hf Hg HD. induction ps as [|p r IH]; intros Hin.
  - exists []. split; [apply runs_nil|reflexivity].
  - destruct IH as [L [R I]]; [intros q Hq; apply Hin; now right|].
    destruct (Hin p (or_introl eq_refl)) as (Z1 & W1 & Z2 & W2).
    eexists. split.
    + simpl. eapply runs_cons; [|eapply runs_cons; [|exact R]].
      * apply runs_equation with (u := u_dimless); [apply Hf|apply Hf|exact HD| |unit_ok].
        intros a [<-|[<-|[]]]; assumption.
      * apply runs_equation with (u := u_dimless); [apply Hg|apply Hg|exact HD| |unit_ok].
        intros a [<-|[<-|[]]]; assumption.
    + intros x. simpl. rewrite !in_app_iff, I. simpl. tauto.
Qed.

Lemma append_inj (s a b : string) : (s ++ a)%string = (s ++ b)%string -> a = b.
Proof. induction s as [|c s IH]; simpl; intros H; [exact H|]. injection H as H. auto. Qed.

Lemma zero_difference a b : (Some (a - b)%R = Some 0%R) <-> a = b.
Proof. split; [intros H; injection H; lra|intros ->; f_equal; lra]. Qed.

Lemma difference_means f g ps v : (forall n E, In (n, E) (flat_map (difference_list f g) ps) -> evalue v E = Some 0%R) <-> same_fractions ps v.
Proof.
  split.
  - intros H p Hp. split; apply zero_difference.
    + apply (H (f p) (minus (UQty (z_out p)) (UQty (z_in p)))). apply in_flat_map. exists p. split; [exact Hp|now left].
    + apply (H (g p) (minus (UQty (w_out p)) (UQty (w_in p)))). apply in_flat_map. exists p. split; [exact Hp|right; now left].
  - intros H n E HE. apply in_flat_map in HE. destruct HE as [p [Hp [[= <- <-]|[[= <- <-]|[]]]]]; destruct (H p Hp) as [A B];
      apply zero_difference; assumption.
Qed.

(** ** Runs of concrete lists *)
Ltac known := let a := fresh in let H := fresh in intros a H; simpl in H; intuition (subst a; discriminate).
Ltac in_list := simpl; tauto.
Ltac one_equation := eapply runs_equation; [discriminate|reflexivity|assumption| |unit_ok];
  let a := fresh "a" in let H := fresh "H" in intros a H; simpl in H.

(** ** Pump *)
Definition multi (k : pack) : list string := if (2 <=? k_number k)%Z then k_names k else [].
Lemma multi_fractions k : (if (2 <=? k_number k)%Z then fractions (k_names k) else []) = fractions (multi k).
Proof. unfold multi. now destruct (2 <=? k_number k)%Z. Qed.
Lemma multi_eqs k : phase_eqs k = flat_map fraction_eqs (multi k).
Proof. unfold phase_eqs, multi. now destruct (2 <=? k_number k)%Z. Qed.

Definition pump_attrs : list string :=
  ["Delta_P"; "T_out"; "T_in"; "P_out"; "P_in"; "H_out"; "H_in"; "mdot_out"; "mdot_in"; "ndot_out"; "ndot_in"].

Ltac declare_all := repeat (eapply declared_cons'; [cbn; repeat split; auto|reflexivity|]); apply declared_nil.
Lemma pump_declared n : declared_by n pump_vars [] pump_attrs.
Proof. unfold pump_vars. declare_all. Qed.

Lemma pump_inits h u name k : exists w1, run_script (mkW h u (new_model name)) (pump_init (Some k)) = (w1, Ok tt) /\
  state w1 name (with_fractions (multi k) pump_attrs) /\ m_eqs (w_mod w1) = [].
Proof.
  unfold run_script, pump_init, then_fractions. cbn [fst snd]. rewrite multi_fractions.
  destruct (declared_app units name _ _ _ _ _ (pump_declared name) (fractions_declared name (multi k) _) _ (new_state h u name)) as [w1 [R [S E]]].
  rewrite R. exists w1. split; [reflexivity|]. split; [exact S|exact E].
Qed.

Lemma finish n w1 D l cs D' L : state w1 n D -> m_eqs (w_mod w1) = [] -> Forall is_setting l -> runs n cs D D' L -> functional L ->
  exists w3, run_cmds (settle w1 l) cs = (w3, Ok tt) /\ state w3 n D' /\
    (forall a, In a D -> quantity w3 a = quantity (settle w1 l) a) /\
    forall en v, agrees w3 en v -> (solution (w_mod w3) en <-> forall k E, In (k, E) L -> evalue v E = Some 0%R).
Proof.
  intros S E Hl R F. destruct (settle_state units l w1 n D Hl S) as [S2 [M2 _]]. destruct (R _ S2) as [w3 [R3 [S3 I3 K3 E3]]].
  exists w3. split; [exact R3|]. split; [exact S3|]. split; [exact K3|]. intros en v A. apply eqs_solution.
  rewrite <- (app_nil_r L). apply E3.
  - intros a _ q Hq. exact (A a q Hq).
  - now rewrite app_nil_r.
  - apply new_eqs. now rewrite M2.
Qed.

Lemma functional_app_base (B L : list (string * uexpr string)) (f g : string -> string) ps :
  functional B -> (forall x, In x L <-> In x (flat_map (difference_list f g) ps)) ->
  (forall p p', f p = f p' -> p = p') -> (forall p p', g p = g p' -> p = p') -> (forall p p', f p <> g p') ->
  (forall p n E, In (n, E) B -> n <> f p /\ n <> g p) -> functional (L ++ B).
Proof.
  intros FB HL Hf Hg Hfg HB n E E' H H'. rewrite in_app_iff in H, H'. rewrite HL in H, H'. rewrite in_flat_map in H, H'.
  destruct H as [[p [_ Hp]]|H], H' as [[p' [_ Hp']]|H'].
  - destruct Hp as [[= <- <-]|[[= <- <-]|[]]], Hp' as [[= Hn <-]|[[= Hn <-]|[]]].
    + now rewrite (Hf _ _ Hn).
    + exfalso. now apply (Hfg p p').
    + exfalso. now apply (Hfg p' p).
    + now rewrite (Hg _ _ Hn).
  - exfalso. destruct (HB p n E' H'). destruct Hp as [[= <- <-]|[[= <- <-]|[]]]; congruence.
  - exfalso. destruct (HB p' n E H). destruct Hp' as [[= <- <-]|[[= <- <-]|[]]]; congruence.
  - exact (FB n E E' H H').
Qed.

Ltac functional_list := let H := fresh in let H' := fresh in
  intros ? ? ? H H'; simpl in H, H';
  repeat match type of H with _ \/ _ => destruct H as [H|H] end; try contradiction; injection H as <- <-;
  repeat match type of H' with _ \/ _ => destruct H' as [H'|H'] end; try contradiction; (discriminate H' || (injection H' as <-; reflexivity)).

Definition molar_name (p : string) := ("molar_fraction_conservation_for_" ++ p)%string.
Definition mass_name (p : string) := ("mass_fraction_conservation_for_" ++ p)%string.

Lemma molar_unknown p : units (molar_name p) = None /\ molar_name p <> "". Proof. split; [reflexivity|discriminate]. Qed.
Lemma mass_unknown p : units (mass_name p) = None /\ mass_name p <> "". Proof. split; [reflexivity|discriminate]. Qed.
Lemma molar_inj p p' : molar_name p = molar_name p' -> p = p'. Proof. apply append_inj. Qed.
Lemma mass_inj p p' : mass_name p = mass_name p' -> p = p'. Proof. apply append_inj. Qed.
Lemma molar_mass p p' : molar_name p <> mass_name p'. Proof. discriminate. Qed.

Lemma phase_eqs_run n k D : (forall a, In a D -> units a <> None) ->
  exists L, runs n (phase_eqs k) (with_fractions (multi k) D) (with_fractions (multi k) D) L /\
    forall x, In x L <-> In x (flat_map (difference_list molar_name mass_name) (multi k)).
Proof.
  intros HD. rewrite multi_eqs. change fraction_eqs with (difference_eqs molar_name mass_name).
  apply difference_runs; [apply molar_unknown|apply mass_unknown|now apply with_fractions_known|].
  intros p Hp. rewrite !in_with_fractions. repeat split; right; exists p; tauto.
Qed.

Definition pump_list : list (string * uexpr string) :=
  [("energy_balance", minus (UQty "T_out") (UQty "T_in"));
   ("mechanical_equilibrium", minus (minus (UQty "P_out") (UQty "P_in")) (UQty "Delta_P"));
   ("isoenthalpy", minus (times (UQty "H_in") (UQty "ndot_in")) (times (UQty "H_out") (UQty "ndot_out")));
   ("mass_conservation", minus (UQty "mdot_in") (UQty "mdot_out"));
   ("molar_conservation", minus (UQty "ndot_in") (UQty "ndot_out"))].

(** An equation over attributes of the list [A0] at the start of [D]. *)
Lemma runs_equation_in n name E u A0 D : name <> "" -> units name = None -> (forall a, In a D -> units a <> None) ->
  incl A0 D -> forallb (fun a => existsb (String.eqb a) A0) (atoms E) = true -> eunit units E = Ok u ->
  runs n [eqc name E] D D [(name, E)].
Proof.
  intros H1 H2 H3 H4 H5 H6. apply runs_equation with u; try assumption. intros a Ha. apply H4.
  rewrite forallb_forall in H5. apply H5 in Ha. apply existsb_exists in Ha. destruct Ha as [b [Hb He]]. apply String.eqb_eq in He. now subst b.
Qed.

Lemma runs_eq n cs D D' L L' : runs n cs D D' L -> L = L' -> runs n cs D D' L'.
Proof. now intros H <-. Qed.

Ltac equation_run := eapply runs_eq; [repeat (
  eapply runs_cons; [eapply runs_equation_in; [discriminate|reflexivity|eassumption|eassumption|reflexivity|unit_ok]|]); apply runs_nil|reflexivity].

Lemma pump_run n D : (forall a, In a D -> units a <> None) -> incl pump_attrs D -> runs n pump_balances D D pump_list.
Proof. intros HD HI. unfold pump_balances, pump_list. equation_run. Qed.

Lemma incl_fractions ps D : incl D (with_fractions ps D).
Proof. intros a H. apply in_with_fractions. now left. Qed.

Lemma pump_known : forall a, In a pump_attrs -> units a <> None.
Proof. intros a H. simpl in H. intuition (subst a; discriminate). Qed.

Ltac other_names := let p := fresh in let n := fresh in let E := fresh in let H := fresh in
  intros p n E H; simpl in H; repeat match type of H with _ \/ _ => destruct H as [H|H] end; try contradiction;
  injection H as <- <-; split; discriminate.

Lemma all_app {A B} (P : A -> B -> Prop) (L M : list (A * B)) :
  (forall n E, In (n, E) (L ++ M) -> P n E) <-> (forall n E, In (n, E) L -> P n E) /\ (forall n E, In (n, E) M -> P n E).
Proof.
  split.
  - intros H. split; intros n E I; apply H, in_or_app; auto.
  - intros [H1 H2] n E I. apply in_app_or in I. destruct I; auto.
Qed.

Lemma pump_list_means v : (forall n E, In (n, E) pump_list -> evalue v E = Some 0%R) <-> pump_means v.
Proof.
  unfold pump_means, conserves. split.
  - intros H.
    assert (H1 := H _ _ (or_introl eq_refl)).
    assert (H2 := H _ _ (or_intror (or_introl eq_refl))).
    assert (H3 := H _ _ (or_intror (or_intror (or_introl eq_refl)))).
    assert (H4 := H _ _ (or_intror (or_intror (or_intror (or_introl eq_refl))))).
    assert (H5 := H _ _ (or_intror (or_intror (or_intror (or_intror (or_introl eq_refl)))))).
    simpl in *. injection H1 as H1. injection H2 as H2. injection H3 as H3. injection H4 as H4. injection H5 as H5.
    repeat split; lra.
  - intros [[A B] [C [D E]]] n e H. simpl in H.
    repeat match type of H with _ \/ _ => destruct H as [H|H] end; try contradiction; injection H as <- <-; simpl; f_equal; lra.
Qed.

Lemma multi_means k v L : (forall x, In x L <-> In x (flat_map (difference_list molar_name mass_name) (multi k))) ->
  (forall n E, In (n, E) L -> evalue v E = Some 0%R) <-> ((2 <= k_number k)%Z -> same_fractions (k_names k) v).
Proof.
  intros IL.
  assert (H : (forall n E, In (n, E) L -> evalue v E = Some 0%R) <-> same_fractions (multi k) v).
  { rewrite <- (difference_means molar_name mass_name). split; intros H n E HE; apply (H n E); now apply IL. }
  rewrite H. unfold multi. destruct (Z.leb_spec 2 (k_number k)) as [Hk|Hk].
  - split; [auto|]. intros G. now apply G.
  - split; [intros _ ?; exfalso; lia|intros _ p []].
Qed.

Lemma pump_works h u name k : exists w1, run_script (mkW h u (new_model name)) (pump_init (Some k)) = (w1, Ok tt) /\
  forall l, Forall is_setting l -> exists w3, run_script (settle w1 l) (pump_equations (Some k)) = (w3, Ok tt) /\
    forall en v, agrees w3 en v -> (solution (w_mod w3) en <-> pump_means v /\ ((2 <= k_number k)%Z -> same_fractions (k_names k) v)).
Proof.
  destruct (pump_inits h u name k) as [w1 [R1 [S1 E1]]]. exists w1. split; [exact R1|]. intros l Hl.
  assert (HD := with_fractions_known (multi k) pump_attrs pump_known).
  destruct (phase_eqs_run name k pump_attrs pump_known) as [L [RL IL]].
  assert (RP := pump_run name (with_fractions (multi k) pump_attrs) HD (incl_fractions _ _)).
  destruct (finish name w1 _ l _ _ _ S1 E1 Hl (runs_app units name _ _ _ _ _ _ _ RP RL)) as [w3 [R3 [_ [_ M3]]]].
  { apply functional_app_base with (f := molar_name) (g := mass_name) (ps := multi k);
      [unfold pump_list; functional_list|exact IL|apply molar_inj|apply mass_inj|apply molar_mass|unfold pump_list; other_names]. }
  unfold run_script. cbn [pump_equations fst snd]. rewrite R3. exists w3. split; [reflexivity|].
  intros en v A. rewrite (M3 en v A), all_app, pump_list_means.
  rewrite and_comm. apply and_iff_compat_l. exact (multi_means k v L IL).
Qed.

(** ** Valve with one phase *)
Definition valve_attrs : list string :=
  ["perc_open"; "Delta_P"; "T_out"; "T_in"; "P_out"; "P_in"; "H_out"; "H_in"; "Qdot_out"; "mdot_out"; "mdot_in"; "ndot_out"; "ndot_in"].
Lemma valve_declared n : declared_by n valve_vars [] valve_attrs.
Proof. unfold valve_vars. declare_all. Qed.
Lemma valve_known : forall a, In a valve_attrs -> units a <> None.
Proof. intros a H. simpl in H. intuition (subst a; discriminate). Qed.

Definition valve_list : list (string * uexpr string) :=
  [("energy_balance", minus (UQty "T_out") (UQty "T_in"));
   ("mechanical_equilibrium", plus (minus (UQty "P_out") (UQty "P_in")) (UQty "Delta_P"));
   ("isoenthalpy", minus (times (UQty "H_in") (UQty "ndot_in")) (times (UQty "H_out") (UQty "ndot_out")));
   ("mass_conservation", minus (UQty "mdot_in") (UQty "mdot_out"));
   ("molar_conservation", minus (UQty "ndot_in") (UQty "ndot_out"))].
Definition flux_list : list (string * uexpr string) :=
  [("vol_flux_balance", minus (UQty "Qdot_out") (times (UQty "perc_open") (over (UQty "mdot_out") (UQty "mix_rho"))))].

Lemma valve_run n : runs n (removelast valve_balances) valve_attrs valve_attrs valve_list.
Proof. assert (HD := valve_known). assert (HI := incl_refl valve_attrs). unfold valve_balances, valve_list. cbn [removelast]. equation_run. Qed.
Lemma flux_run n : runs n [valve_flux] ("mix_rho" :: valve_attrs) ("mix_rho" :: valve_attrs) flux_list.
Proof.
  assert (HD : forall a, In a ("mix_rho" :: valve_attrs) -> units a <> None) by (intros a [<-|H]; [discriminate|now apply valve_known]).
  assert (HI := incl_refl ("mix_rho" :: valve_attrs)). unfold valve_flux, flux_list. equation_run.
Qed.

Ltac split_or H := repeat match type of H with _ \/ _ => destruct H as [H|H] end; try contradiction.

Lemma valve_list_means r v : v "mix_rho" = r ->
  (forall n E, In (n, E) (flux_list ++ valve_list) -> evalue v E = Some 0%R) <-> valve_means r v.
Proof.
  intros <-. unfold valve_means, conserves. split.
  - intros H.
    assert (H0 := H _ _ (or_introl eq_refl)).
    assert (H1 := H _ _ (or_intror (or_introl eq_refl))).
    assert (H2 := H _ _ (or_intror (or_intror (or_introl eq_refl)))).
    assert (H3 := H _ _ (or_intror (or_intror (or_intror (or_introl eq_refl))))).
    assert (H4 := H _ _ (or_intror (or_intror (or_intror (or_intror (or_introl eq_refl)))))).
    assert (H5 := H _ _ (or_intror (or_intror (or_intror (or_intror (or_intror (or_introl eq_refl))))))).
    clear H. simpl in *. injection H1 as H1. injection H2 as H2. injection H3 as H3. injection H4 as H4. injection H5 as H5.
    destruct (Req_EM_T (v "mix_rho") 0) as [|Hr]; [discriminate|]. injection H0 as H0.
    repeat split; try exact Hr; lra.
  - intros [[A B] [C [D [E [F G]]]]] n e H. simpl in H.
    split_or H; injection H as <- <-; simpl; try (f_equal; lra).
    destruct (Req_EM_T (v "mix_rho") 0) as [|Hr]; [contradiction|]. f_equal. lra.
Qed.

Lemma worth_value w en v a x : agrees w en v -> is_worth w a x -> num_value x = Some (v a).
Proof. intros A [q [Q1 [Q2 <-]]]. now apply (A a q Q1). Qed.

Lemma worth_kept w w' a x : quantity w' a = quantity w a -> is_worth w a x -> is_worth w' a x.
Proof. intros E [q [Q1 Q]]. exists q. now rewrite E. Qed.

Lemma valve_works lib h u name k c rho r : (k_number k < 2)%Z -> k_star k = Ok c -> l_rho lib c = Some rho -> num_value rho = Some r ->
  exists w1, run_script (mkW h u (new_model name)) (valve_init (Some k)) = (w1, Ok tt) /\
  forall l, Forall is_setting l -> exists w3, run_script (settle w1 l) (valve_equations lib (Some k)) = (w3, Ok tt) /\
    forall en v, agrees w3 en v -> (solution (w_mod w3) en <-> valve_means r v).
Proof.
  intros Hk Hc Hr Hv. assert (Hlt : (2 <=? k_number k)%Z = false) by (apply Z.leb_gt; lia).
  destruct (valve_declared name _ (new_state h u name)) as [w1 [R1 [S1 E1]]].
  exists w1. split.
  { unfold run_script, valve_init, then_fractions. cbn [fst snd]. rewrite Hlt, app_nil_r, R1. reflexivity. }
  intros l Hl. destruct (settle_state units l w1 name _ Hl S1) as [S2 [M2 _]].
  destruct (valve_run name _ S2) as [w3 [R3 X3]].
  destruct (runs_known units name (par "mix_rho" u_density) "mix_rho" u_density rho valve_attrs w3) as [w4 [R4 [X4 W4]]];
    [cbn; auto|reflexivity|fresh_name|exact (ex_state _ _ _ _ _ _ _ X3)|].
  destruct (flux_run name w4 (ex_state _ _ _ _ _ _ _ X4)) as [w5 [R5 X5]].
  exists w5. split.
  - unfold run_script, valve_equations, valve_rho. rewrite Hlt, Hc. unfold set_property, then_script, phase_eqs. rewrite Hr, Hlt. cbn [fst snd].
    change valve_balances with (removelast valve_balances ++ [par "mix_rho" u_density]). rewrite <- !app_assoc.
    rewrite (run_cmds_app _ _ _ _ R3). change ([par "mix_rho" u_density] ++ [CSet "mix_rho" (SANum rho) None] ++ [valve_flux])
      with ([par "mix_rho" u_density; CSet "mix_rho" (SANum rho) None] ++ [valve_flux]).
    rewrite (run_cmds_app _ _ _ _ R4), R5. reflexivity.
  - intros en v A.
    assert (V : v "mix_rho" = r).
    { assert (G := worth_value w5 en v "mix_rho" rho A (worth_kept _ _ _ _ (ex_known _ _ _ _ _ _ _ X5 "mix_rho" (or_introl eq_refl)) W4)). congruence. }
    rewrite <- (valve_list_means r v V). apply eqs_solution.
    pose proof (extends_trans _ _ _ _ _ _ _ _ _ _ (extends_trans _ _ _ _ _ _ _ _ _ _ X3 X4) X5) as X.
    rewrite <- (app_nil_r (flux_list ++ valve_list)). apply (ex_eqs _ _ _ _ _ _ _ X).
    + intros a _ q Hq. exact (A a q Hq).
    + rewrite app_nil_r. unfold flux_list, valve_list. cbn [app]. functional_list.
    + apply new_eqs. now rewrite M2.
Qed.

(** ** Heater with one phase *)
Definition heater_attrs : list string :=
  ["cp_mix"; "T_out"; "T_in"; "Q"; "H_out"; "H_in"; "Delta_P"; "P_out"; "P_in"; "mdot_out"; "mdot_in"; "ndot_out"; "ndot_in"].
Lemma heater_declared n : declared_by n heater_vars [] heater_attrs.
Proof. unfold heater_vars. declare_all. Qed.
Lemma heater_known : forall a, In a heater_attrs -> units a <> None.
Proof. intros a H. simpl in H. intuition (subst a; discriminate). Qed.

Definition heater_list : list (string * uexpr string) :=
  [("temperature_balance", minus (minus (UQty "T_out") (UQty "T_in")) (over (UQty "Q") (times (UQty "mdot_out") (UQty "cp_mix"))));
   ("energy_balance", minus (minus (times (UQty "ndot_out") (UQty "H_out")) (times (UQty "ndot_in") (UQty "H_in"))) (UQty "Q"));
   ("mechanical_equilibrium", plus (minus (UQty "P_out") (UQty "P_in")) (UQty "Delta_P"));
   ("mass_conservation", minus (UQty "mdot_in") (UQty "mdot_out"));
   ("molar_conservation", minus (UQty "ndot_in") (UQty "ndot_out"))].

Lemma heater_run n : runs n heater_balances heater_attrs heater_attrs heater_list.
Proof. assert (HD := heater_known). assert (HI := incl_refl heater_attrs). unfold heater_balances, heater_list. equation_run. Qed.

Lemma heater_list_means v : (forall n E, In (n, E) heater_list -> evalue v E = Some 0%R) <-> heater_means v.
Proof.
  unfold heater_means, conserves. split.
  - intros H.
    assert (H0 := H _ _ (or_introl eq_refl)).
    assert (H1 := H _ _ (or_intror (or_introl eq_refl))).
    assert (H2 := H _ _ (or_intror (or_intror (or_introl eq_refl)))).
    assert (H3 := H _ _ (or_intror (or_intror (or_intror (or_introl eq_refl))))).
    assert (H4 := H _ _ (or_intror (or_intror (or_intror (or_intror (or_introl eq_refl)))))).
    clear H. simpl in *. injection H1 as H1. injection H2 as H2. injection H3 as H3. injection H4 as H4.
    destruct (Req_EM_T (v "mdot_out" * v "cp_mix") 0) as [|Hr]; [discriminate|]. injection H0 as H0.
    repeat split; try exact Hr; try lra.
    replace (v "T_out" - v "T_in")%R with (v "Q" / (v "mdot_out" * v "cp_mix"))%R by lra. field.
    split; intros G; apply Hr; rewrite G; lra.
  - intros [[A B] [C [D [E F]]]] n e H. simpl in H.
    split_or H; injection H as <- <-; simpl; try (f_equal; lra).
    destruct (Req_EM_T (v "mdot_out" * v "cp_mix") 0) as [|Hr]; [contradiction|]. f_equal.
    rewrite F. field. split; intros G; apply Hr; rewrite G; lra.
Qed.

Lemma heater_works lib h u name k c cp : (k_number k < 2)%Z -> k_star k = Ok c -> l_Cp lib c = Some cp ->
  exists w1, run_script (mkW h u (new_model name)) (heater_init lib (Some k)) = (w1, Ok tt) /\
  forall l, Forall is_setting l -> exists w3, run_script (settle w1 l) (heater_equations (Some k)) = (w3, Ok tt) /\
    forall en v, agrees w3 en v -> (solution (w_mod w3) en <-> heater_means v) /\
      ((forall s, In s l -> target s <> "cp_mix") -> num_value cp = Some (v "cp_mix")).
Proof.
  intros Hk Hc Hcp. assert (Hlt : (2 <=? k_number k)%Z = false) by (apply Z.leb_gt; lia).
  destruct (heater_declared name _ (new_state h u name)) as [w0 [R0 [S0 E0]]].
  destruct (set_step units "cp_mix" cp w0 name heater_attrs (or_introl eq_refl) S0) as [w1 [R1 [S1 [M1 [_ [q [Q1 [Q2 [Q3 _]]]]]]]]].
  exists w1. split.
  { unfold run_script, heater_init. rewrite Hlt, Hc. unfold set_property. rewrite Hcp. unfold then_script. cbn [fst snd].
    rewrite (run_cmds_app _ _ _ _ R0). cbn [run_cmds]. rewrite R1. reflexivity. }
  intros l Hl.
  assert (E1 : m_eqs (w_mod w1) = []) by now rewrite M1.
  destruct (finish name w1 _ l _ _ _ S1 E1 Hl (heater_run name)) as [w3 [R3 [_ [K3 M3]]]].
  { unfold heater_list. functional_list. }
  exists w3. split.
  { unfold run_script, heater_equations, phase_eqs. rewrite Hlt. cbn [fst snd app]. now rewrite R3. }
  intros en v A. split; [rewrite (M3 en v A); apply heater_list_means|].
  intros Hs. destruct (settle_state units l w1 name _ Hl S1) as [_ [_ Q]].
  apply (worth_value w3 en v "cp_mix" cp A). exists q. rewrite K3 by now left. rewrite Q; [auto|exact Hs|now left].
Qed.

(** ** Mixer *)
Lemma minus_one_value : num_value minus_one = Some (-1)%R.
Proof.
  replace minus_one with (PFloat (S754_finite true 4503599627370496 (-52))) by (vm_compute; reflexivity).
  unfold num_value, Flocq.IEEE754.BinarySingleNaN.SF2R, Flocq.Core.Defs.F2R. f_equal. simpl. lra.
Qed.

Lemma sum_unit : forall r E, eunit units E = Ok u_dimless -> (forall a, In a r -> units a = Some u_dimless) ->
  eunit units (fold_left (fun e b => plus e (UQty b)) r E) = Ok u_dimless.
Proof.
  induction r as [|b r IH]; intros E HE Hr; [exact HE|]. cbn [fold_left]. apply IH; [|intros a Ha; apply Hr; now right].
  cbn [plus eunit]. rewrite HE, (Hr b (or_introl eq_refl)). vm_compute. reflexivity.
Qed.
Lemma sum_atoms : forall r E a, In a (atoms (fold_left (fun e b => plus e (UQty b)) r E)) -> In a (atoms E) \/ In a r.
Proof.
  induction r as [|b r IH]; intros E a H; [now left|]. cbn [fold_left] in H. apply IH in H. cbn [plus atoms] in H.
  rewrite in_app_iff in H. simpl in *. tauto.
Qed.
Lemma sum_value v : forall r E x, evalue v E = Some x ->
  evalue v (fold_left (fun e b => plus e (UQty b)) r E) = Some (x + total (map v r))%R.
Proof.
  induction r as [|b r IH]; intros E x HE; cbn [fold_left map total fold_right].
  - rewrite HE. f_equal. unfold total. simpl. lra.
  - rewrite (IH _ (x + v b)%R); [f_equal; unfold total; simpl; lra|]. cbn [plus evalue]. now rewrite HE.
Qed.

Lemma sum_of_spec a r : (forall b, In b (a :: r) -> units b = Some u_dimless) ->
  exists e, sum_of (a :: r) = Some e /\ eunit units e = Ok u_dimless /\ incl (atoms e) (a :: r) /\
    forall v, evalue v e = Some (total (map v (a :: r)) - 1)%R.
Proof.
  intros H. eexists. split; [reflexivity|]. split; [|split].
  - apply sum_unit; [cbn [eunit]; now rewrite (H a (or_introl eq_refl))|intros b Hb; apply H; now right].
  - intros b Hb. apply sum_atoms in Hb. destruct Hb as [[<-|[]]|Hb]; [now left|now right].
  - intros v. rewrite (sum_value v r _ (-1 + v a)%R).
    + f_equal. unfold total. simpl. lra.
    + cbn [evalue]. rewrite minus_one_value. reflexivity.
Qed.

Lemma sums_run n p r D : (forall a, In a D -> units a <> None) ->
  (forall q, In q (p :: r) -> In (z_in q) D /\ In (w_in q) D /\ In (z_out q) D /\ In (w_out q) D) ->
  snd (mixer_sums (p :: r)) = None /\
  exists e1 e2 e3 e4, runs n (fst (mixer_sums (p :: r))) D D
      [("mass_frac_sum_out", e4); ("molar_frac_sum_out", e3); ("mass_frac_sum_in", e2); ("molar_frac_sum_in", e1)] /\
    forall v, (evalue v e1 = Some 0%R /\ evalue v e2 = Some 0%R /\ evalue v e3 = Some 0%R /\ evalue v e4 = Some 0%R) <->
              whole_fractions (p :: r) v.
Proof.
  intros HD Hin. unfold mixer_sums. cbn [map].
  destruct (sum_of_spec (z_in p) (map z_in r)) as (e1 & G1 & U1 & A1 & V1).
  { intros b Hb. change (In b (map z_in (p :: r))) in Hb. apply in_map_iff in Hb. destruct Hb as [q [<- _]]. reflexivity. }
  destruct (sum_of_spec (w_in p) (map w_in r)) as (e2 & G2 & U2 & A2 & V2).
  { intros b Hb. change (In b (map w_in (p :: r))) in Hb. apply in_map_iff in Hb. destruct Hb as [q [<- _]]. reflexivity. }
  destruct (sum_of_spec (z_out p) (map z_out r)) as (e3 & G3 & U3 & A3 & V3).
  { intros b Hb. change (In b (map z_out (p :: r))) in Hb. apply in_map_iff in Hb. destruct Hb as [q [<- _]]. reflexivity. }
  destruct (sum_of_spec (w_out p) (map w_out r)) as (e4 & G4 & U4 & A4 & V4).
  { intros b Hb. change (In b (map w_out (p :: r))) in Hb. apply in_map_iff in Hb. destruct Hb as [q [<- _]]. reflexivity. }
  rewrite G1, G2, G3, G4. split; [reflexivity|]. exists e1, e2, e3, e4. split.
  - cbn [fst]. apply runs_cons with (D1 := D) (L1 := [("molar_frac_sum_in", e1)])
      (L2 := [("mass_frac_sum_out", e4); ("molar_frac_sum_out", e3); ("mass_frac_sum_in", e2)]);
      [|apply runs_cons with (D1 := D) (L1 := [("mass_frac_sum_in", e2)]) (L2 := [("mass_frac_sum_out", e4); ("molar_frac_sum_out", e3)]);
        [|apply runs_cons with (D1 := D) (L1 := [("molar_frac_sum_out", e3)]) (L2 := [("mass_frac_sum_out", e4)])]].
    + apply runs_equation with u_dimless; [discriminate|reflexivity|exact HD| |exact U1]. intros a Ha. apply A1 in Ha.
      change (In a (map z_in (p :: r))) in Ha. apply in_map_iff in Ha. destruct Ha as [q [<- Hq]]. now apply Hin.
    + apply runs_equation with u_dimless; [discriminate|reflexivity|exact HD| |exact U2]. intros a Ha. apply A2 in Ha.
      change (In a (map w_in (p :: r))) in Ha. apply in_map_iff in Ha. destruct Ha as [q [<- Hq]]. now apply Hin.
    + apply runs_equation with u_dimless; [discriminate|reflexivity|exact HD| |exact U3]. intros a Ha. apply A3 in Ha.
      change (In a (map z_out (p :: r))) in Ha. apply in_map_iff in Ha. destruct Ha as [q [<- Hq]]. now apply Hin.
    + apply runs_equation with u_dimless; [discriminate|reflexivity|exact HD| |exact U4]. intros a Ha. apply A4 in Ha.
      change (In a (map w_out (p :: r))) in Ha. apply in_map_iff in Ha. destruct Ha as [q [<- Hq]]. now apply Hin.
  - intros v. rewrite V1, V2, V3, V4, !zero_difference. unfold whole_fractions. cbn [map]. rewrite !map_map. reflexivity.
Qed.

Definition flows_list : list (string * uexpr string) :=
  [("mass_conservation", minus (UQty "mdot_in") (UQty "mdot_out")); ("molar_conservation", minus (UQty "ndot_in") (UQty "ndot_out"))].
Definition flows_attrs : list string := ["mdot_out"; "mdot_in"; "ndot_out"; "ndot_in"].
Definition rest_list : list (string * uexpr string) :=
  [("energy_balance", minus (times (UQty "ndot_out") (UQty "H_out")) (times (UQty "ndot_in") (UQty "H_in")));
   ("mechanical_equilibrium", minus (UQty "P_out") (UQty "P_in"));
   ("thermal_equilibrium", minus (UQty "T_out") (UQty "T_in"))].
Definition rest_attrs : list string := ["H_out"; "H_in"; "P_out"; "P_in"; "T_out"; "T_in"] ++ flows_attrs.

Lemma known_app A D : forallb (fun a => match units a with Some _ => true | None => false end) A = true ->
  (forall a, In a D -> fraction_name a = true) -> forall a, In a (A ++ D) -> units a <> None.
Proof.
  intros H HD a Ha. apply in_app_or in Ha. destruct Ha as [Ha|Ha].
  - rewrite forallb_forall in H. apply H in Ha. destruct (units a); [discriminate|discriminate Ha].
  - apply HD in Ha. unfold units. now rewrite Ha.
Qed.

Lemma fresh_app a A D : existsb (String.eqb a) A = false -> fraction_name a = false ->
  (forall b, In b D -> fraction_name b = true) -> ~ In a (A ++ D).
Proof.
  intros H F HD Ha. apply in_app_or in Ha. destruct Ha as [Ha|Ha]; [|apply HD in Ha; congruence].
  assert (existsb (String.eqb a) A = true) by (apply existsb_exists; exists a; split; [exact Ha|apply String.eqb_refl]). congruence.
Qed.

Lemma runs_fresh n c a u A D : declares c a u -> units a = Some u -> existsb (String.eqb a) A = false -> fraction_name a = false ->
  (forall b, In b D -> fraction_name b = true) -> runs n [c] (A ++ D) ((a :: A) ++ D) [].
Proof. intros H1 H2 H3 H4 H5. apply runs_declare with u; [exact H1|exact H2|now apply fresh_app]. Qed.

Lemma runs_equation_at n name E u A D : name <> "" -> units name = None ->
  forallb (fun a => match units a with Some _ => true | None => false end) A = true ->
  forallb (fun a => existsb (String.eqb a) A) (atoms E) = true -> eunit units E = Ok u ->
  (forall b, In b D -> fraction_name b = true) -> runs n [eqc name E] (A ++ D) (A ++ D) [(name, E)].
Proof.
  intros H1 H2 H3 H4 H5 H6. apply runs_equation_in with u A; try assumption; [now apply known_app|].
  intros a Ha. apply in_or_app. now left.
Qed.

Ltac mixed_run := eapply runs_eq; [repeat (eapply runs_cons;
    [first [eapply runs_fresh; [cbn; repeat split; auto|reflexivity|reflexivity|reflexivity|eassumption]
           |eapply runs_equation_at; [discriminate|reflexivity|reflexivity|reflexivity|unit_ok|eassumption]]|]); apply runs_nil|reflexivity].

Lemma flows_run n D : (forall b, In b D -> fraction_name b = true) -> runs n mixer_flows D (flows_attrs ++ D) flows_list.
Proof. intros HD. change D with ([] ++ D) at 1. unfold mixer_flows. mixed_run. Qed.
Lemma rest_run n D : (forall b, In b D -> fraction_name b = true) -> runs n mixer_rest (flows_attrs ++ D) (rest_attrs ++ D) rest_list.
Proof. intros HD. unfold mixer_rest. mixed_run. Qed.

Lemma mixer_list_means v : (forall n E, In (n, E) (rest_list ++ flows_list) -> evalue v E = Some 0%R) <-> mixer_means v.
Proof.
  unfold mixer_means, conserves. split.
  - intros H.
    assert (H0 := H _ _ (or_introl eq_refl)).
    assert (H1 := H _ _ (or_intror (or_introl eq_refl))).
    assert (H2 := H _ _ (or_intror (or_intror (or_introl eq_refl)))).
    assert (H3 := H _ _ (or_intror (or_intror (or_intror (or_introl eq_refl))))).
    assert (H4 := H _ _ (or_intror (or_intror (or_intror (or_intror (or_introl eq_refl)))))).
    clear H. simpl in *. injection H0 as H0. injection H1 as H1. injection H2 as H2. injection H3 as H3. injection H4 as H4.
    repeat split; lra.
  - intros [[A B] [C [D E]]] n e H. simpl in H.
    split_or H; injection H as <- <-; simpl; f_equal; lra.
Qed.

Definition mixer_molar (p : string) := ("molar_conservation_for_" ++ p)%string.
Definition mixer_mass (p : string) := ("mass_conservation_for_" ++ p)%string.

Lemma in_removelast {A} (l : list A) x : In x (removelast l) -> In x l.
Proof.
  induction l as [|a l IH]; [intros []|]. destruct l as [|b l]; [intros []|]. intros [H|H]; [now left|right; now apply IH].
Qed.

Lemma mixer_phase_run n ps D : (forall b, In b D -> fraction_name b = true) ->
  (forall q, In q ps -> In (z_in q) D /\ In (w_in q) D /\ In (z_out q) D /\ In (w_out q) D) ->
  exists L, runs n (flat_map mixer_phase ps) (flows_attrs ++ D) (flows_attrs ++ D) L /\
    forall x, In x L <-> In x (flat_map (difference_list mixer_molar mixer_mass) ps).
Proof.
  intros HD Hin. change mixer_phase with (difference_eqs mixer_molar mixer_mass).
  apply difference_runs; [intros p; split; [reflexivity|discriminate]..|now apply known_app|].
  intros p Hp. destruct (Hin p Hp) as (A & B & C & E). repeat split; apply in_or_app; now right.
Qed.

Lemma functional_incl (L L' : list (string * uexpr string)) : incl L L' -> functional L' -> functional L.
Proof. intros I F n E E' H H'. apply (F n); now apply I. Qed.

Lemma with_fractions_names ps a : In a (with_fractions ps []) -> fraction_name a = true.
Proof. intros H. apply in_with_fractions in H. destruct H as [[]|[p [_ [->|[->|[->| ->]]]]]]; reflexivity. Qed.

Definition mixed (k : pack) : list string := if many (k_names k) then k_names k else [].
Definition summed (k : pack) : bool := (2 <=? k_number k)%Z.

(** What the fractions have to satisfy. *)
Definition mixer_fractions (k : pack) (v : string -> R) : Prop :=
  same_fractions (removelast (mixed k)) v /\ (summed k = true -> whole_fractions (k_names k) v).

Lemma mixer_after n w1 L0 D l : state w1 n D -> all_unset w1 -> Forall is_setting l ->
  (forall en v, (forall a, In a D -> tells w1 en v a) -> eqs_are w1 en v L0) ->
  forall en v, agrees (settle w1 l) en v ->
    (solution (w_mod (settle w1 l)) en <-> forall k E, In (k, E) L0 -> evalue v E = Some 0%R).
Proof.
  intros S N Hl H en v A. destruct (settle_state units l w1 n D Hl S) as [S2 [M2 _]]. rewrite M2. apply eqs_solution, H.
  intros a Ha q Hq. split; [|rewrite (N a q Hq); discriminate].
  destruct (has_quantity units _ a (st_has _ _ _ _ S a Ha)) as [q1 [Q1 N1]].
  destruct (has_quantity units _ a (st_has _ _ _ _ S2 a Ha)) as [q2 [Q2 N2]].
  destruct (A a q2 Q2) as [V _]. replace q with q1 by congruence. rewrite N1, V, N2, M2. reflexivity.
Qed.

Lemma Forall_flat_map {A B} (P : B -> Prop) (f : A -> list B) l : (forall a, Forall P (f a)) -> Forall P (flat_map f l).
Proof. intros H. induction l as [|a l IH]; [constructor|]. simpl. apply Forall_app. auto. Qed.

Lemma unset_new h u name : all_unset (mkW h u (new_model name)).
Proof. intros a q H. discriminate. Qed.

Lemma own_names w n D : state w n D -> all_unset w -> forall a q, quantity w a = Some q -> q_name q = full_name a n /\ q_spec q = false.
Proof.
  intros S N a q Hq. split; [|exact (N a q Hq)].
  assert (In a D).
  { unfold quantity, attr_qty in Hq. destruct (dget a (m_attrs (w_mod w))) as [[l|]|] eqn:A; try discriminate. exact (st_only _ _ _ _ S a l A). }
  destruct (has_quantity units w a (st_has _ _ _ _ S a H)) as [q' [Q N']]. rewrite (st_name _ _ _ _ S) in N'. congruence.
Qed.

Lemma mixer_works h u name k : (summed k = true -> many (k_names k) = true) ->
  exists w1, run_script (mkW h u (new_model name)) (mixer_init (Some k)) = (w1, Ok tt) /\
  (forall a q, quantity w1 a = Some q -> q_name q = full_name a name /\ q_spec q = false) /\
  forall l, Forall is_setting l -> forall en v, agrees (settle w1 l) en v ->
    (solution (w_mod (settle w1 l)) en <-> mixer_means v /\ mixer_fractions k v).
Proof.
  intros Hs.
  set (D := with_fractions (mixed k) []).
  assert (HD : forall b, In b D -> fraction_name b = true) by (intros b; apply with_fractions_names).
  assert (Hin : forall q, In q (mixed k) -> In (z_in q) D /\ In (w_in q) D /\ In (z_out q) D /\ In (w_out q) D).
  { intros q Hq. unfold D. rewrite !in_with_fractions. repeat split; right; exists q; tauto. }
  destruct (fractions_declared name (mixed k) [] _ (new_state h u name)) as [w0 [R0 [S0 E0]]]. fold D in S0.
  assert (RF := flows_run name D HD). assert (RR := rest_run name D HD).
  destruct (mixer_phase_run name (removelast (mixed k)) D HD) as [LP [RP IP]].
  { intros q Hq. apply Hin. now apply in_removelast. }
  assert (Fr : (if many (k_names k) then fractions (k_names k) else []) = fractions (mixed k)).
  { unfold mixed. now destruct (many (k_names k)). }
  assert (Ph : (if many (k_names k) then flat_map mixer_phase (removelast (k_names k)) else []) = flat_map mixer_phase (removelast (mixed k))).
  { unfold mixed. now destruct (many (k_names k)). }
  assert (Nothing1 : Forall sets_nothing (fractions (mixed k))) by (apply Forall_flat_map; intros p; repeat constructor).
  assert (Nothing2 : Forall sets_nothing mixer_flows) by repeat constructor.
  assert (Nothing3 : Forall sets_nothing (flat_map mixer_phase (removelast (mixed k)))) by (apply Forall_flat_map; intros p; repeat constructor).
  assert (Nothing4 : Forall sets_nothing mixer_rest) by repeat constructor.
  assert (Names : functional (LP ++ rest_list ++ flows_list)).
  { apply functional_app_base with (f := mixer_molar) (g := mixer_mass) (ps := removelast (mixed k));
      [unfold rest_list, flows_list; cbn [app]; functional_list|exact IP|apply append_inj|apply append_inj|discriminate|
       unfold rest_list, flows_list; cbn [app]; other_names]. }
  assert (MP : forall v, (forall n E, In (n, E) LP -> evalue v E = Some 0%R) <-> same_fractions (removelast (mixed k)) v).
  { intros v. rewrite <- (difference_means mixer_molar mixer_mass). split; intros H n E HE; apply (H n E); now apply IP. }
  destruct (summed k) eqn:Hsum.
  - (* sums of fractions *)
    specialize (Hs eq_refl). assert (Hm : mixed k = k_names k) by (unfold mixed; now rewrite Hs).
    destruct (k_names k) as [|p r] eqn:Hk; [discriminate|].
    destruct (sums_run name p r (flows_attrs ++ D)) as [Hn (e1 & e2 & e3 & e4 & RS & MS)].
    { now apply known_app. }
    { intros q Hq. rewrite <- Hm in Hq. destruct (Hin q Hq) as (A & B & C & E). repeat split; apply in_or_app; now right. }
    set (LS := [("mass_frac_sum_out", e4); ("molar_frac_sum_out", e3); ("mass_frac_sum_in", e2); ("molar_frac_sum_in", e1)]) in *.
    destruct (runs_app units name _ _ _ _ _ _ _ RF (runs_app units name _ _ _ _ _ _ _ RS (runs_app units name _ _ _ _ _ _ _ RP RR)) w0 S0)
      as [w1 [R1 X1]].
    assert (Run : run_cmds (mkW h u (new_model name))
              ((fractions (mixed k) ++ mixer_flows) ++ fst (mixer_sums (p :: r)) ++ flat_map mixer_phase (removelast (mixed k)) ++ mixer_rest) = (w1, Ok tt)).
    { rewrite <- app_assoc, (run_cmds_app _ _ _ _ R0). exact R1. }
    exists w1. split.
    + unfold run_script, mixer_init. rewrite Hk, Fr, Ph. unfold summed in Hsum. rewrite Hsum, Hn. cbn [fst snd].
      rewrite Run. reflexivity.
    + assert (S1 := ex_state _ _ _ _ _ _ _ X1).
      assert (N1 : all_unset w1).
      { refine (unset_run _ _ _ _ (unset_new h u name) Run). repeat (apply Forall_app; split; auto).
        unfold mixer_sums. cbn [map sum_of fst]. repeat constructor. }
      split; [now apply own_names with (rest_attrs ++ D)|]. intros l Hl.
      intros en v A. assert (K : forall en v, (forall a, In a (rest_attrs ++ D) -> tells w1 en v a) -> eqs_are w1 en v (((rest_list ++ LP) ++ LS) ++ flows_list));
        [|rewrite (mixer_after name w1 (((rest_list ++ LP) ++ LS) ++ flows_list) _ l S1 N1 Hl K en v A)].
      * intros en' v' T. rewrite <- (app_nil_r (_ ++ flows_list)). apply (ex_eqs _ _ _ _ _ _ _ X1); [exact T| |].
        -- rewrite app_nil_r. apply functional_incl with (LP ++ LS ++ rest_list ++ flows_list).
           { intros x. rewrite !in_app_iff. tauto. }
           apply functional_app_base with (f := mixer_molar) (g := mixer_mass) (ps := removelast (mixed k));
             [unfold LS, rest_list, flows_list; cbn [app]; functional_list|exact IP|apply append_inj|apply append_inj|discriminate|
              unfold LS, rest_list, flows_list; cbn [app]; other_names].
        -- apply new_eqs. now rewrite E0.
      * rewrite !all_app, <- (mixer_list_means v), all_app, MP. unfold mixer_fractions. rewrite Hsum, Hk, <- MS.
        assert (G : (forall n E, In (n, E) LS -> evalue v E = Some 0%R) <->
          evalue v e1 = Some 0%R /\ evalue v e2 = Some 0%R /\ evalue v e3 = Some 0%R /\ evalue v e4 = Some 0%R).
        { unfold LS. split.
          - intros H. repeat split; eapply H; simpl; eauto.
          - intros (H1 & H2 & H3 & H4) n E H. simpl in H. split_or H; injection H as <- <-; assumption. }
        rewrite G. tauto.
  - destruct (runs_app units name _ _ _ _ _ _ _ RF (runs_app units name _ _ _ _ _ _ _ RP RR) w0 S0) as [w1 [R1 X1]].
    assert (Run : run_cmds (mkW h u (new_model name))
              ((fractions (mixed k) ++ mixer_flows) ++ flat_map mixer_phase (removelast (mixed k)) ++ mixer_rest) = (w1, Ok tt)).
    { rewrite <- app_assoc, (run_cmds_app _ _ _ _ R0). exact R1. }
    exists w1. split.
    + unfold run_script, mixer_init. rewrite Fr, Ph. unfold summed in Hsum. rewrite Hsum. cbn [fst snd]. rewrite Run. reflexivity.
    + assert (S1 := ex_state _ _ _ _ _ _ _ X1).
      assert (N1 : all_unset w1).
      { refine (unset_run _ _ _ _ (unset_new h u name) Run). repeat (apply Forall_app; split; auto). }
      split; [now apply own_names with (rest_attrs ++ D)|]. intros l Hl.
      intros en v A. assert (K : forall en v, (forall a, In a (rest_attrs ++ D) -> tells w1 en v a) -> eqs_are w1 en v ((rest_list ++ LP) ++ flows_list));
        [|rewrite (mixer_after name w1 ((rest_list ++ LP) ++ flows_list) _ l S1 N1 Hl K en v A)].
      * intros en' v' T. rewrite <- (app_nil_r (_ ++ flows_list)). apply (ex_eqs _ _ _ _ _ _ _ X1); [exact T| |].
        -- rewrite app_nil_r. apply functional_incl with (2 := Names). intros x. rewrite !in_app_iff. tauto.
        -- apply new_eqs. now rewrite E0.
      * rewrite !all_app, <- (mixer_list_means v), all_app, MP. unfold mixer_fractions. rewrite Hsum.
        assert (G : (false = true -> whole_fractions (k_names k) v) <-> True) by (split; [auto|discriminate]). rewrite G. tauto.
Qed.

(** Fractions that add up to one on both sides and agree but for the last phase
    agree. *)
Lemma total_app a b : total (a ++ b) = (total a + total b)%R.
Proof. induction a as [|x a IH]; unfold total in *; simpl; [lra|rewrite IH; lra]. Qed.

Lemma last_fraction {A} (f g : A -> R) l : total (map f l) = 1%R -> total (map g l) = 1%R ->
  (forall p, In p (removelast l) -> f p = g p) -> forall p, In p l -> f p = g p.
Proof.
  intros Hf Hg H p Hp. destruct l as [|a l]; [destruct Hp|].
  assert (NE : a :: l <> []) by discriminate.
  rewrite (app_removelast_last a NE) in *. set (r := removelast (a :: l)) in *. set (z := last (a :: l) a) in *.
  apply in_app_or in Hp. destruct Hp as [Hp|[<-|[]]].
  - apply H. rewrite removelast_app by discriminate. simpl. now rewrite app_nil_r.
  - rewrite removelast_app, app_nil_r in H by discriminate. rewrite map_app, total_app in Hf, Hg.
    rewrite (map_ext_in f g r) in Hf by exact H. unfold total in *. simpl in *. lra.
Qed.

Lemma whole_same ps v : whole_fractions ps v -> same_fractions (removelast ps) v -> same_fractions ps v.
Proof.
  intros (A & B & C & D) H p Hp. split.
  - refine (last_fraction (fun p => v (z_out p)) (fun p => v (z_in p)) ps C A _ p Hp). intros q Hq. now apply H.
  - refine (last_fraction (fun p => v (w_out p)) (fun p => v (w_in p)) ps D B _ p Hp). intros q Hq. now apply H.
Qed.

(** A mixer of a single phase, and of several. *)
Lemma mixer_single h u name k : (k_number k < 2)%Z -> (List.length (k_names k) <= 1)%nat ->
  exists w1, run_script (mkW h u (new_model name)) (mixer_init (Some k)) = (w1, Ok tt) /\
  forall l, Forall is_setting l -> forall en v, agrees (settle w1 l) en v ->
    (solution (w_mod (settle w1 l)) en <-> mixer_means v).
Proof.
  intros Hk Hn. assert (Hs : summed k = false) by (apply Z.leb_gt; lia).
  assert (Hm : mixed k = []) by (unfold mixed, many; rewrite (proj2 (Nat.ltb_ge _ _)) by exact Hn; reflexivity).
  destruct (mixer_works h u name k) as [w1 [R [_ M]]]; [congruence|]. exists w1. split; [exact R|].
  intros l Hl en v A. rewrite (M l Hl en v A). unfold mixer_fractions. rewrite Hs, Hm. split; [tauto|]. intros H. split; [exact H|].
  split; [intros p []|discriminate].
Qed.

Lemma mixer_several h u name k : (2 <= k_number k)%Z -> (2 <= List.length (k_names k))%nat ->
  exists w1, run_script (mkW h u (new_model name)) (mixer_init (Some k)) = (w1, Ok tt) /\
  forall l, Forall is_setting l -> forall en v, agrees (settle w1 l) en v ->
    (solution (w_mod (settle w1 l)) en <-> mixer_means v /\ whole_fractions (k_names k) v /\ same_fractions (k_names k) v).
Proof.
  intros Hk Hn. assert (Hs : summed k = true) by (apply Z.leb_le; lia).
  assert (Hy : many (k_names k) = true) by (apply Nat.ltb_lt; lia).
  assert (Hm : mixed k = k_names k) by (unfold mixed; now rewrite Hy).
  destruct (mixer_works h u name k) as [w1 [R [_ M]]]; [auto|]. exists w1. split; [exact R|].
  intros l Hl en v A. rewrite (M l Hl en v A). unfold mixer_fractions. rewrite Hs, Hm. split.
  - intros [X [Y Z]]. specialize (Z eq_refl). split; [exact X|]. split; [exact Z|]. now apply whole_same.
  - intros [X [Y Z]]. split; [exact X|]. split; [|auto]. intros p Hp. apply Z. now apply in_removelast.
Qed.

(** More names than the number of phases says: the fractions of the last one are
    free. *)
Lemma mixer_free_last : exists k w1 en v, k_number k = 1%Z /\ k_names k = ["water"; "oil"] /\
  run_script (mkW [] (fun _ => 0%nat) (new_model "M")) (mixer_init (Some k)) = (w1, Ok tt) /\
  agrees w1 en v /\ solution (w_mod w1) en /\ v "z_oil_out" <> v "z_oil_in" /\ v "w_oil_out" <> v "w_oil_in".
Proof.
  set (k := mkPack 1 ["water"; "oil"] (Raise EIndex)).
  destruct (mixer_works [] (fun _ => 0%nat) "M" k) as [w1 [R [N M]]]; [discriminate|].
  set (f := fun x => if (String.eqb x "z_oil_out_M" || String.eqb x "w_oil_out_M")%bool then 1%R else 0%R).
  set (en := mkEnv f (fun _ _ => 0%R)). set (v := fun a => f (full_name a "M")).
  exists k, w1, en, v. split; [reflexivity|]. split; [reflexivity|]. split; [exact R|].
  assert (A : agrees w1 en v).
  { intros a q Hq. destruct (N a q Hq) as [-> Hs]. rewrite Hs. split; [reflexivity|discriminate]. }
  split; [exact A|]. split.
  - apply (M [] (Forall_nil _) en v A). split.
    + unfold mixer_means, conserves, v, f. cbn. repeat split; lra.
    + split; [|discriminate]. intros p [<-|[]]. split; reflexivity.
  - unfold v, f. cbn. split; lra.
Qed.

(** What always raises. *)
Lemma script_raises w cs x : snd (run_script w (cs, Some x)) <> Ok tt.
Proof. unfold run_script. cbn [fst snd]. destruct (run_cmds w cs) as [w' [[]|]]; discriminate. Qed.

Lemma no_package lib w : snd (run_script w (mixer_init None)) <> Ok tt /\ snd (run_script w (valve_init None)) <> Ok tt /\
  snd (run_script w (pump_init None)) <> Ok tt /\ snd (run_script w (heater_init lib None)) <> Ok tt /\
  snd (run_script w (tank_init None)) <> Ok tt /\ snd (run_script w (multi_stream_init None)) <> Ok tt.
Proof. repeat split; apply script_raises. Qed.

Lemma no_package_equations lib w : snd (run_script w (valve_equations lib None)) <> Ok tt /\ snd (run_script w (pump_equations None)) <> Ok tt /\
  snd (run_script w (heater_equations None)) <> Ok tt /\ snd (run_script w (flash_dynamic_equations None)) <> Ok tt /\
  snd (run_script w (flash_steady_equations None)) <> Ok tt.
Proof. repeat split; apply script_raises. Qed.

Lemma valve_multi lib w k : (2 <= k_number k)%Z -> k_names k <> [] -> snd (run_script w (valve_equations lib (Some k))) <> Ok tt.
Proof.
  intros Hk Hn. unfold valve_equations, valve_rho. apply Z.leb_le in Hk. rewrite Hk. destruct (k_names k) as [|p r]; [contradiction|].
  unfold then_script. cbn [fst snd]. apply script_raises.
Qed.

Lemma heater_multi lib w k : (2 <= k_number k)%Z -> snd (run_script w (heater_init lib (Some k))) <> Ok tt.
Proof. intros Hk. unfold heater_init. apply Z.leb_le in Hk. rewrite Hk. apply script_raises. Qed.

Lemma tank_flash w k : snd (run_script w tank_equations) <> Ok tt /\ snd (run_script w (flash_dynamic_equations k)) <> Ok tt /\
  snd (run_script w (flash_steady_equations k)) <> Ok tt.
Proof. repeat split; [|destruct k..]; apply script_raises. Qed.

(** Inlets. *)
Lemma calls_nodes h a : forall ss os, calls_of h a ss = Ok os -> List.length os = List.length ss /\ forallb is_node_opd os = true.
Proof.
  induction ss as [|s r IH]; intros os H; simpl in H; [injection H as <-; auto|].
  destruct (attr_qty s a) as [l|]; [|discriminate]. simpl in H. destruct (build_qty h l) as [n|]; [|discriminate]. simpl in H.
  destruct (calls_of h a r) as [os'|]; [|discriminate]. injection H as <-. destruct (IH os' eq_refl) as [L F]. simpl. now rewrite L, F.
Qed.

Lemma totalize_raises w name a os : os <> [] -> forallb is_node_opd os = true -> snd (totalize w name a os) <> Ok tt.
Proof.
  intros Hn Hf. unfold totalize.
  assert (M : node_minmax false os = Raise EUnexpectedValue).
  { unfold node_minmax. rewrite Hf. destruct os as [|o r]; [contradiction|]. simpl in Hf. destruct o; try discriminate Hf. reflexivity. }
  destruct (attr_qty (w_mod w) a) as [l|]; [|discriminate]. cbn [rbind]. destruct (build_qty (w_heap w) l); [|discriminate].
  cbn [rbind]. rewrite M. discriminate.
Qed.

Lemma inlets_raise w ss : ss <> [] -> snd (totalize_inlets w ss) <> Ok tt.
Proof.
  intros Hs. unfold totalize_inlets. destruct (take_streams _ _ ss) as [[h m] [[]|x]]; [|discriminate]. cbn [then_do].
  set (w1 := mkW h _ m). destruct (calls_of (w_heap w1) "P" ss) as [ps|] eqn:C; [|discriminate]. cbn [then_do].
  apply calls_nodes in C. destruct C as [L F].
  destruct (fix_quantities w1 "eq_P_" "P" ss) as [w2 [[]|x]]; [|discriminate]. cbn [then_do].
  destruct (calls_of (w_heap w2) "T" ss) as [ts|]; [|discriminate].
  destruct (fix_quantities w2 "eq_T_" "T" ss) as [w3 [[]|x]]; [|discriminate]. cbn [then_do].
  assert (G := totalize_raises w3 "totalization_P" "P_in" ps).
  destruct (totalize w3 "totalization_P" "P_in" ps) as [w4 [[]|x]]; [|discriminate]. exfalso. apply G; auto.
  intros ->. destruct ss; [contradiction|discriminate].
Qed.

Lemma call_inlets_raises d w ss : ss <> [] -> snd (model_call_inlets d ss w) <> Ok tt.
Proof.
  intros Hs. unfold model_call_inlets. destruct (run_cmds w _) as [w1 [[]|]]; [|discriminate]. cbn [then_do].
  assert (G := inlets_raise w1 ss Hs). destruct ss as [|s r]; [contradiction|].
  destruct (totalize_inlets w1 (s :: r)) as [w2 [[]|]]; [exfalso; now apply G|discriminate].
Qed.

Lemma usable_units lib k c rho r cp :
  usable (pump_init (Some k)) (pump_equations (Some k)) /\
  ((k_number k < 2)%Z \/ (2 <= List.length (k_names k))%nat -> usable (mixer_init (Some k)) ([], None)) /\
  ((k_number k < 2)%Z -> k_star k = Ok c -> l_rho lib c = Some rho -> num_value rho = Some r ->
     usable (valve_init (Some k)) (valve_equations lib (Some k))) /\
  ((k_number k < 2)%Z -> k_star k = Ok c -> l_Cp lib c = Some cp -> usable (heater_init lib (Some k)) (heater_equations (Some k))).
Proof.
  split; [|split; [|split]].
  - intros h u name. destruct (pump_works h u name k) as [w1 [R H]]. exists w1. split; [exact R|]. intros l Hl.
    destruct (H l Hl) as [w3 [-> _]]. reflexivity.
  - intros Hk h u name. destruct (mixer_works h u name k) as [w1 [R _]].
    { intros Hs. apply Nat.ltb_lt. unfold summed in Hs. apply Z.leb_le in Hs. destruct Hk; lia. }
    exists w1. split; [exact R|]. intros l _. reflexivity.
  - intros H1 H2 H3 H4 h u name. destruct (valve_works lib h u name k c rho r H1 H2 H3 H4) as [w1 [R H]]. exists w1. split; [exact R|].
    intros l Hl. destruct (H l Hl) as [w3 [-> _]]. reflexivity.
  - intros H1 H2 H3 h u name. destruct (heater_works lib h u name k c cp H1 H2 H3) as [w1 [R H]]. exists w1. split; [exact R|].
    intros l Hl. destruct (H l Hl) as [w3 [-> _]]. reflexivity.
Qed.
