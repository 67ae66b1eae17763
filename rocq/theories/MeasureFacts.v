(** Proofs for SpecMeasure.v. *)
From Verif Require Import Base BaseFacts Num UnitModel Sympy Node Build EquationModel ModelModel PackageModel UnitOpModel SpecUnits SpecSi SpecUnitOps SpecMeasure QtyFacts.
From Coq Require Import Reals Lra Lia.
From Flocq Require Import Core BinarySingleNaN.
Notation num := Verif.Num.num.

Section Kept.
Variable P : string -> qty -> Prop.
Definition same_make (q q' : qty) : Prop :=
  q_units q' = q_units q /\ q_kind q' = q_kind q /\ q_exposed q' = q_exposed q /\ q_type q' = q_type q.
Hypothesis P_make : forall a q q', same_make q q' -> P a q -> P a q'.

Definition all_meet (w : mworld) : Prop := forall a l, dget a (m_attrs (w_mod w)) = Some (AQty l) -> exists q, hget (w_heap w) l = Some q /\ P a q.
Definition makes_meeting (c : cmd) : Prop :=
  match c with
  | CVar a n u ex ty v => forall name m, P a (mkQty KVariable name u v false m ex ty false)
  | CPar a n u v => forall name m, P a (mkQty KParameter name u v false m false "" false)
  | CCon a n u v => forall name m, P a (mkQty KConstant name u v false m false "" false)
  | _ => True
  end.

Lemma hget_grown (h : heap) q l p : hget h l = Some p -> hget (h ++ [q]) l = Some p.
Proof. unfold hget. intros H. rewrite nth_error_app1; [exact H|]. apply nth_error_Some. congruence. Qed.
Lemma hget_new (h : heap) q : hget (h ++ [q]) (List.length h) = Some q.
Proof. unfold hget. now rewrite nth_error_app2, Nat.sub_diag by lia. Qed.

Lemma meet_created w a q m' : all_meet w -> P a q -> m_attrs m' = m_attrs (w_mod w) ->
  all_meet (mkW (w_heap w ++ [q]) (w_uids w) (set_attr m' a (AQty (List.length (w_heap w))))).
Proof.
  intros A HP Em b l. cbn [w_mod w_heap set_attr with_attrs m_attrs]. rewrite Em.
  destruct (String.string_dec b a) as [->|N].
  - rewrite dget_dset_eq. intros H. injection H as <-. exists q. split; [apply hget_new|exact HP].
  - rewrite dget_dset_neq by congruence. intros H. destruct (A b l H) as (p & Hp & Pp). exists p. split; [now apply hget_grown|exact Pp].
Qed.
Lemma meet_grown w q m' : all_meet w -> m_attrs m' = m_attrs (w_mod w) -> all_meet (mkW (w_heap w ++ [q]) (w_uids w) m').
Proof. intros A Em b l. cbn [w_mod w_heap]. rewrite Em. intros H. destruct (A b l H) as (p & Hp & Pp). exists p. split; [now apply hget_grown|exact Pp]. Qed.
Lemma meet_changed w u l q q' : all_meet w -> hget (w_heap w) l = Some q -> same_make q q' -> all_meet (mkW (hset (w_heap w) l q') u (w_mod w)).
Proof.
  intros A Hq S b i Hb. cbn [w_mod w_heap] in *. destruct (A b i Hb) as (p & Hp & Pp). destruct (Nat.eq_dec i l) as [->|N].
  - exists q'. split; [apply hget_hset_eq; apply nth_error_Some; unfold hget in Hq; congruence|]. apply (P_make b q); [exact S|]. congruence.
  - exists p. split; [now rewrite hget_hset_neq|exact Pp].
Qed.
Lemma set_make q a u q' : set_value q a u = Ok q' -> same_make q q'.
Proof.
  destruct a as [p|[z|f]|]; simpl.
  - destruct (isinstance_of p q); [|discriminate]. destruct u; [discriminate|].
    destruct (coherent (q_units p) (q_units q)) as [[]|]; simpl; try discriminate. intros H; injection H as <-. now repeat split.
  - destruct u as [v|].
    + destruct (coherent v (q_units q)) as [[]|]; simpl; try discriminate. intros H; injection H as <-. now repeat split.
    + intros H; injection H as <-. now repeat split.
  - intros H; injection H as <-. now repeat split.
  - discriminate.
Qed.

Lemma create_equation_attrs w n a c w' r : create_equation w n a c = (w', r) -> w_heap w' = w_heap w /\ m_attrs (w_mod w') = m_attrs (w_mod w).
Proof.
  unfold create_equation. destruct (equation_init (w_uids w) main_thread n a (m_name (w_mod w))) as [u' [e0|x]].
  2: { intros H. injection H as <- _. auto. }
  destruct (sweep_objects _) as [e2 [?|x]]. 2: { intros H. injection H as <- _. auto. }
  destruct c. 2: { intros H. injection H as <- _. auto. }
  destruct (check_equation _ _); intros H; injection H as <- _; auto.
Qed.

Lemma meet_step c w : makes_meeting c -> all_meet w -> all_meet (fst (run_cmd w c)).
Proof.
  intros Hc A. destruct c as [a n u ex ty v|a n u v|a n u v|a v u|a|a n q k]; cbn [makes_meeting] in Hc.
  - cbn [run_cmd]. unfold create_variable.
    destruct ex; [destruct (String.eqb ty "input"); [|destruct (String.eqb ty "output")]|];
      cbn [assign_qty fst]; (apply meet_created || apply meet_grown); auto.
  - apply meet_created; auto.
  - apply meet_created; auto.
  - cbn [run_cmd]. destruct (attr_qty (w_mod w) a) as [l|]; [|exact A].
    destruct (match v with SANum n => _ | SAAttr b => _ end) as [sv|]; [|exact A].
    unfold heap_set_value. destruct (hget (w_heap w) l) as [q|] eqn:Hq.
    2: { destruct w; exact A. }
    destruct (set_value q sv u) as [q'|] eqn:S.
    + cbn [fst]. apply (meet_changed w (w_uids w) l q q'); [exact A|exact Hq|now apply set_make in S].
    + destruct w; exact A.
  - cbn [run_cmd]. destruct (attr_qty (w_mod w) a) as [l|]; [|exact A].
    destruct (hget (w_heap w) l) as [q|] eqn:Hq; [|exact A]. destruct (qkind_eqb (q_kind q) KVariable); [|exact A].
    cbn [fst]. apply (meet_changed w (w_uids w) l q); [exact A|exact Hq|now repeat split].
  - cbn [run_cmd]. destruct (let* q' := _ in _) as [arg|]; [|exact A].
    destruct (create_equation w n (Some arg) k) as [w' [e|x]] eqn:E; destruct (create_equation_attrs _ _ _ _ _ _ E) as [Eh Ea]; cbn [fst].
    + intros b l. cbn [w_mod w_heap set_attr with_attrs m_attrs]. rewrite Ea, Eh.
      destruct (String.string_dec b a) as [->|N]; [now rewrite dget_dset_eq|]. rewrite dget_dset_neq by congruence. apply A.
    + intros b l. rewrite Ea, Eh. apply A.
Qed.
Lemma meet_run cs : forall w, Forall makes_meeting cs -> all_meet w -> all_meet (fst (run_cmds w cs)).
Proof.
  induction cs as [|c cs IH]; intros w F A; [exact A|]. inversion F as [|? ? Hc F']; subst. cbn [run_cmds].
  assert (B := meet_step c w Hc A). destruct (run_cmd w c) as [w' [[]|x]]; [now apply IH|exact B].
Qed.
Lemma meet_script s w : Forall makes_meeting (fst s) -> all_meet w -> all_meet (fst (run_script w s)).
Proof. intros F A. unfold run_script. assert (B := meet_run (fst s) w F A). destruct (run_cmds w (fst s)) as [w' [[]|x]]; exact B. Qed.
Lemma meet_settle l : forall w, Forall is_setting l -> all_meet w -> all_meet (settle w l).
Proof.
  induction l as [|c l IH]; intros w F A; [exact A|]. inversion F as [|? ? Hc F']; subst. cbn [settle fold_left]. apply IH; [exact F'|].
  apply meet_step; [|exact A]. destruct c; try contradiction Hc. exact I.
Qed.
Lemma meet_new h u name : all_meet (mkW h u (new_model name)).
Proof. intros a l H. discriminate H. Qed.
Lemma meet_operated init equations h u name l w : Forall makes_meeting (fst init) -> Forall makes_meeting (fst equations) ->
  Forall is_setting l -> operated init equations (mkW h u (new_model name)) l w -> all_meet w.
Proof.
  intros Fi Fe S O. assert (A := meet_script init _ Fi (meet_new h u name)). assert (B := meet_settle l _ S A).
  destruct O as [->|[->| ->]]; [exact A|exact B|now apply meet_script].
Qed.
Lemma meet_quantity w a q : all_meet w -> quantity w a = Some q -> P a q.
Proof.
  intros A. unfold quantity, attr_qty. destruct (dget a (m_attrs (w_mod w))) as [[l|e]|] eqn:D; try discriminate.
  intros H. destruct (A a l D) as (p & Hp & Pp). congruence.
Qed.
End Kept.

(** ** Units *)
Definition powers_checked (u : unit) (e : list (string * Z)) : bool :=
  forallb (fun k => match exponent u k with
                    | Some (PInt z) => Z.eqb z (power_of k e)
                    | Some (PFloat (S754_zero false)) => Z.eqb 0 (power_of k e)
                    | _ => false
                    end) si_base &&
  forallb (fun kx => existsb (String.eqb (fst kx)) si_base) (u_dim u).
Lemma powers_hold u e : powers_checked u e = true -> of_powers u e.
Proof.
  intros H. apply andb_prop in H. destruct H as [H K]. rewrite forallb_forall in H, K. split.
  - intros k Hk. specialize (H k Hk). destruct (exponent u k) as [x|]; [|discriminate]. exists x. split; [reflexivity|].
    destruct x as [z|[[]|[]| |]]; try discriminate H; apply Z.eqb_eq in H; rewrite <- H; cbn [nvalue]; [reflexivity|].
    exists (B754_zero false). repeat split.
  - intros k Hk. unfold exponent in Hk. destruct (dget k (u_dim u)) as [x|] eqn:D; [|congruence]. apply dget_some_in in D.
    specialize (K _ D). apply existsb_exists in K. destruct K as (k' & I & E). apply String.eqb_eq in E. cbn in E. now subst k'.
Qed.

Definition has_told_unit (skip : option string) (a : string) (q : qty) : Prop := Some a <> skip -> exists e, name_tells a = Some e /\ of_powers (q_units q) e.
Definition on_told_side (a : string) (q : qty) : Prop :=
  (q_exposed q = true -> q_kind q = KVariable /\
     (q_type q = "input" /\ ends_in "_in" a = true \/ q_type q = "output" /\ ends_in "_in" a = false)) /\
  (fraction a = false -> ends_in "_in" a || ends_in "_out" a = true -> q_exposed q = true).
Lemma told_unit_make skip a q q' : same_make q q' -> has_told_unit skip a q -> has_told_unit skip a q'.
Proof. intros (E & _) H N. rewrite E. now apply H. Qed.
Lemma told_side_make a q q' : same_make q q' -> on_told_side a q -> on_told_side a q'.
Proof. intros (_ & K & E & T) H. unfold on_told_side. now rewrite K, E, T. Qed.

Definition unit_checked (skip : option string) (a : string) (u : unit) : bool :=
  match skip with Some b => String.eqb a b | None => false end || match name_tells a with Some e => powers_checked u e | None => false end.
Definition side_checked (a : string) (var ex : bool) (ty : string) : bool :=
  (if ex then var && (String.eqb ty "input" && ends_in "_in" a || String.eqb ty "output" && negb (ends_in "_in" a)) else true) &&
  (if ex then true else fraction a || negb (ends_in "_in" a || ends_in "_out" a)).
Definition cmd_checked (skip : option string) (c : cmd) : bool :=
  match c with
  | CVar a n u ex ty v => unit_checked skip a u && side_checked a true ex ty
  | CPar a n u v | CCon a n u v => unit_checked skip a u && side_checked a false false ""
  | _ => true
  end.
Definition told_both (skip : option string) (a : string) (q : qty) : Prop := has_told_unit skip a q /\ on_told_side a q.
Lemma told_both_make skip a q q' : same_make q q' -> told_both skip a q -> told_both skip a q'.
Proof. intros S [H K]. split; [now apply (told_unit_make skip a q)|now apply (told_side_make a q)]. Qed.
Lemma unit_check skip a u q : unit_checked skip a u = true -> q_units q = u -> has_told_unit skip a q.
Proof.
  intros H E N. unfold unit_checked in H. replace (match skip with Some b => String.eqb a b | None => false end) with false in H.
  2: { destruct skip as [b|]; [|reflexivity]. symmetry. apply String.eqb_neq. congruence. }
  cbn [orb] in H.
  destruct (name_tells a) as [e|]; [|discriminate]. exists e. split; [reflexivity|]. rewrite E. now apply powers_hold.
Qed.
Lemma side_check a ex ty q : side_checked a (match q_kind q with KVariable => true | _ => false end) ex ty = true ->
  q_exposed q = ex -> q_type q = ty -> on_told_side a q.
Proof.
  intros H E T. unfold side_checked in H. apply andb_prop in H. destruct H as [H K]. unfold on_told_side. rewrite E, T. destruct ex.
  - split; [|reflexivity]. intros _. apply andb_prop in H. destruct H as [Hk H]. split; [destruct (q_kind q); try discriminate; reflexivity|].
    apply orb_prop in H. destruct H as [H|H]; apply andb_prop in H; destruct H as [H1 H2]; apply String.eqb_eq in H1; [left|right]; split; auto.
    now apply negb_true_iff in H2.
  - split; [discriminate|]. intros F S. rewrite F, S in K. discriminate K.
Qed.
Lemma cmd_check skip c : cmd_checked skip c = true -> makes_meeting (told_both skip) c.
Proof.
  destruct c; cbn [cmd_checked makes_meeting]; auto; intros H ? ?; apply andb_prop in H; destruct H as [H K];
    (split; [apply (unit_check skip _ u); [exact H|reflexivity]|eapply side_check; [exact K|reflexivity|reflexivity]]).
Qed.
Lemma cmds_check skip cs : forallb (cmd_checked skip) cs = true -> Forall (makes_meeting (told_both skip)) cs.
Proof. intros H. rewrite forallb_forall in H. apply Forall_forall. intros c Hc. now apply cmd_check, H. Qed.
Lemma checked_app skip a b : forallb (cmd_checked skip) a = true -> forallb (cmd_checked skip) b = true -> forallb (cmd_checked skip) (a ++ b) = true.
Proof. intros A B. rewrite forallb_app, A, B. reflexivity. Qed.
Lemma checked_flat {A} skip (f : A -> list cmd) l : (forall x, forallb (cmd_checked skip) (f x) = true) -> forallb (cmd_checked skip) (flat_map f l) = true.
Proof. intros H. induction l as [|x l IH]; [reflexivity|]. cbn [flat_map]. now apply checked_app. Qed.
Lemma checked_if skip (b : bool) a : forallb (cmd_checked skip) a = true -> forallb (cmd_checked skip) (if b then a else []) = true.
Proof. now destruct b. Qed.
Lemma checked_settings skip l : Forall is_setting l -> forallb (cmd_checked skip) l = true.
Proof. intros F. apply forallb_forall. rewrite Forall_forall in F. intros c Hc. specialize (F c Hc). destruct c; try contradiction F. reflexivity. Qed.
Lemma fraction_checked skip a : fraction a = true -> (exists r, a = String "z" (String "_" r)) \/ (exists r, a = String "w" (String "_" r)) -> cmd_checked skip (hidden a) = true.
Proof.
  intros F [[r ->]|[r ->]]; cbn [cmd_checked hidden]; (apply andb_true_intro; split;
   [unfold unit_checked; apply orb_true_iff; right; reflexivity|reflexivity]).
Qed.
Lemma fractions_checked skip ps : forallb (cmd_checked skip) (fractions ps) = true.
Proof.
  apply checked_flat. intros p. cbn [forallb fraction_vars].
  rewrite !fraction_checked; [reflexivity|..]; try reflexivity; cbn; eauto.
Qed.
Lemma flash_fractions_checked skip p : forallb (cmd_checked skip) (flash_fractions p) = true.
Proof.
  cbn [forallb flash_fractions].
  assert (N : forall a n, cmd_checked skip (hidden a) = true -> cmd_checked skip (named_fraction a n) = true) by auto.
  rewrite !N, !fraction_checked; [reflexivity|..]; try (apply fraction_checked); try reflexivity; cbn; eauto.
Qed.
Lemma set_checked skip a x : forallb (cmd_checked skip) (fst (set_property a x)) = true.
Proof. now destruct x. Qed.
Lemma then_checked skip a b : forallb (cmd_checked skip) (fst a) = true -> forallb (cmd_checked skip) (fst b) = true -> forallb (cmd_checked skip) (fst (then_script a b)) = true.
Proof. intros A B. unfold then_script. destruct (snd a); [exact A|]. now apply checked_app. Qed.
Lemma phase_eqs_checked skip k : forallb (cmd_checked skip) (phase_eqs k) = true.
Proof. apply checked_if, checked_flat. reflexivity. Qed.

Definition skipped (class : string) : option string := if String.eqb class "Tank" then Some "Q" else None.
Lemma operations_checked lib k class init equations : In (class, init, equations) (unit_operations lib k) ->
  forallb (cmd_checked (skipped class)) (fst init) = true /\ forallb (cmd_checked (skipped class)) (fst equations) = true.
Proof.
  intros H. unfold unit_operations in H. repeat (destruct H as [H|H]; [injection H as <- <- <-|]); [..|destruct H];
    match goal with |- context [skipped ?c] => let s := eval vm_compute in (skipped c) in change (skipped c) with s end.
  - split; [|reflexivity]. destruct k as [k|]; [|vm_compute; reflexivity]. cbn [mixer_init].
    assert (S : forallb (cmd_checked None) ((if many (k_names k) then fractions (k_names k) else []) ++ mixer_flows) = true).
    { apply checked_app; [apply checked_if, fractions_checked|vm_compute; reflexivity]. }
    assert (R : forallb (cmd_checked None) ((if many (k_names k) then flat_map mixer_phase (removelast (k_names k)) else []) ++ mixer_rest) = true).
    { apply checked_app; [apply checked_if, checked_flat; reflexivity|vm_compute; reflexivity]. }
    assert (T : forallb (cmd_checked None) (fst (mixer_sums (k_names k))) = true).
    { unfold mixer_sums. destruct (sum_of _); [|reflexivity]. destruct (sum_of _); [|reflexivity]. destruct (sum_of _); [|reflexivity]. now destruct (sum_of _). }
    destruct (2 <=? k_number k)%Z; [destruct (snd (mixer_sums (k_names k)))|]; cbn [fst]; auto using checked_app.
  - split.
    + destruct k as [k|]; [|vm_compute; reflexivity]. apply checked_app; [vm_compute; reflexivity|apply checked_if, fractions_checked].
    + destruct k as [k|]; [|vm_compute; reflexivity]. apply then_checked; [apply then_checked; [vm_compute; reflexivity|]|].
      * unfold valve_rho. destruct (2 <=? k_number k)%Z; [destruct (k_names k); reflexivity|]. destruct (k_star k); [apply set_checked|reflexivity].
      * cbn [fst]. change (forallb (cmd_checked None) ([valve_flux] ++ phase_eqs k) = true). apply checked_app; [reflexivity|apply phase_eqs_checked].
  - split.
    + destruct k as [k|]; [|vm_compute; reflexivity]. apply checked_app; [vm_compute; reflexivity|apply checked_if, fractions_checked].
    + destruct k as [k|]; [|vm_compute; reflexivity]. apply checked_app; [vm_compute; reflexivity|apply phase_eqs_checked].
  - split.
    + destruct k as [k|]; [|reflexivity]. cbn [heater_init]. destruct (2 <=? k_number k)%Z.
      * apply checked_app; [apply fractions_checked|vm_compute; reflexivity].
      * apply then_checked; [vm_compute; reflexivity|]. destruct (k_star k); [apply set_checked|reflexivity].
    + destruct k as [k|]; [|reflexivity]. apply checked_app; [apply phase_eqs_checked|vm_compute; reflexivity].
  - split; [|reflexivity]. destruct k as [k|]; [|reflexivity]. apply checked_app; [apply checked_if, fractions_checked|vm_compute; reflexivity].
  - split.
    + destruct k as [k|]; [|reflexivity]. cbn [flash_dynamic_init]. destruct (2 <=? k_number k)%Z.
      * apply checked_app; [apply fractions_checked|vm_compute; reflexivity].
      * apply then_checked; [vm_compute; reflexivity|]. destruct (k_star k); [apply set_checked|reflexivity].
    + destruct k as [k|]; [|reflexivity]. apply phase_eqs_checked.
  - split.
    + destruct k as [k|]; [|reflexivity]. apply checked_app; [apply checked_if, checked_flat, flash_fractions_checked|vm_compute; reflexivity].
    + destruct k as [k|]; [|reflexivity]. apply checked_app; [apply checked_if, checked_flat; reflexivity|reflexivity].
  - split; [vm_compute; reflexivity|reflexivity].
  - split; [|reflexivity]. destruct k as [k|]; [|vm_compute; reflexivity]. apply checked_app; [vm_compute; reflexivity|].
    apply checked_flat. intros p. cbn [forallb phase_pars par cmd_checked]. reflexivity.
Qed.
Lemma operations_told lib k class init equations : In (class, init, equations) (unit_operations lib k) ->
  forall h u name l w, Forall is_setting l -> operated init equations (mkW h u (new_model name)) l w ->
  forall a q, quantity w a = Some q -> told_both (skipped class) a q.
Proof.
  intros H h u name l w S O a q. destruct (operations_checked _ _ _ _ _ H) as [A B]. apply (meet_quantity (told_both (skipped class)) w a q).
  apply (meet_operated (told_both (skipped class)) (told_both_make _) init equations h u name l w); auto using cmds_check.
Qed.
Lemma units_told lib k class init equations : In (class, init, equations) (unit_operations lib k) ->
  forall h u name l w, Forall is_setting l -> operated init equations (mkW h u (new_model name)) l w ->
  forall a q, quantity w a = Some q -> (class = "Tank" -> a <> "Q") -> exists e, name_tells a = Some e /\ of_powers (q_units q) e.
Proof.
  intros H h u name l w S O a q Q T. destruct (operations_told _ _ _ _ _ H h u name l w S O a q Q) as [U _].
  apply U. unfold skipped. destruct (String.eqb_spec class "Tank") as [C|_]; [specialize (T C); congruence|discriminate].
Qed.
Lemma sides_told lib k class init equations : In (class, init, equations) (unit_operations lib k) ->
  forall h u name l w, Forall is_setting l -> operated init equations (mkW h u (new_model name)) l w ->
  forall a q, quantity w a = Some q ->
  (q_exposed q = true -> q_kind q = KVariable /\
     (q_type q = "input" /\ ends_in "_in" a = true \/ q_type q = "output" /\ ends_in "_in" a = false)) /\
  (fraction a = false -> ends_in "_in" a || ends_in "_out" a = true -> q_exposed q = true).
Proof. intros H h u name l w S O a q Q. exact (proj2 (operations_told _ _ _ _ _ H h u name l w S O a q Q)). Qed.
Lemma different_powers x a b : nvalue x (IZR a) -> nvalue x (IZR b) -> a <> b -> False.
Proof.
  intros A B N. apply N, eq_IZR. destruct x as [z|f]; cbn [nvalue] in A, B; [congruence|].
  destruct A as (p & P & _ & Ep), B as (q & Q & _ & Eq). rewrite <- Ep, <- Eq. f_equal. apply B2SF_inj. congruence.
Qed.
