(** Property theorems C21-C22 (incorporation). *)
From Verif Require Import Base BaseFacts Num UnitModel Sympy Node Build EquationModel ModelModel SpecUnits SpecExpr SpecQty
  SpecModel SpecInc BuildFacts EquationFacts ModelFacts IncFacts KeptFacts Demo.
From Coq Require Import Reals Lra.
Notation num := Verif.Num.num.

(** ** C21 *)
(** Full statement: the same for all donors.  Missing: donors with exposed
    variables, equations whose forms are plain numbers, and names where a renamed
    object takes another one's name; refuted below. *)
Theorem C21_incorporation_partial : forall h m d,
  donor_ok h d -> host_ok m -> no_capture d (m_name m) ->
  exists h' m', incorporate h m d inc_default = (h', m', Ok tt) /\ m_name m' = m_name m /\
    (forall l q, hget h l = Some q -> hget h' l = Some q) /\
    copied h h' (m_name d) (m_name m) (m_vars d) (m_vars m') /\
    copied h h' (m_name d) (m_name m) (m_pars d) (m_pars m') /\
    copied h h' (m_name d) (m_name m) (m_cons d) (m_cons m') /\
    kept (m_name d) (m_name m) (m_vars d) (m_vars m) (m_vars m') /\
    kept (m_name d) (m_name m) (m_pars d) (m_pars m) (m_pars m') /\
    kept (m_name d) (m_name m) (m_cons d) (m_cons m) (m_cons m') /\
    (forall a e, dget (full_name a (m_name d)) (m_eqs d) = Some e ->
       exists e', dget (full_name a (m_name m)) (m_eqs m') = Some e' /\
         eq_name e' = full_name a (m_name m) /\ same_equation d m' e e' /\ same_sides d (m_name m) e e') /\
    (forall k, (forall a, k = full_name a (m_name m) -> ~ In (full_name a (m_name d)) (dkeys (m_eqs d))) ->
       dget k (m_eqs m') = dget k (m_eqs m)) /\
    (donor_ok h m -> donor_ok h' m').
Proof. exact incorporate_ok. Qed.
Print Assumptions C21_incorporation_partial.

(** Models made by declaration statements are such donors. *)
Theorem C21_scripts_partial : forall name h u cs w', name <> "" -> forallb incorporable_cmd cs = true ->
  run_cmds (mkW h u (new_model name)) cs = (w', Ok tt) -> has_unknowns (w_mod w') ->
  donor_ok (w_heap w') (w_mod w') /\ m_name (w_mod w') = name.
Proof. exact script_donor. Qed.
Print Assumptions C21_scripts_partial.

(** Names without underscore never clash. *)
Theorem C21_no_clash : forall d host, no_underscore (m_name d) -> no_underscore host -> no_capture d host.
Proof. exact no_underscore_capture. Qed.
Print Assumptions C21_no_clash.

Definition run_script (name : string) (cs : list cmd) : mworld :=
  fst (run_cmds (mkW [] (fun _ => 0%nat) (new_model name)) cs).

Lemma script_is_donor name cs : name <> "" -> forallb incorporable_cmd cs = true ->
  snd (run_cmds (mkW [] (fun _ => 0%nat) (new_model name)) cs) = Ok tt ->
  has_unknowns (w_mod (run_script name cs)) ->
  donor_ok (w_heap (run_script name cs)) (w_mod (run_script name cs)).
Proof.
  intros Hn Hc Hr Hu. apply (script_donor name [] (fun _ => 0%nat) cs); try assumption.
  unfold run_script. rewrite <- Hr. now destruct (run_cmds _ cs).
Qed.

Definition unknowns_check (m : mstate) : bool :=
  forallb (fun ke => match eq_expr (snd ke) with
                     | Some n => match fsyms (nd_sym n) with [] => false | _ => true end
                     | None => true end) (m_eqs m).
Lemma unknowns_checked m : unknowns_check m = true -> has_unknowns m.
Proof.
  intros H k e n Hin E. unfold unknowns_check in H. rewrite forallb_forall in H. specialize (H _ Hin). simpl in H.
  rewrite E in H. intros Z. rewrite Z in H. discriminate.
Qed.
Ltac donor_tac := apply script_is_donor;
  [discriminate|vm_compute; reflexivity|vm_compute; reflexivity|apply unknowns_checked; vm_compute; reflexivity].
(** A pair of results from its parts, for running programs inside the kernel. *)
Lemma run_ok {A B} (p : A * B * res Datatypes.unit) r : snd p = r -> p = (fst (fst p), snd (fst p), r).
Proof. destruct p as [[]]. simpl. now intros ->. Qed.
Lemma run_ok2 (p : mworld * res Datatypes.unit) r : snd p = r -> p = (fst p, r).
Proof. destruct p as []. simpl. now intros ->. Qed.

(** x == y**2 + c with a parameter and a constant. *)
Definition tank : list cmd :=
  [CVar "x" "x" u_m false "" (PInt 0); CVar "y" "y" u_dimless false "" (PInt 0);
   CPar "k" "k" u_m (PInt 2); CCon "c" "c" u_m (PInt 3); CSet "k" (SANum (PInt 4)) None;
   CEq "e" "e" (UElem (UQty "x") (UBin BAdd (UBin BMul (UQty "k") (UNumR BPow (UQty "y") (PInt 2))) (UQty "c"))) true].

Example C21_case :
  donor_ok (w_heap (run_script "A" tank)) (w_mod (run_script "A" tank)) /\
  host_ok (new_model "B") /\ no_capture (w_mod (run_script "A" tank)) "B" /\
  (let '(_, m', _) := incorporate (w_heap (run_script "A" tank)) (new_model "B") (w_mod (run_script "A" tank)) inc_default in
   dkeys (m_vars m') = ["x_B"; "y_B"] /\ dkeys (m_pars m') = ["k_B"] /\ dkeys (m_cons m') = ["c_B"] /\
   dkeys (m_eqs m') = ["e_B"]).
Proof.
  split; [|split; [|split]].
  - donor_tac.
  - repeat split; constructor.
  - apply no_underscore_capture; vm_compute; repeat split; discriminate.
  - vm_compute. repeat split.
Qed.

(** The built-in [type] is used as key: incorporating an exposed variable raises
    KeyError, leaving the host half filled. *)
Theorem C21_exposed_refuted : exists cs w d h' m',
  run_cmds (mkW [] (fun _ => 0%nat) (new_model "A")) cs = (w, Ok tt) /\ d = w_mod w /\
  incorporate (w_heap w) (new_model "B") d inc_default = (h', m', Raise EKey) /\
  dkeys (m_vars d) = ["x_A"; "y_A"] /\ dkeys (m_vars m') = ["x_B"].
Proof.
  exists [CVar "x" "x" u_m true "input" (PInt 0); CVar "y" "y" u_m false "" (PInt 0)].
  do 4 eexists. split; [apply run_ok2; vm_compute; reflexivity|]. split; [reflexivity|].
  split; [apply run_ok; vm_compute; reflexivity|]. split; vm_compute; reflexivity.
Qed.
Print Assumptions C21_exposed_refuted.

(** An equation with a number on the right cannot be incorporated. *)
Theorem C21_number_refuted : exists cs w d h' m',
  run_cmds (mkW [] (fun _ => 0%nat) (new_model "A")) cs = (w, Ok tt) /\ d = w_mod w /\
  forallb checked cs = true /\ not_exposed (w_heap w) (m_vars d) /\ no_capture d "B" /\
  incorporate (w_heap w) (new_model "B") d inc_default = (h', m', Raise EAttribute).
Proof.
  exists [CVar "x" "x" u_m false "" (PInt 0); CEq "e" "e" (UElemN (UQty "x") (PInt 2)) true].
  do 4 eexists. split; [apply run_ok2; vm_compute; reflexivity|]. split; [reflexivity|]. split; [reflexivity|]. split.
  { intros k l q Hin Hq. destruct l as [|l]; [|destruct l; discriminate Hq]. injection Hq as <-. reflexivity. }
  split; [|apply run_ok; vm_compute; reflexivity].
  apply no_underscore_capture; vm_compute; repeat split; discriminate.
Qed.
Print Assumptions C21_number_refuted.

(** Sequential substitution: with variables x and x_b, donor A and host b_A, the
    equation x == x_b turns into x_b == x_b. *)
Definition clash : list cmd :=
  [CVar "x" "x" u_m false "" (PInt 0); CVar "y" "x_b" u_m false "" (PInt 0);
   CEq "e" "e" (UElem (UQty "x") (UQty "y")) true].

Theorem C21_clash_refuted : exists h d h' m' s s' en en',
  donor_ok h d /\ incorporate h (new_model "b_A") d inc_default = (h', m', Ok tt) /\
  option_map (fun e => get_symbolic e (Some false) SLhs) (dget "e_A" (m_eqs d)) = Some (Ok s) /\
  option_map (fun e => get_symbolic e (Some false) SLhs) (dget "e_b_A" (m_eqs m')) = Some (Ok s') /\
  renamed_env d "b_A" en en' /\ den s' en' <> den s en.
Proof.
  exists (w_heap (run_script "A" clash)), (w_mod (run_script "A" clash)). do 2 eexists.
  exists (SSub (SSym "x_A") (SSym "x_b_A")), (SSub (SSym "x_b_b_A") (SSym "x_b_b_A")),
         (mkEnv (fun x => if String.eqb x "x_A" then 1%R else 0%R) (fun _ _ => 0%R)),
         (mkEnv (fun x => if String.eqb x "x_b_A" then 1%R else 0%R) (fun _ _ => 0%R)).
  split; [donor_tac|].
  split; [apply run_ok; vm_compute; reflexivity|]. split; [vm_compute; reflexivity|]. split; [vm_compute; reflexivity|].
  split.
  - split; [|reflexivity]. intros x. cbn [e_sym]. unfold new_name.
    replace (declared (w_mod (run_script "A" clash))) with ["x_A"; "x_b_A"] by (vm_compute; reflexivity).
    replace (m_name (w_mod (run_script "A" clash))) with "A" by (vm_compute; reflexivity).
    unfold mem_str, existsb.
    destruct (String.eqb_spec x "x_A") as [->|H1]; [reflexivity|].
    destruct (String.eqb_spec x "x_b_A") as [->|H2]; [reflexivity|]. cbn [orb].
    apply String.eqb_neq in H2. now rewrite H2.
  - cbn. intros E. injection E. lra.
Qed.
Print Assumptions C21_clash_refuted.

(** ** C22 *)
(** Full statement: the same with rewrite_name either way; refuted below, where
    what happens without renaming is stated too. *)
Theorem C22_chains_partial : forall hosts h d,
  donor_ok h d -> no_underscore (m_name d) -> (forall n, In n hosts -> n <> "" /\ no_underscore n) -> hosts <> [] ->
  exists h' m', inc_chain h d hosts inc_default = (h', m', Ok tt) /\ m_name m' = last hosts "" /\ donor_ok h' m' /\
    (forall l q, hget h l = Some q -> hget h' l = Some q) /\
    copied h h' (m_name d) (m_name m') (m_vars d) (m_vars m') /\
    copied h h' (m_name d) (m_name m') (m_pars d) (m_pars m') /\
    copied h h' (m_name d) (m_name m') (m_cons d) (m_cons m') /\
    (forall a, In (full_name a (m_name d)) (dkeys (m_eqs d)) -> In (full_name a (m_name m')) (dkeys (m_eqs m'))).
Proof. exact chain_ok. Qed.
Print Assumptions C22_chains_partial.

Example C22_case :
  let w := run_script "A" tank in
  donor_ok (w_heap w) (w_mod w) /\ no_underscore (m_name (w_mod w)) /\
  let '(_, m', _) := inc_chain (w_heap w) (w_mod w) ["B"; "Plant"; "Z"] inc_default in
  dkeys (m_vars m') = ["x_Z"; "y_Z"] /\ dkeys (m_eqs m') = ["e_Z"].
Proof.
  split; [|split].
  - donor_tac.
  - vm_compute. repeat split; discriminate.
  - vm_compute. repeat split.
Qed.

(** Without renaming the owner changes but not the name, so the next step cuts
    off the wrong suffix: both variables end up as "_Z", one of them lost. *)
Theorem C22_kept_names_refuted : exists h d h1 m1 h2 m2,
  donor_ok h d /\ dkeys (m_vars d) = ["x_A"; "y_A"] /\
  incorporate h (new_model "Plant") d (mkInc true true true true false) = (h1, m1, Ok tt) /\
  dkeys (m_vars m1) = ["x_A"; "y_A"] /\
  incorporate h1 (new_model "Z") m1 inc_default = (h2, m2, Ok tt) /\
  dkeys (m_vars m2) = ["_Z"].
Proof.
  pose (cs := [CVar "x" "x" u_m false "" (PInt 0); CVar "y" "y" u_m false "" (PInt 0)]).
  exists (w_heap (run_script "A" cs)), (w_mod (run_script "A" cs)). do 4 eexists.
  split; [donor_tac|].
  split; [vm_compute; reflexivity|]. split; [apply run_ok; vm_compute; reflexivity|]. split; [vm_compute; reflexivity|].
  split; [apply run_ok; vm_compute; reflexivity|vm_compute; reflexivity].
Qed.
Print Assumptions C22_kept_names_refuted.

(** What rewrite_name=False does, for each choice of the other flags: the copies
    are called as in the donor and belong to the host; all else stays. *)
Theorem C22_kept_quantities : forall h m d f h' m',
  donor_ok h d -> i_rewrite f = false -> incorporate h m d f = (h', m', Ok tt) ->
  m_name m' = m_name m /\ (forall l q, hget h l = Some q -> hget h' l = Some q) /\
  (if i_vars f then kept_copies h h' (m_name m) (m_vars d) (m_vars m) (m_vars m') else m_vars m' = m_vars m) /\
  (if i_pars f then kept_copies h h' (m_name m) (m_pars d) (m_pars m) (m_pars m') else m_pars m' = m_pars m) /\
  (if i_cons f then kept_copies h h' (m_name m) (m_cons d) (m_cons m) (m_cons m') else m_cons m' = m_cons m).
Proof. exact kept_names. Qed.
Print Assumptions C22_kept_quantities.

(** Equations keep their names too, but speak of the host's names all the same,
    which must all be declared. *)
Theorem C22_kept_equations : forall h m d f h' m',
  donor_ok h d -> no_capture d (m_name m) -> i_rewrite f = false -> i_eqs f = true ->
  incorporate h m d f = (h', m', Ok tt) ->
  forall k e, dget k (m_eqs d) = Some e ->
  exists e' n n', dget k (m_eqs m') = Some e' /\ eq_name e' = k /\ eq_owner e' = m_name m /\ eq_type e' = eq_type e /\
    eq_expr e = Some n /\ eq_expr e' = Some n' /\
    (forall en en', renamed_env d (m_name m) en en' ->
       den (nd_sym n') en' = den (nd_sym n) en /\ den (nd_repr n') en' = den (nd_repr n) en) /\
    incl (map (new_name d (m_name m)) (fsyms (nd_repr n))) (declared m').
Proof. exact kept_eqs. Qed.
Print Assumptions C22_kept_equations.

(** So a model with an equation about objects the host has not is refused. *)
Theorem C22_kept_refused : forall h m d f k e n x,
  donor_ok h d -> no_capture d (m_name m) -> i_rewrite f = false -> i_eqs f = true ->
  dget k (m_eqs d) = Some e -> eq_expr e = Some n -> In x (fsyms (nd_repr n)) ->
  ~ In (new_name d (m_name m) x) (declared m) -> ~ In (new_name d (m_name m) x) (declared d) ->
  forall h' m', incorporate h m d f <> (h', m', Ok tt).
Proof. exact kept_refused. Qed.
Print Assumptions C22_kept_refused.

(** A host that has objects of these local names, and one that has none. *)
Definition vessel : list cmd :=
  [CVar "x" "x" u_m false "" (PInt 7); CVar "y" "y" u_dimless false "" (PInt 0); CPar "k" "k" u_m (PInt 9); CCon "c" "c" u_m (PInt 5)].
Notation vessel_run := (run_cmds (mkW (w_heap (run_script "A" tank)) (fun _ => 0%nat) (new_model "B")) vessel).
Example C22_kept_case :
  let d := w_mod (run_script "A" tank) in
  let f := mkInc true true false true false in
  donor_ok (w_heap (run_script "A" tank)) d /\ no_capture d "B" /\
  (let p := incorporate (w_heap (fst vessel_run)) (w_mod (fst vessel_run)) d f in
   let m' := snd (fst p) in
   snd p = Ok tt /\ dkeys (m_vars m') = ["x_B"; "y_B"; "x_A"; "y_A"] /\ dkeys (m_pars m') = ["k_B"; "k_A"] /\ dkeys (m_cons m') = ["c_B"] /\
   dkeys (m_eqs m') = ["e_A"] /\
   option_map (fun e => option_map (fun n => uniq (fsyms (nd_repr n))) (eq_expr e)) (dget "e_A" (m_eqs m')) = Some (Some ["x_B"; "k_B"; "y_B"; "c_B"])) /\
  snd (incorporate (w_heap (run_script "A" tank)) (new_model "B") d f) = Raise EKey.
Proof.
  cbv zeta. split; [donor_tac|]. split; [apply no_underscore_capture; vm_compute; repeat split; discriminate|]. split; [|vm_compute; reflexivity].
  repeat (match goal with |- _ /\ _ => split end); vm_compute; reflexivity.
Qed.
