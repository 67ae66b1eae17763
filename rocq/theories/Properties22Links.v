(** C74: connections given as expressions. *)
From Verif Require Import Base BaseFacts Num UnitModel Sympy Node Build EquationModel ModelModel ProblemModel SpecUnits SpecExpr SpecModel SpecInc SpecCall SpecProblem
  ProblemFacts SessionFacts SpecWritten SolverModel SpecSolver SolverFacts SpecLink LinkFacts Demo
  Properties07Problems Properties08Solvers Properties16Written.
From Coq Require Import Reals Lra.
Notation num := Verif.Num.num.

(** ** C74 *)
(** Full statement: a successful connection by expressions is in the problem solved,
    whatever is done afterwards.  Missing: later connections by expressions from the
    same origin into the same model, later incorporations into it, and names with
    ">" (or "-" for the origin). *)
Theorem C74_block_partial : forall acts s b a1 m j out inp a2 s1, resolved acts s b -> distinct_models acts ->
  acts = a1 ++ AConnN m j out inp :: a2 ->
  do_act (run_acts start_session a1) (AConnN m j out inp) = (s1, Ok tt) -> In j (added acts) ->
  forallb arrow_free_act acts = true -> undisturbed acts m j a2 ->
  exists e, In e (b_eqs b) /\ equates (pw_heap (fst (run_acts start_session a1))) out inp e.
Proof. exact block_link. Qed.
Print Assumptions C74_block_partial.

(** In every answer the two expressions have one value, with quantities set at the
    time of the connection as the numbers they had then. *)
Theorem C74_solution_partial : forall acts s b eng res a1 m j out inp a2 s1, resolved acts s b -> distinct_models acts ->
  honest eng -> answer eng b res ->
  acts = a1 ++ AConnN m j out inp :: a2 ->
  do_act (run_acts start_session a1) (AConnN m j out inp) = (s1, Ok tt) -> In j (added acts) ->
  forallb arrow_free_act acts = true -> undisturbed acts m j a2 ->
  let h := pw_heap (fst (run_acts start_session a1)) in
  exists x, value_at h (bind_env res) inp = Some x /\ value_at h (bind_env res) out = Some x.
Proof. exact solution_link. Qed.
Print Assumptions C74_solution_partial.

(** Value of a quantity, by the place it is kept. *)
Lemma at_unknown h en l n : option_map (fun q => (q_name q, q_spec q)) (hget h l) = Some (n, false) -> value_at h en (UQty l) = Some (e_sym en n).
Proof.
  unfold value_at. cbn [meaning]. unfold qty_meaning. destruct (hget h l) as [q|] eqn:E; [|discriminate].
  cbn [option_map]. intros H. injection H as <- ->. cbn [at_names v_q]. unfold named_in. now rewrite E.
Qed.
Lemma at_set h en l k : option_map (fun q => (q_value q, q_spec q)) (hget h l) = Some (k, true) -> value_at h en (UQty l) = num_value k.
Proof.
  unfold value_at. cbn [meaning]. unfold qty_meaning. destruct (hget h l) as [q|] eqn:E; [|discriminate].
  cbn [option_map]. intros H. now injection H as -> ->.
Qed.

(** Sources q = 3 and q = 5; a mixer with p the least of both (and 9), z their sum. *)
Definition source_of (k : Z) : decls :=
  mkDecls [] [] [CVar "q" "q" u_m true "output" (PInt 0)] [CEq "e" "e" (UResid (UNumR BSub (UQty "q") (PInt k))) true].
Definition mixer : decls :=
  mkDecls [] [] [CVar "p" "p" u_m true "input" (PInt 0); CVar "z" "z" u_m true "input" (PInt 0)] [].
Definition mixing_before : list act :=
  [ANew "S" (source_of 3); ANew "T" (source_of 5); ANew "R" mixer; ACall 0%nat; ACall 1%nat; ACall 2%nat].
(** Locations: q of S 0, q of T 1, p 2, z 3. *)
Definition least : uexpr loc := UMinMax false (AExpr (UQty 0%nat) (AExpr (UQty 1%nat) (ANum (PInt 9) ANil))).
Definition total : uexpr loc := UBin BAdd (UQty 0%nat) (UQty 1%nat).
Definition mixing_conn : act := AConnN (CMName "") 2%nat least (UQty 2%nat).
Definition mixing_after : list act := [AConnN (CMName "") 2%nat total (UQty 3%nat); AAdd 0%nat; AAdd 1%nat; AAdd 2%nat].
Definition mixing : list act := mixing_before ++ mixing_conn :: mixing_after.
Definition mixing_answer : dict R := [("q_S", 3%R); ("q_T", 5%R); ("p_R", 3%R); ("z_R", 8%R)].

Lemma names_distinct acts : NoDup (map (fun md => m_name (fst md)) (pw_models (fst (run_acts start_session acts)))) -> distinct_models acts.
Proof.
  intros H i j mi mj _ _ Hi Hj E. unfold model_of, get_model in *.
  assert (F : forall k m, option_map fst (nth_error (pw_models (fst (run_acts start_session acts))) k) = Some m ->
    nth_error (map (fun md => m_name (fst md)) (pw_models (fst (run_acts start_session acts)))) k = Some (m_name m)).
  { intros k m Hk. destruct (nth_error (pw_models (fst (run_acts start_session acts))) k) as [md|] eqn:Ek; [|discriminate Hk].
    injection Hk as <-. exact (map_nth_error (fun md => m_name (fst md)) k _ Ek). }
  apply F in Hi. apply F in Hj. rewrite NoDup_nth_error in H. apply H; [|congruence]. apply nth_error_Some. congruence.
Qed.
Lemma mixing_distinct : distinct_models mixing.
Proof.
  apply names_distinct.
  assert (E : map (fun md => m_name (fst md)) (pw_models (fst (run_acts start_session mixing))) = ["S"; "T"; "R"]) by (vm_compute; reflexivity).
  rewrite E. repeat (constructor; [simpl; intuition discriminate|]). constructor.
Qed.
Lemma mixing_solved : answer checker (the_block mixing) mixing_answer.
Proof.
  pose proof (checker_answer (the_block mixing) mixing_answer [3; 5; 3; 8]%R) as H.
  assert (V : b_varlist (the_block mixing) = ["q_S"; "q_T"; "p_R"; "z_R"]) by (vm_compute; reflexivity).
  assert (E : b_exprs (the_block mixing) =
    [SSub (SSym "q_S") (SNum (PInt 3)); SSub (SSym "q_T") (SNum (PInt 5));
     SSub (SSym "p_R") (SMin (SSym "q_S") (SMin (SSym "q_T") (SNum (PInt 9)))); SSub (SSym "z_R") (SAdd (SSym "q_S") (SSym "q_T"))]) by (vm_compute; reflexivity).
  rewrite V, E in H. apply H; [discriminate|reflexivity|]. split; [reflexivity|].
  intros e [<-|[<-|[<-|[<-|[]]]]]; cbn; f_equal; try lra.
  rewrite (Rmin_left 5), (Rmin_left 3) by lra. lra.
Qed.
(** Both connections are drawn, so the second leaves the first. *)
Lemma mixing_undisturbed : undisturbed mixing (CMName "") 2%nat mixing_after.
Proof.
  exists Drawn. split; [reflexivity|]. split; [exact I|]. split.
  - intros m' out inp o' [E|[E|[E|[E|[]]]]] Ho; try discriminate E. injection E as <- _ _. cbn in Ho. injection Ho as <-. exact I.
  - intros k f [E|[E|[E|[E|[]]]]]; discriminate E.
Qed.
Example C74_case : resolved mixing (final mixing) (the_block mixing) /\ distinct_models mixing /\ honest checker /\
  answer checker (the_block mixing) mixing_answer /\ mixing = mixing_before ++ mixing_conn :: mixing_after /\
  snd (do_act (run_acts start_session mixing_before) mixing_conn) = Ok tt /\ added mixing = [0%nat; 1%nat; 2%nat] /\
  forallb arrow_free_act mixing = true /\ undisturbed mixing (CMName "") 2%nat mixing_after /\
  forall en, value_at (pw_heap (fst (run_acts start_session mixing_before))) en least =
    Some (Rmin (e_sym en "q_S") (Rmin (e_sym en "q_T") 9)).
Proof.
  split; [apply run_resolved; vm_compute; reflexivity|]. split; [exact mixing_distinct|]. split; [exact checker_honest|].
  split; [exact mixing_solved|]. split; [reflexivity|]. split; [vm_compute; reflexivity|]. split; [vm_compute; reflexivity|].
  split; [vm_compute; reflexivity|]. split; [exact mixing_undisturbed|]. intros en.
  set (h := pw_heap (fst (run_acts start_session mixing_before))).
  assert (S : value_at h en (UQty 0%nat) = Some (e_sym en "q_S")) by (apply at_unknown; vm_compute; reflexivity).
  assert (T : value_at h en (UQty 1%nat) = Some (e_sym en "q_T")) by (apply at_unknown; vm_compute; reflexivity).
  clearbody h. unfold value_at, least in *. cbn [meaning meanings] in *. rewrite S, T. reflexivity.
Qed.

(** Two connections from S into R, q into p and then q into z: the second replaces
    the first, and p = 7 is reported with q = 3. *)
Definition receiver : decls :=
  mkDecls [] [] [CVar "p" "p" u_m true "input" (PInt 0); CVar "z" "z" u_m true "input" (PInt 0)]
    [CEq "e" "e" (UResid (UNumR BSub (UQty "p") (PInt 7))) true].
Definition twice_before : list act := [ANew "S" (source_of 3); ANew "R" receiver; ACall 0%nat; ACall 1%nat].
(** Locations: q 0, p 1, z 2. *)
Definition twice_conn : act := AConnN (CMModel 0%nat) 1%nat (UQty 0%nat) (UQty 1%nat).
Definition twice_after : list act := [AConnN (CMModel 0%nat) 1%nat (UQty 0%nat) (UQty 2%nat); AAdd 0%nat; AAdd 1%nat].
Definition twice : list act := twice_before ++ twice_conn :: twice_after.
Definition twice_answer : dict R := [("q_S", 3%R); ("p_R", 7%R); ("z_R", 3%R)].
Lemma twice_solved : answer checker (the_block twice) twice_answer.
Proof.
  pose proof (checker_answer (the_block twice) twice_answer [3; 7; 3]%R) as H.
  assert (V : b_varlist (the_block twice) = ["q_S"; "p_R"; "z_R"]) by (vm_compute; reflexivity).
  assert (E : b_exprs (the_block twice) =
    [SSub (SSym "q_S") (SNum (PInt 3)); SSub (SSym "p_R") (SNum (PInt 7)); SSub (SSym "z_R") (SSym "q_S")]) by (vm_compute; reflexivity).
  rewrite V, E in H. apply H; [discriminate|reflexivity|]. split; [reflexivity|]. intros e [<-|[<-|[<-|[]]]]; cbn; f_equal; lra.
Qed.
Theorem C74_again_refuted : exists acts s b eng res a1 m j out inp a2 s1, resolved acts s b /\ distinct_models acts /\
  honest eng /\ answer eng b res /\ acts = a1 ++ AConnN m j out inp :: a2 /\
  do_act (run_acts start_session a1) (AConnN m j out inp) = (s1, Ok tt) /\ In j (added acts) /\ forallb arrow_free_act acts = true /\
  (forall k f, ~ In (AInc j k f) a2) /\
  let h := pw_heap (fst (run_acts start_session a1)) in
  value_at h (bind_env res) inp <> value_at h (bind_env res) out.
Proof.
  exists twice, (final twice), (the_block twice), checker, twice_answer, twice_before, (CMModel 0%nat), 1%nat, (UQty 0%nat), (UQty 1%nat), twice_after,
    (fst (do_act (run_acts start_session twice_before) twice_conn)).
  split; [apply run_resolved; vm_compute; reflexivity|]. split; [apply (two_distinct twice "S" "R"); [vm_compute; reflexivity|discriminate]|].
  split; [exact checker_honest|]. split; [exact twice_solved|]. split; [reflexivity|].
  split; [apply act_ok; vm_compute; reflexivity|].
  assert (A : added twice = [0%nat; 1%nat]) by (vm_compute; reflexivity). rewrite A. split; [right; now left|].
  split; [vm_compute; reflexivity|]. split; [intros k f [E|[E|[E|[]]]]; discriminate E|]. cbv zeta.
  rewrite (at_unknown _ _ 0%nat "q_S"), (at_unknown _ _ 1%nat "p_R") by (vm_compute; reflexivity). cbn. intros H. injection H as H. lra.
Qed.
Print Assumptions C74_again_refuted.

(** k*q into p with k = 2, then k set to 5: p = 2*q is what is solved. *)
Definition factor_source : decls :=
  mkDecls [] [CPar "k" "k" u_dimless (PInt 0)] [CVar "q" "q" u_m true "output" (PInt 0)]
    [CEq "e" "e" (UResid (UNumR BSub (UQty "q") (PInt 3))) true].
Definition stale_before : list act :=
  [ANew "S" factor_source; ANew "R" (mkDecls [] [] [CVar "p" "p" u_m true "input" (PInt 0)] []); ACall 0%nat; ACall 1%nat;
   AStmt 0%nat (CSet "k" (SANum (PInt 2)) None)].
(** Locations: k 0, q 1, p 2. *)
Definition scaled : uexpr loc := UBin BMul (UQty 0%nat) (UQty 1%nat).
Definition stale_conn : act := AConnN (CMModel 0%nat) 1%nat scaled (UQty 2%nat).
Definition stale_after : list act := [AStmt 0%nat (CSet "k" (SANum (PInt 5)) None); AAdd 0%nat; AAdd 1%nat].
Definition stale : list act := stale_before ++ stale_conn :: stale_after.
Definition stale_answer : dict R := [("q_S", 3%R); ("p_R", 6%R)].
Lemma stale_solved : answer checker (the_block stale) stale_answer.
Proof.
  pose proof (checker_answer (the_block stale) stale_answer [3; 6]%R) as H.
  assert (V : b_varlist (the_block stale) = ["q_S"; "p_R"]) by (vm_compute; reflexivity).
  assert (E : b_exprs (the_block stale) =
    [SSub (SSym "q_S") (SNum (PInt 3)); SSub (SSym "p_R") (SMul (SNum (PInt 2)) (SSym "q_S"))]) by (vm_compute; reflexivity).
  rewrite V, E in H. apply H; [discriminate|reflexivity|]. split; [reflexivity|]. intros e [<-|[<-|[]]]; cbn; f_equal; lra.
Qed.
Lemma stale_undisturbed : undisturbed stale (CMModel 0%nat) 1%nat stale_after.
Proof.
  exists (FromName "S"). split; [reflexivity|]. split; [split; reflexivity|]. split.
  - intros m' out inp o' [E|[E|[E|[]]]]; discriminate E.
  - intros k f [E|[E|[E|[]]]]; discriminate E.
Qed.
Theorem C74_current_refuted : exists acts s b eng res a1 m j out inp a2 s1, resolved acts s b /\ distinct_models acts /\
  honest eng /\ answer eng b res /\ acts = a1 ++ AConnN m j out inp :: a2 /\
  do_act (run_acts start_session a1) (AConnN m j out inp) = (s1, Ok tt) /\ In j (added acts) /\ forallb arrow_free_act acts = true /\
  undisturbed acts m j a2 /\
  let h := pw_heap (fst s) in
  value_at h (bind_env res) inp <> value_at h (bind_env res) out.
Proof.
  exists stale, (final stale), (the_block stale), checker, stale_answer, stale_before, (CMModel 0%nat), 1%nat, scaled, (UQty 2%nat), stale_after,
    (fst (do_act (run_acts start_session stale_before) stale_conn)).
  split; [apply run_resolved; vm_compute; reflexivity|]. split; [apply (two_distinct stale "S" "R"); [vm_compute; reflexivity|discriminate]|].
  split; [exact checker_honest|]. split; [exact stale_solved|]. split; [reflexivity|].
  split; [apply act_ok; vm_compute; reflexivity|].
  assert (A : added stale = [0%nat; 1%nat]) by (vm_compute; reflexivity). rewrite A. split; [right; now left|].
  split; [vm_compute; reflexivity|]. split; [exact stale_undisturbed|]. cbv zeta.
  set (h := pw_heap (fst (final stale))).
  assert (P : value_at h (bind_env stale_answer) (UQty 2%nat) = Some (e_sym (bind_env stale_answer) "p_R")) by (apply at_unknown; vm_compute; reflexivity).
  assert (Q : value_at h (bind_env stale_answer) (UQty 1%nat) = Some (e_sym (bind_env stale_answer) "q_S")) by (apply at_unknown; vm_compute; reflexivity).
  assert (K : value_at h (bind_env stale_answer) (UQty 0%nat) = num_value (PInt 5)) by (apply at_set; vm_compute; reflexivity).
  clearbody h. rewrite P. unfold value_at, scaled in *. cbn [meaning] in *. rewrite K, Q. cbn. intros H. injection H as H. lra.
Qed.
Print Assumptions C74_current_refuted.
