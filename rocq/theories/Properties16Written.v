(** Property theorems C64-C66 (what is written is what is stored and solved). *)
From Verif Require Import Base Num NumFacts UnitModel UnitFacts Sympy Node Build EquationModel ModelModel ProblemModel SolverModel
  SpecUnits SpecExpr SpecDims SpecModel SpecInc SpecCall SpecProblem SpecSolver SpecSymbols SpecWritten
  ProblemFacts SessionFacts UsualFacts DofFacts SolverFacts SymbolFacts WrittenFacts SpecLink LinkFacts SpecStored StoredFacts Demo Properties07Problems Properties08Solvers
  Properties14Symbols.
From Coq Require Import Reals Lra.
Notation num := Verif.Num.num.

(** ** C64 *)
(** The attributes of a new model, and of a model after a call. *)
Theorem C64_start : forall h u M, pictures [] (mkW h u (new_model M)).
Proof. exact pictures_new. Qed.
Print Assumptions C64_start.

(** A call that succeeds stores the equations written, in order, and leaves the
    attributes as its statements say; it used attributes assigned before only. *)
Theorem C64_call : forall d D w w', model_call d w = (w', Ok tt) -> pictures D w ->
  pictures (read_all (m_name (w_mod w)) D (script d)) w' /\
  exists ks es, keyed (m_name (w_mod w)) (w_uids w main_thread) (equations_written (m_name (w_mod w)) D (script d)) ks /\
    Forall2 says (equations_written (m_name (w_mod w)) D (script d)) es /\ Forall2 (fun k e => eq_name e = k) ks es /\
    m_eqs (w_mod w') = store_all ks es (m_eqs (w_mod w)).
Proof. exact call_stored. Qed.
Print Assumptions C64_call.

Theorem C64_assigned : forall d D w w', model_call d w = (w', Ok tt) -> pictures D w -> assigned_before (m_name (w_mod w)) D (script d) = true.
Proof. exact call_assigned. Qed.
Print Assumptions C64_assigned.

(** What no later equation replaces is there. *)
Theorem C64_kept : forall d D w w' pre x post, model_call d w = (w', Ok tt) -> pictures D w ->
  equations_written (m_name (w_mod w)) D (script d) = pre ++ x :: post -> lasting x post ->
  exists k e, dget k (m_eqs (w_mod w')) = Some e /\ eq_name e = k /\ says x e /\
    (wr_name x <> "" -> k = (wr_name x ++ "_" ++ m_name (w_mod w))%string).
Proof. exact call_lasting. Qed.
Print Assumptions C64_kept.

(** Equations of different names on a new model: these and no others. *)
Theorem C64_new : forall M d h u w', model_call d (mkW h u (new_model M)) = (w', Ok tt) -> legible M d ->
  Forall2 (fun x ke => fst ke = (wr_name x ++ "_" ++ M)%string /\ says x (snd ke)) (written_by M d) (m_eqs (w_mod w')).
Proof. exact new_exact. Qed.
Print Assumptions C64_new.

Theorem C64_others : forall d w w', model_call d w = (w', Ok tt) -> legible (m_name (w_mod w)) d ->
  (forall x, In x (written_by (m_name (w_mod w)) d) -> stored_in (m_name (w_mod w)) (w_mod w') x) /\
  (forall k, (forall x, In x (written_by (m_name (w_mod w)) d) -> k <> (wr_name x ++ "_" ++ m_name (w_mod w))%string) ->
     dget k (m_eqs (w_mod w')) = dget k (m_eqs (w_mod w))).
Proof. exact (fun d w w' H L => proj2 (call_written d w w' H L)). Qed.
Print Assumptions C64_others.

Theorem C64_block : forall acts s b i M d pre x post, resolved acts s b -> distinct_models acts -> nth_error (created acts) i = Some (M, d) ->
  In i (added acts) -> assigned_before M [] (script d) = true -> written_by M d = pre ++ x :: post -> lasting x post ->
  exists e, In e (b_eqs b) /\ says x e /\ (wr_name x <> "" -> eq_name e = (wr_name x ++ "_" ++ M)%string).
Proof. exact block_stored. Qed.
Print Assumptions C64_block.

(** A tank that writes "e" twice and one equation without a name, and uses on its
    second call what the first assigned. *)
Definition tank_first : decls :=
  mkDecls [CCon "g" "g" u_m (PInt 0); CSet "g" (SANum (PInt 3)) None] [] [CVar "y" "y" u_m false "" (PInt 0)]
          [CEq "e" "e" (UResid (UBin BSub (UQty "y") (UQty "g"))) true; CEq "f" "" (UElemN (UQty "y") (PInt 2)) true;
           CEq "e" "e" (UResid (UBin BAdd (UQty "y") (UQty "g"))) true].
Definition tank_second : decls :=
  mkDecls [] [] [] [CEq "k" "k" (UResid (UBin BMul (UQty "y") (UQty "g"))) true].
Definition blank_world : mworld := mkW [] (fun _ => 7%nat) (new_model "T").
Definition tank_world : mworld := fst (model_call tank_first blank_world).
Definition world_again : mworld := fst (model_call tank_second tank_world).

Lemma ran (p : mworld * res Datatypes.unit) : snd p = Ok tt -> p = (fst p, Ok tt).
Proof. destruct p as [a r]. cbn. now intros ->. Qed.
Lemma tank_called : model_call tank_first blank_world = (tank_world, Ok tt).
Proof. exact (ran _ (ltac:(vm_compute; reflexivity) : snd (model_call tank_first blank_world) = Ok tt)). Qed.
Lemma tank_called_again : model_call tank_second tank_world = (world_again, Ok tt).
Proof. exact (ran _ (ltac:(vm_compute; reflexivity) : snd (model_call tank_second tank_world) = Ok tt)). Qed.
Lemma tank_name : m_name (w_mod tank_world) = "T".
Proof. vm_compute. reflexivity. Qed.

Example C64_tank_case : exists D x y z v,
  model_call tank_first blank_world = (tank_world, Ok tt) /\ pictures [] blank_world /\
  equations_written "T" [] (script tank_first) = [x; y; z] /\ wr_name x = "e" /\ wr_name y = "" /\ wr_name z = "e" /\
  lasting y [z] /\ lasting z [] /\ ~ lasting x [y; z] /\
  dkeys (m_eqs (w_mod tank_world)) = ["e_T"; "8_T"] /\
  model_call tank_second tank_world = (world_again, Ok tt) /\ pictures D tank_world /\
  equations_written "T" D (script tank_second) = [v] /\
  dkeys (m_eqs (w_mod world_again)) = ["e_T"; "8_T"; "k_T"] /\
  forall en, wr_value z en = Some (e_sym en "y_T" + 3)%R /\ wr_value v en = Some (e_sym en "y_T" * 3)%R.
Proof.
  exists (read_all "T" [] (script tank_first)).
  exists (read_eq [("g", mkThing "g_T" (PInt 3) true); ("y", mkThing "y_T" (PInt 0) false)] "e" (UResid (UBin BSub (UQty "y") (UQty "g")))).
  exists (read_eq [("g", mkThing "g_T" (PInt 3) true); ("y", mkThing "y_T" (PInt 0) false)] "" (UElemN (UQty "y") (PInt 2))).
  exists (read_eq [("g", mkThing "g_T" (PInt 3) true); ("y", mkThing "y_T" (PInt 0) false)] "e" (UResid (UBin BAdd (UQty "y") (UQty "g")))).
  exists (read_eq (read_all "T" [] (script tank_first)) "k" (UResid (UBin BMul (UQty "y") (UQty "g")))).
  split; [exact tank_called|]. split; [exact (C64_start _ _ _)|]. split; [reflexivity|]. split; [reflexivity|]. split; [reflexivity|]. split; [reflexivity|].
  split.
  { split; [intros H; now destruct H|]. split.
    - intros n _ w [<-|[]]. discriminate.
    - intros _ w n [<-|[]]. cbn [wr_name read_eq]. intros H. assert (X := str_nat_numeral n). rewrite <- H in X. discriminate X. }
  split; [split; [intros _ w []|split; [intros n _ w []|intros _ w n []]]|].
  split; [intros [H _]; exact (H ltac:(discriminate) _ (or_intror (or_introl eq_refl)) eq_refl)|].
  split; [vm_compute; reflexivity|]. split; [exact tank_called_again|].
  split; [exact (proj1 (C64_call _ _ _ _ tank_called (C64_start _ _ _)))|].
  split; [reflexivity|]. split; [vm_compute; reflexivity|].
  intros en. split; cbn; reflexivity.
Qed.

(** A source q - c with c set to 3 and a sink z - k*p with k set to 4. *)
Definition flow_source : decls :=
  mkDecls [CCon "c" "c" u_m (PInt 0); CSet "c" (SANum (PInt 3)) None] [] [CVar "q" "q" u_m true "output" (PInt 0)]
          [CEq "e" "e" (UResid (UBin BSub (UQty "q") (UQty "c"))) true].
Definition flow_sink : decls :=
  mkDecls [] [CPar "k" "k" u_dimless (PInt 2); CSet "k" (SANum (PInt 4)) None]
          [CVar "p" "p" u_m true "input" (PInt 0); CVar "z" "z" u_m false "" (PInt 0)]
          [CEq "e" "e" (UResid (UBin BSub (UQty "z") (UBin BMul (UQty "k") (UQty "p")))) true].
(** Locations: c 0, q 1, k 2, p 3, z 4. *)
Definition flow_before : list act := [ANew "S" flow_source; ANew "R" flow_sink; ACall 0%nat; ACall 1%nat].
Definition flow_conn : act := AConn (CMModel 0%nat) 1%nat (CVOne 1%nat) (CVOne 3%nat) None.
Definition flow : list act := flow_before ++ flow_conn :: [AAdd 0%nat; AAdd 1%nat].

Lemma two_distinct acts a b : map (fun md => m_name (fst md)) (pw_models (fst (run_acts start_session acts))) = [a; b] -> a <> b ->
  distinct_models acts.
Proof.
  intros H N i j mi mj _ _ Hi Hj E. unfold model_of, get_model in *.
  assert (F : forall k m, option_map fst (nth_error (pw_models (fst (run_acts start_session acts))) k) = Some m ->
    nth_error [a; b] k = Some (m_name m)).
  { intros k m Hk. rewrite <- H. destruct (nth_error (pw_models (fst (run_acts start_session acts))) k) as [md|] eqn:Ek; [|discriminate Hk].
    injection Hk as <-. exact (map_nth_error (fun md => m_name (fst md)) k _ Ek). }
  apply F in Hi. apply F in Hj. rewrite E in Hi. destruct i as [|[|[|i]]], j as [|[|[|j]]]; simpl in *; congruence.
Qed.

Lemma flow_distinct : distinct_models flow.
Proof. apply (two_distinct flow "S" "R"); [vm_compute; reflexivity|discriminate]. Qed.
Lemma flow_legible : legible "S" flow_source /\ legible "R" flow_sink.
Proof. split; (split; [reflexivity|]); cbn; (constructor; [intros []|constructor]). Qed.

Example C64_case : resolved flow (final flow) (the_block flow) /\ distinct_models flow /\
  nth_error (created flow) 0 = Some ("S", flow_source) /\ nth_error (created flow) 1 = Some ("R", flow_sink) /\
  added flow = [0%nat; 1%nat] /\ legible "S" flow_source /\ legible "R" flow_sink /\
  exists x, written_by "R" flow_sink = [x] /\ wr_name x = "e" /\
    forall en, wr_value x en = Some (e_sym en "z_R" - 4 * e_sym en "p_R")%R.
Proof.
  split; [apply run_resolved; vm_compute; reflexivity|]. split; [exact flow_distinct|]. split; [reflexivity|]. split; [reflexivity|].
  split; [reflexivity|]. split; [exact (proj1 flow_legible)|]. split; [exact (proj2 flow_legible)|].
  eexists. split; [reflexivity|]. split; [reflexivity|]. intros en. cbn. reflexivity.
Qed.

(** ** C65 *)
(** Full statement: [wr_value x (bind_env out) = Some 0] for every equation
    written.  Missing: equations written [lhs == rhs]; refuted below. *)
Theorem C65_residual_partial : forall acts s b eng out i M d x, resolved acts s b -> distinct_models acts -> honest eng -> answer eng b out ->
  nth_error (created acts) i = Some (M, d) -> In i (added acts) -> legible M d -> In x (written_by M d) -> one_sided x ->
  wr_value x (bind_env out) = Some 0%R.
Proof. exact solution_residual. Qed.
Print Assumptions C65_residual_partial.

(** What is solved instead: the right side is zero. *)
Theorem C65_right_side : forall acts s b eng out i M d x l r, resolved acts s b -> distinct_models acts -> honest eng -> answer eng b out ->
  nth_error (created acts) i = Some (M, d) -> In i (added acts) -> legible M d -> In x (written_by M d) -> wr_sides x = Some (l, r) ->
  r (bind_env out) = Some 0%R.
Proof. exact solution_right. Qed.
Print Assumptions C65_right_side.

(** Numeric routines that accept a guess when it is a root. *)
Definition zero_value (v : option R) : bool := match v with Some r => if Req_EM_T r 0 then true else false | None => false end.
Definition checker : engines R :=
  mkEng R (fun _ _ => []) (fun _ _ => Raise ENumerical)
    (fun vs es g => (Nat.eqb (List.length g) (List.length vs) && forallb (fun e => zero_value (den e (bind_env (List.combine vs g)))) es, g))
    (fun _ _ _ _ => None).
Lemma zero_value_spec v : zero_value v = true <-> v = Some 0%R.
Proof.
  destruct v as [r|]; simpl; [|split; discriminate]. destruct (Req_EM_T r 0) as [->|N]; split; try reflexivity; try discriminate.
  intros H. injection H as H. contradiction.
Qed.
Lemma checker_spec vs es g : fst (root_find checker vs es g) = true <-> root_of vs es g.
Proof.
  simpl. rewrite Bool.andb_true_iff, PeanoNat.Nat.eqb_eq, forallb_forall. unfold root_of. split; intros (L & H); (split; [exact L|]);
    intros e He; apply zero_value_spec, H, He.
Qed.
Lemma checker_honest : honest checker.
Proof.
  split; [intros es vars sol []|]. split; [discriminate|]. intros vars es g x H.
  assert (F : fst (root_find checker vars es g) = true) by now rewrite H.
  apply checker_spec in F. simpl in H. injection H as _ <-. exact F.
Qed.
Lemma checker_answer b guess g : guess <> [] -> lookup_all guess (b_varlist b) = Ok g -> root_of (b_varlist b) (b_exprs b) g ->
  answer checker b (by_name (b_varlist b) g).
Proof.
  intros N L R. exists 1%R, (Some "symbolicsys"), guess, None. right. unfold nla_solve, symbolicsys, first_guess.
  change (nla_lookup (Some "symbolicsys")) with (Ok MSymbolicSys). cbn [rbind].
  destruct guess as [|kv guess]; [contradiction|]. cbn [is_empty]. rewrite L. cbn [rbind]. apply checker_spec in R.
  change (root_find checker (b_varlist b) (b_exprs b) g) with (fst (root_find checker (b_varlist b) (b_exprs b) g), g). now rewrite R.
Qed.

Lemma flow_vars : b_varlist (the_block flow) = ["q_S"; "p_R"; "z_R"].
Proof. vm_compute. reflexivity. Qed.
Lemma flow_exprs : b_exprs (the_block flow) =
  [SSub (SSym "q_S") (SNum (PInt 3)); SSub (SSym "z_R") (SMul (SNum (PInt 4)) (SSym "p_R"));
   SSub (SAdd (SSym "p_R") (SNum (PInt 0))) (SAdd (SSym "q_S") (SNum (PInt 0)))].
Proof. vm_compute. reflexivity. Qed.
Definition flow_answer : dict R := [("q_S", 3%R); ("p_R", 3%R); ("z_R", 12%R)].
Lemma flow_solved : answer checker (the_block flow) flow_answer.
Proof.
  pose proof (checker_answer (the_block flow) flow_answer [3; 3; 12]%R) as H. rewrite flow_vars, flow_exprs in H.
  apply H; [discriminate|reflexivity|]. split; [reflexivity|]. intros e [<-|[<-|[<-|[]]]]; cbn; f_equal; lra.
Qed.

Example C65_case : resolved flow (final flow) (the_block flow) /\ distinct_models flow /\ honest checker /\
  answer checker (the_block flow) flow_answer /\ Forall one_sided (written_by "S" flow_source ++ written_by "R" flow_sink).
Proof.
  split; [apply run_resolved; vm_compute; reflexivity|]. split; [exact flow_distinct|]. split; [exact checker_honest|].
  split; [exact flow_solved|]. repeat constructor.
Qed.

(** x = 0, y = -2 is reported for x == y + 2 and y == 3*x. *)
Definition algebraic_decls : decls :=
  mkDecls [] [] [CVar "y" "y" u_m false "" (PInt 0); CVar "x" "x" u_m false "" (PInt 0)]
     [CEq "e" "e" (UElem (UQty "x") (UNumR BAdd (UQty "y") (PInt 2))) true;
      CEq "f" "f" (UElem (UQty "y") (UNumL BMul (PInt 3) (UQty "x"))) true].
Definition algebraic_answer : dict R := [("y_M", (-2)%R); ("x_M", 0%R)].
Lemma one_distinct acts a : map (fun md => m_name (fst md)) (pw_models (fst (run_acts start_session acts))) = [a] -> distinct_models acts.
Proof.
  intros H i j mi mj _ _ Hi Hj E. apply model_number in Hi. apply model_number in Hj.
  assert (L : List.length (pw_models (fst (run_acts start_session acts))) = 1%nat) by (rewrite <- (map_length (fun md => m_name (fst md))), H; reflexivity).
  rewrite L in *. lia.
Qed.
Lemma algebraic_solved : answer checker (the_block algebraic) algebraic_answer.
Proof.
  pose proof (checker_answer (the_block algebraic) algebraic_answer [-2; 0]%R) as H.
  assert (V : b_varlist (the_block algebraic) = ["y_M"; "x_M"]) by (vm_compute; reflexivity).
  assert (E : b_exprs (the_block algebraic) = [SAdd (SSym "y_M") (SNum (PInt 2)); SMul (SSym "x_M") (SNum (PInt 3))]) by (vm_compute; reflexivity).
  rewrite V, E in H. apply H; [discriminate|reflexivity|]. split; [reflexivity|]. intros e [<-|[<-|[]]]; cbn; f_equal; lra.
Qed.
Theorem C65_equation_refuted : exists acts s b eng out i M d x, resolved acts s b /\ distinct_models acts /\ honest eng /\ answer eng b out /\
  nth_error (created acts) i = Some (M, d) /\ In i (added acts) /\ legible M d /\ In x (written_by M d) /\
  wr_value x (bind_env out) <> Some 0%R.
Proof.
  exists algebraic, (final algebraic), (the_block algebraic), checker, algebraic_answer, 0%nat, "M", algebraic_decls, (nth 1 (written_by "M" algebraic_decls) (mkWritten "" (fun _ => None) None)).
  split; [apply run_resolved; vm_compute; reflexivity|]. split; [apply (one_distinct algebraic "M"); vm_compute; reflexivity|].
  split; [exact checker_honest|]. split; [exact algebraic_solved|]. split; [reflexivity|].
  assert (A : added algebraic = [0%nat]) by (vm_compute; reflexivity). rewrite A. split; [now left|].
  split; [split; [reflexivity|cbn; repeat (constructor; [simpl; intuition discriminate|]); constructor]|]. split; [right; now left|].
  cbn. intros H. injection H as H. lra.
Qed.
Print Assumptions C65_equation_refuted.

(** ** C66 *)
(** Full statement: any successful connection holds in what is reported.
    Missing: connections given as expressions and names with "," or ">". *)
Theorem C66_connection_partial : forall acts s b eng out a1 i j outs ins a2 s1, resolved acts s b -> distinct_models acts ->
  honest eng -> answer eng b out -> forallb (ordinary false) acts = true -> forallb clean_act acts = true ->
  acts = a1 ++ AConn (CMModel i) j outs ins None :: a2 ->
  do_act (run_acts start_session a1) (AConn (CMModel i) j outs ins None) = (s1, Ok tt) -> In j (added acts) ->
  let h := pw_heap (fst (run_acts start_session a1)) in
  sum_named (bind_env out) (var_names h (cv_list ins)) = sum_named (bind_env out) (var_names h (cv_list outs)).
Proof. exact solution_connection. Qed.
Print Assumptions C66_connection_partial.

Theorem C66_block_partial : forall acts s b a1 i j outs ins a2 s1, resolved acts s b -> distinct_models acts ->
  forallb (ordinary false) acts = true -> forallb clean_act acts = true ->
  acts = a1 ++ AConn (CMModel i) j outs ins None :: a2 ->
  do_act (run_acts start_session a1) (AConn (CMModel i) j outs ins None) = (s1, Ok tt) -> In j (added acts) ->
  let h := pw_heap (fst (run_acts start_session a1)) in
  exists e, In e (b_eqs b) /\ balances (var_names h (cv_list outs)) (var_names h (cv_list ins)) e.
Proof. exact block_connection. Qed.
Print Assumptions C66_block_partial.

Example C66_case : resolved flow (final flow) (the_block flow) /\ distinct_models flow /\ honest checker /\
  answer checker (the_block flow) flow_answer /\ forallb (ordinary false) flow = true /\ forallb clean_act flow = true /\
  flow = flow_before ++ flow_conn :: [AAdd 0%nat; AAdd 1%nat] /\
  snd (do_act (run_acts start_session flow_before) flow_conn) = Ok tt /\ added flow = [0%nat; 1%nat] /\
  var_names (pw_heap (fst (run_acts start_session flow_before))) [1%nat; 3%nat] = ["q_S"; "p_R"].
Proof.
  split; [apply run_resolved; vm_compute; reflexivity|]. split; [exact flow_distinct|]. split; [exact checker_honest|].
  split; [exact flow_solved|]. split; [vm_compute; reflexivity|]. split; [vm_compute; reflexivity|]. split; [reflexivity|].
  split; [vm_compute; reflexivity|]. split; vm_compute; reflexivity.
Qed.

(** Two connections of one name: q into p and z, then q into a variable named
    "p_R,z". *)
Definition clash_before : list act :=
  [ANew "S" (mkDecls [] [] [CVar "q" "q" u_m true "output" (PInt 0)] []);
   ANew "R" (mkDecls [] [] [CVar "p" "p" u_m true "input" (PInt 0); CVar "z" "z" u_m true "input" (PInt 0);
                            CVar "v" "p_R,z" u_m true "input" (PInt 0)] []);
   ACall 0%nat; ACall 1%nat].
Definition clash_conn : act := AConn (CMModel 0%nat) 1%nat (CVOne 0%nat) (CVList [1%nat; 2%nat]) None.
Definition clash_after : list act := [AConn (CMModel 0%nat) 1%nat (CVOne 0%nat) (CVOne 3%nat) None; AAdd 0%nat; AAdd 1%nat].
Definition clash : list act := clash_before ++ clash_conn :: clash_after.
Definition clash_answer : dict R := [("q_S", 1%R); ("p_R,z_R", 1%R)].
Lemma clash_solved : answer checker (the_block clash) clash_answer.
Proof.
  pose proof (checker_answer (the_block clash) clash_answer [1; 1]%R) as H.
  assert (V : b_varlist (the_block clash) = ["q_S"; "p_R,z_R"]) by (vm_compute; reflexivity).
  assert (E : b_exprs (the_block clash) = [SSub (SAdd (SSym "p_R,z_R") (SNum (PInt 0))) (SAdd (SSym "q_S") (SNum (PInt 0)))]) by (vm_compute; reflexivity).
  rewrite V, E in H. apply H; [discriminate|reflexivity|]. split; [reflexivity|]. intros e [<-|[]]; cbn; f_equal; lra.
Qed.
Theorem C66_connection_refuted : exists acts s b eng out a1 i j outs ins a2 s1, resolved acts s b /\ distinct_models acts /\
  honest eng /\ answer eng b out /\ forallb (ordinary false) acts = true /\
  acts = a1 ++ AConn (CMModel i) j outs ins None :: a2 /\
  do_act (run_acts start_session a1) (AConn (CMModel i) j outs ins None) = (s1, Ok tt) /\ In j (added acts) /\
  let h := pw_heap (fst (run_acts start_session a1)) in
  sum_named (bind_env out) (var_names h (cv_list ins)) <> sum_named (bind_env out) (var_names h (cv_list outs)).
Proof.
  exists clash, (final clash), (the_block clash), checker, clash_answer, clash_before, 0%nat, 1%nat, (CVOne 0%nat), (CVList [1%nat; 2%nat]), clash_after,
    (fst (do_act (run_acts start_session clash_before) clash_conn)).
  split; [apply run_resolved; vm_compute; reflexivity|]. split; [apply (two_distinct clash "S" "R"); [vm_compute; reflexivity|discriminate]|].
  split; [exact checker_honest|]. split; [exact clash_solved|]. split; [vm_compute; reflexivity|]. split; [reflexivity|].
  split; [apply act_ok; vm_compute; reflexivity|].
  assert (A : added clash = [0%nat; 1%nat]) by (vm_compute; reflexivity). rewrite A. split; [right; now left|].
  cbv zeta.
  assert (I : var_names (pw_heap (fst (run_acts start_session clash_before))) (cv_list (CVList [1%nat; 2%nat])) = ["p_R"; "z_R"]) by (vm_compute; reflexivity).
  assert (O : var_names (pw_heap (fst (run_acts start_session clash_before))) (cv_list (CVOne 0%nat)) = ["q_S"]) by (vm_compute; reflexivity).
  rewrite I, O. cbn. lra.
Qed.
Print Assumptions C66_connection_refuted.
