(** Property theorems C57-C58 (the symbols of a problem, values given at
    creation). *)
From Verif Require Import Base Num NumFacts UnitModel UnitFacts Sympy Node Build EquationModel ModelModel ProblemModel SolverModel
  SpecUnits SpecExpr SpecDims SpecModel SpecInc SpecCall SpecProblem SpecSymbols ProblemFacts SessionFacts UsualFacts DofFacts
  ConnFacts SymbolFacts ValueFacts Demo Properties07Problems.
From Coq Require Import Reals.
Notation num := Verif.Num.num.

(** ** C57 *)
(** Full statement: for every resolved problem the symbols of its equations are
    its unknowns.  Proved for sessions whose models set every parameter and
    constant before use and whose connections join variables; refuted below for
    the others.  Sympy's own simplification, which may drop a symbol, is not
    modelled. *)
Theorem C57_symbols_partial : forall fx acts s b e x, resolved acts s b -> forallb (ordinary fx) acts = true -> called_then_added acts ->
  In e (b_eqs b) -> has_symbol e x -> In x (b_varlist b).
Proof. exact symbols_unknowns. Qed.
Print Assumptions C57_symbols_partial.

(** Without variables given values, every unknown occurs. *)
Theorem C57_unknowns_partial : forall acts s b x, resolved acts s b -> forallb (ordinary false) acts = true -> called_then_added acts ->
  In x (b_varlist b) -> exists e n, In e (b_eqs b) /\ eq_expr e = Some n /\ In x (fsyms (nd_sym n)).
Proof. exact unknowns_symbols. Qed.
Print Assumptions C57_unknowns_partial.

(** The function made of the equations can be called with one value for each
    unknown. *)
Theorem C57_function_partial : forall fx acts s b args, resolved acts s b -> forallb (ordinary fx) acts = true -> called_then_added acts ->
  (forall e, In e (b_exprs b) -> has_der e = false) -> List.length args = List.length (b_varlist b) ->
  exists vs, call_function (b_varlist b) (b_exprs b) args = Ok vs /\ List.length vs = List.length (b_eqs b).
Proof. exact function_runs. Qed.
Print Assumptions C57_function_partial.

(** A tank, level with a set area, joined to a source of a set flow. *)
Definition set_source : decls :=
  mkDecls [CCon "c" "c" u_m (PInt 0); CSet "c" (SANum (PInt 3)) None] [] [CVar "q" "q" u_m true "output" (PInt 0)]
          [CEq "e" "e" (UElem (UQty "q") (UQty "c")) true].
Definition set_sink : decls :=
  mkDecls [] [CPar "k" "k" u_m (PInt 2); CSet "k" (SANum (PInt 4)) None]
          [CVar "p" "p" u_m true "input" (PInt 0); CVar "z" "z" u_m false "" (PInt 0)]
          [CEq "e" "e" (UResid (UBin BSub (UBin BMul (UQty "z") (UQty "k")) (UBin BMul (UQty "p") (UQty "p")))) true].
Definition joined_models : list act :=
  [ANew "S" set_source; ANew "R" set_sink; ACall 0%nat; ACall 1%nat;
   AConn (CMModel 0%nat) 1%nat (CVOne 1%nat) (CVOne 3%nat) None; AAdd 0%nat; AAdd 1%nat].

Lemma called_added_two acts a1 b1 c1 a2 b2 c2 :
  List.length (pw_models (fst (run_acts start_session acts))) = 2%nat ->
  acts = a1 ++ ACall 0%nat :: b1 ++ AAdd 0%nat :: c1 -> acts = a2 ++ ACall 1%nat :: b2 ++ AAdd 1%nat :: c2 ->
  snd (do_act (run_acts start_session a1) (ACall 0%nat)) = Ok tt -> snd (do_act (run_acts start_session a2) (ACall 1%nat)) = Ok tt ->
  called_then_added acts.
Proof.
  intros L E1 E2 O1 O2 i m H. apply model_number in H. rewrite L in H. destruct i as [|[|i]]; [| |exfalso; lia].
  - exists a1, b1, c1. auto.
  - exists a2, b2, c2. auto.
Qed.
Lemma called_added_one acts a1 b1 c1 :
  List.length (pw_models (fst (run_acts start_session acts))) = 1%nat ->
  acts = a1 ++ ACall 0%nat :: b1 ++ AAdd 0%nat :: c1 ->
  snd (do_act (run_acts start_session a1) (ACall 0%nat)) = Ok tt -> called_then_added acts.
Proof.
  intros L E1 O1 i m H. apply model_number in H. rewrite L in H. destruct i as [|i]; [|exfalso; lia]. exists a1, b1, c1. auto.
Qed.

Example C57_case : resolved joined_models (final joined_models) (the_block joined_models) /\
  forallb (ordinary false) joined_models = true /\ called_then_added joined_models /\
  b_varlist (the_block joined_models) = ["q_S"; "p_R"; "z_R"] /\ List.length (b_eqs (the_block joined_models)) = 3%nat /\
  (forall e, In e (b_exprs (the_block joined_models)) -> has_der e = false).
Proof.
  split; [apply run_resolved; vm_compute; reflexivity|]. split; [vm_compute; reflexivity|]. split.
  { apply (called_added_two _ (firstn 2 joined_models) (firstn 2 (skipn 3 joined_models)) [AAdd 1%nat]
             (firstn 3 joined_models) [AConn (CMModel 0%nat) 1%nat (CVOne 1%nat) (CVOne 3%nat) None; AAdd 0%nat] []); vm_compute; reflexivity. }
  split; [vm_compute; reflexivity|]. split; [vm_compute; reflexivity|].
  assert (F : forallb (fun e => negb (has_der e)) (b_exprs (the_block joined_models)) = true) by (vm_compute; reflexivity).
  intros e He. rewrite forallb_forall in F. apply Bool.negb_true_iff. exact (F e He).
Qed.

Lemma first_symbol (es : list eqn) syms x :
  hd None (map (fun e => option_map (fun n => fsyms (nd_sym n)) (eq_expr e)) es) = Some syms -> In x syms ->
  exists e, In e es /\ has_symbol e x.
Proof.
  destruct es as [|e es]; [discriminate|]. simpl. destruct (eq_expr e) as [n|] eqn:E; [|discriminate]. simpl. intros H Hx. injection H as <-.
  exists e. split; [now left|]. left. exists n. auto.
Qed.

(** x == c with a constant created with value=3 and not set: the problem passes
    the check of the degrees of freedom, c is no unknown and calling the function
    raises NameError. *)
Definition loose_constant : list act :=
  [ANew "M" (mkDecls [CCon "c" "c" u_m (PInt 3)] [] [CVar "x" "x" u_m false "" (PInt 0)]
     [CEq "e" "e" (UResid (UBin BSub (UQty "x") (UQty "c"))) true]); ACall 0%nat; AAdd 0%nat].
Theorem C57_constant_refuted : exists acts s b args, resolved acts s b /\ called_then_added acts /\ b_varlist b = ["x_M"] /\
  List.length args = 1%nat /\ dof_test print_one (pw_heap (fst s)) (snd s) = Ok true /\
  (exists e, In e (b_eqs b) /\ has_symbol e "c_M") /\ call_function (b_varlist b) (b_exprs b) args = Raise EName.
Proof.
  exists loose_constant, (final loose_constant), (the_block loose_constant), [0%R].
  split; [apply run_resolved; vm_compute; reflexivity|].
  split; [apply (called_added_one _ (firstn 1 loose_constant) [] []); vm_compute; reflexivity|].
  split; [vm_compute; reflexivity|]. split; [reflexivity|]. split; [vm_compute; reflexivity|]. split; [|vm_compute; reflexivity].
  apply (first_symbol _ ["x_M"; "c_M"]); [vm_compute; reflexivity|simpl; auto].
Qed.
Print Assumptions C57_constant_refuted.

(** x == p and x == 2*p with a parameter that is not set: it is counted, so the
    check passes with two equations, but it is no unknown. *)
Definition loose_parameter : list act :=
  [ANew "M" (mkDecls [] [CPar "p" "p" u_m (PInt 3)] [CVar "x" "x" u_m false "" (PInt 0)]
     [CEq "e" "e" (UResid (UBin BSub (UQty "x") (UQty "p"))) true;
      CEq "f" "f" (UResid (UBin BSub (UQty "x") (UNumR BMul (UQty "p") (PInt 2)))) true]); ACall 0%nat; AAdd 0%nat].
Theorem C57_parameter_refuted : exists acts s b args, resolved acts s b /\ called_then_added acts /\ b_varlist b = ["x_M"] /\
  List.length (b_eqs b) = 2%nat /\ List.length args = 1%nat /\ dof_test print_one (pw_heap (fst s)) (snd s) = Ok true /\
  (exists e, In e (b_eqs b) /\ has_symbol e "p_M") /\ call_function (b_varlist b) (b_exprs b) args = Raise EName.
Proof.
  exists loose_parameter, (final loose_parameter), (the_block loose_parameter), [0%R].
  split; [apply run_resolved; vm_compute; reflexivity|].
  split; [apply (called_added_one _ (firstn 1 loose_parameter) [] []); vm_compute; reflexivity|].
  split; [vm_compute; reflexivity|]. split; [vm_compute; reflexivity|]. split; [reflexivity|]. split; [vm_compute; reflexivity|].
  split; [|vm_compute; reflexivity].
  apply (first_symbol _ ["x_M"; "p_M"]); [vm_compute; reflexivity|simpl; auto].
Qed.
Print Assumptions C57_parameter_refuted.

(** A variable given a value stays an unknown although it occurs nowhere: x == 2*y
    with y set to 3 has one equation and one symbol and fails the check. *)
Definition fixed_variable : list act :=
  [ANew "M" (mkDecls [] [] [CVar "x" "x" u_m false "" (PInt 0); CVar "y" "y" u_m false "" (PInt 0); CSet "y" (SANum (PInt 3)) None]
     [CEq "e" "e" (UResid (UBin BSub (UQty "x") (UNumR BMul (UQty "y") (PInt 2)))) true]); ACall 0%nat; AAdd 0%nat].
Theorem C57_fixed_variable_refuted : exists acts s b, resolved acts s b /\ forallb (ordinary true) acts = true /\ called_then_added acts /\
  b_varlist b = ["x_M"; "y_M"] /\ List.length (b_eqs b) = 1%nat /\
  (forall e, In e (b_eqs b) -> ~ has_symbol e "y_M") /\ dof_test print_one (pw_heap (fst s)) (snd s) = Raise EException.
Proof.
  exists fixed_variable, (final fixed_variable), (the_block fixed_variable).
  split; [apply run_resolved; vm_compute; reflexivity|]. split; [vm_compute; reflexivity|].
  split; [apply (called_added_one _ (firstn 1 fixed_variable) [] []); vm_compute; reflexivity|].
  split; [vm_compute; reflexivity|]. split; [vm_compute; reflexivity|]. split; [|vm_compute; reflexivity].
  assert (S : map (fun e => (option_map (fun n => fsyms (nd_sym n)) (eq_expr e), match eq_elem e with None => true | _ => false end))
                  (b_eqs (the_block fixed_variable)) = [(Some ["x_M"], true)]) by (vm_compute; reflexivity).
  destruct (b_eqs (the_block fixed_variable)) as [|e0 [|]]; try discriminate S. injection S as S1 S2.
  intros e [<-|[]] [(n & En & Hn)|(a & b & E & _)].
  - rewrite En in S1. injection S1 as S1. rewrite S1 in Hn. destruct Hn as [Hn|[]]. discriminate Hn.
  - rewrite E in S2. discriminate S2.
Qed.
Print Assumptions C57_fixed_variable_refuted.

(** ** C58 *)
(** The full statement "a parameter or constant created with value=v stands for v"
    is refuted below; in fact the values given at creation change nothing in the
    model, whatever the declarations. *)
Theorem C58_values_ignored : forall w cs cs' w1 r1 w2 r2, Forall2 revalued cs cs' -> run_cmds w cs = (w1, r1) -> run_cmds w cs' = (w2, r2) ->
  r2 = r1 /\ w_mod w2 = w_mod w1 /\ w_uids w2 = w_uids w1 /\ Forall2 same_set (w_heap w1) (w_heap w2).
Proof. exact values_ignored. Qed.
Print Assumptions C58_values_ignored.

Definition with_value (v : num) : list cmd :=
  [CCon "c" "c" u_m v; CPar "k" "k" u_m v; CSet "k" (SANum (PInt 4)) None; CVar "x" "x" u_m false "" v;
   CEq "e" "e" (UResid (UBin BSub (UBin BMul (UQty "x") (UQty "k")) (UBin BMul (UQty "c") (UQty "k")))) true].
Definition empty_world : mworld := mkW [] (fun _ => 0%nat) (new_model "M").
Example C58_ignored_case : Forall2 revalued (with_value (PInt 3)) (with_value (PInt 5)) /\
  snd (run_cmds empty_world (with_value (PInt 3))) = Ok tt.
Proof. split; [repeat constructor; eexists; reflexivity|vm_compute; reflexivity]. Qed.

(** Once setValue was called the parameter or constant stands for that value. *)
Theorem C58_set : forall w c a k w1 w2, declares c a ->
  run_cmd w c = (w1, Ok tt) -> run_cmd w1 (CSet a (SANum k) None) = (w2, Ok tt) ->
  exists l, attr_qty (w_mod w2) a = Ok l /\ (forall v, qty_meaning (w_heap w2) v l = num_value k) /\
    exists n, build (w_heap w2) (UQty l) = Ok n /\ nd_sym n = SNum k.
Proof. exact set_stands. Qed.
Print Assumptions C58_set.

Example C58_set_case : declares (CCon "c" "c" u_m (PInt 3)) "c" /\
  (let w1 := fst (run_cmd empty_world (CCon "c" "c" u_m (PInt 3))) in
   snd (run_cmd empty_world (CCon "c" "c" u_m (PInt 3))) = Ok tt /\ snd (run_cmd w1 (CSet "c" (SANum (PInt 7)) None)) = Ok tt).
Proof. split; [right; eauto|]. split; vm_compute; reflexivity. Qed.

(** c created with value=3 is a free symbol in the equations. *)
Definition valued_constant : list cmd :=
  [CCon "c" "c" u_m (PInt 3); CVar "x" "x" u_m false "" (PInt 0); CEq "e" "e" (UResid (UBin BSub (UQty "x") (UQty "c"))) true].
Theorem C58_created_refuted : exists cs w l q n, run_cmds empty_world cs = (w, Ok tt) /\ attr_qty (w_mod w) "c" = Ok l /\
  hget (w_heap w) l = Some q /\ q_kind q = KConstant /\ q_value q = PInt 3 /\
  build (w_heap w) (UQty l) = Ok n /\ nd_sym n = SSym "c_M" /\
  exists v, qty_meaning (w_heap w) v l <> num_value (q_value q).
Proof.
  exists valued_constant, (fst (run_cmds empty_world valued_constant)), 0%nat,
    (mkQty KConstant "c_M" u_m (PInt 3) false "M" false "" false),
    (qty_call 0%nat (mkQty KConstant "c_M" u_m (PInt 3) false "M" false "" false)).
  assert (G : hget (w_heap (fst (run_cmds empty_world valued_constant))) 0%nat = Some (mkQty KConstant "c_M" u_m (PInt 3) false "M" false "" false))
    by (vm_compute; reflexivity).
  assert (O : snd (run_cmds empty_world valued_constant) = Ok tt) by (vm_compute; reflexivity).
  assert (A : attr_qty (w_mod (fst (run_cmds empty_world valued_constant))) "c" = Ok 0%nat) by (vm_compute; reflexivity).
  split; [destruct (run_cmds empty_world valued_constant); simpl in O; now subst|]. split; [exact A|]. split; [exact G|].
  split; [reflexivity|]. split; [reflexivity|]. split; [cbn [build]; unfold build_qty; now rewrite G|]. split; [reflexivity|].
  exists (mkVal (fun _ => 5%R) (fun _ _ => 0%R)). unfold qty_meaning. rewrite G. cbn [q_spec q_value v_q num_value].
  intros E. injection E as E. apply eq_IZR in E. discriminate E.
Qed.
Print Assumptions C58_created_refuted.
