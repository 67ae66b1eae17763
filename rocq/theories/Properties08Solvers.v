(** Property theorems C30-C34, C45-C47 (solvers and recorded results). *)
From Verif Require Import Base Num NumFacts UnitModel UnitFacts Sympy Node Build EquationModel ModelModel ProblemModel SolverModel DomainModel
  SpecUnits SpecExpr SpecDims SpecModel SpecInc SpecCall SpecProblem SpecSolver ProblemFacts SessionFacts UsualFacts DofFacts
  SolverFacts OdeFacts DaeFacts DomainFacts Demo Properties07Problems.
From Coq Require Import Reals Lra.
Notation num := Verif.Num.num.

(** x == y + 2 and y == 3*x. *)
Definition algebraic : list act :=
  [ANew "M" (mkDecls [] [] [CVar "y" "y" u_m false "" (PInt 0); CVar "x" "x" u_m false "" (PInt 0)]
     [CEq "e" "e" (UElem (UQty "x") (UNumR BAdd (UQty "y") (PInt 2))) true;
      CEq "f" "f" (UElem (UQty "y") (UNumL BMul (PInt 3) (UQty "x"))) true]);
   ACall 0%nat; AAdd 0%nat].

(** ** C30 *)
(** Whatever the numeric routines return is reported under the unknowns in order. *)
Theorem C30_scipy : forall V (one : V) eng acts s b guess out,
  resolved acts s b -> la_solve one eng (Some "scipy") guess b = Ok out ->
  exists x, dense_solve eng (b_exprs b) (b_varlist b) = Ok x /\
    (List.length x = List.length (b_varlist b) -> labelled (b_varlist b) x out).
Proof. exact (fun V one eng => @dense_result V one eng). Qed.
Print Assumptions C30_scipy.

Theorem C30_symbolicsys : forall V (one : V) eng acts s b ps guess out,
  resolved acts s b -> nla_solve one eng (Some "symbolicsys") ps guess b = Ok out ->
  exists g g' x, (guess = [] /\ g = repeat one (List.length (b_varlist b)) \/ guess <> [] /\ in_order (b_varlist b) guess g) /\
    started eng ps b g g' /\ root_find eng (b_varlist b) (b_exprs b) g' = (true, x) /\
    (List.length x = List.length (b_varlist b) -> labelled (b_varlist b) x out).
Proof. exact (fun V one eng => @root_result V one eng). Qed.
Print Assumptions C30_symbolicsys.

Theorem C30_linear_symbolicsys : forall V (one : V) eng acts s b guess out,
  resolved acts s b -> la_solve one eng (Some "symbolicsys") guess b = Ok out ->
  exists g x, (guess = [] /\ g = repeat one (List.length (b_varlist b)) \/ guess <> [] /\ in_order (b_varlist b) guess g) /\
    root_find eng (b_varlist b) (b_exprs b) g = (true, x) /\
    (List.length x = List.length (b_varlist b) -> labelled (b_varlist b) x out).
Proof.
  exact (fun V one eng acts s b guess out R H =>
    match root_result one eng acts s b None guess out R H with
    | ex_intro _ g (ex_intro _ g' (ex_intro _ x (conj G (conj E (conj F L))))) =>
        ex_intro _ g (ex_intro _ x (conj G (conj (eq_ind g' (fun z => root_find eng (b_varlist b) (b_exprs b) z = (true, x)) F g E) L)))
    end).
Qed.
Print Assumptions C30_linear_symbolicsys.

Theorem C30_missing_guess : forall V (one : V) eng ps guess b, guess <> [] ->
  (exists v, In v (b_varlist b) /\ dget v guess = None) ->
  la_solve one eng (Some "symbolicsys") guess b = Raise EKey /\ nla_solve one eng (Some "*") ps guess b = Raise EKey.
Proof. exact (fun V one eng ps guess b N H => conj (guess_missing one eng None guess b N H) (guess_missing one eng ps guess b N H)). Qed.
Print Assumptions C30_missing_guess.

(** getResults keeps the naming. *)
Theorem C30_reported : forall V names (x : list V) out, NoDup names -> List.length x = List.length names -> labelled names x out ->
  results_list out = x /\ NoDup (dkeys (results_dict out)) /\ forall k, dget k (results_dict out) = dget k out.
Proof.
  exact (fun V names x out N L H =>
    conj (labelled_vals names x out N L H) (results_same out (eq_ind_r (@NoDup string) N (proj1 H)))).
Qed.
Print Assumptions C30_reported.

Definition demo_engine : engines Z :=
  mkEng Z (fun _ vs => [List.combine vs [7; 8]]) (fun _ _ => Ok [7; 8]) (fun _ _ g => (true, map Z.succ g)) (fun _ _ _ _ => None).
Example C30_case : resolved algebraic (final algebraic) (the_block algebraic) /\
  b_varlist (the_block algebraic) = ["y_M"; "x_M"] /\
  la_solve 1 demo_engine (Some "scipy") [] (the_block algebraic) = Ok [("y_M", 7); ("x_M", 8)] /\
  nla_solve 1 demo_engine (Some "symbolicsys") None [("x_M", 4); ("y_M", 2)] (the_block algebraic) = Ok [("y_M", 3); ("x_M", 5)] /\
  nla_solve 1 demo_engine (Some "symbolicsys") None [("x_M", 4)] (the_block algebraic) = Raise EKey.
Proof.
  split; [apply run_resolved; vm_compute; reflexivity|]. repeat (split; [vm_compute; reflexivity|]). vm_compute. reflexivity.
Qed.

(** ** C45 *)
(** Full statement: [solved en b <-> forall e, In e (b_eqs b) -> holds en e].
    Missing: equations written [lhs == rhs]; refuted below. *)
Theorem C45_system_partial : forall acts s b en, resolved acts s b -> (forall e, In e (b_eqs b) -> eq_elementary e = false) ->
  (solved en b <-> forall e, In e (b_eqs b) -> holds en e).
Proof. exact system_residual. Qed.
Print Assumptions C45_system_partial.

(** In every case: what is solved is [rhs == 0] for an equation [lhs == rhs]. *)
Theorem C45_system_exact_partial : forall acts s b en, resolved acts s b ->
  (solved en b <-> forall e, In e (b_eqs b) ->
     if eq_elementary e then exists a c, eq_elem e = Some (a, c) /\ den (nd_sym c) en = Some 0%R else holds en e).
Proof. exact system_exact. Qed.
Print Assumptions C45_system_exact_partial.

Definition residual_form : list act :=
  [ANew "M" (mkDecls [] [] [CVar "y" "y" u_m false "" (PInt 0); CVar "x" "x" u_m false "" (PInt 0)]
     [CEq "e" "e" (UResid (UBin BSub (UQty "x") (UNumR BAdd (UQty "y") (PInt 2)))) true]);
   ACall 0%nat; AAdd 0%nat].
Example C45_case : resolved residual_form (final residual_form) (the_block residual_form) /\
  (forall e, In e (b_eqs (the_block residual_form)) -> eq_elementary e = false) /\ List.length (b_eqs (the_block residual_form)) = 1%nat.
Proof.
  split; [apply run_resolved; vm_compute; reflexivity|].
  assert (E : map eq_elementary (b_eqs (the_block residual_form)) = [false]) by (vm_compute; reflexivity).
  split; [|vm_compute; reflexivity]. intros e He. apply (in_map eq_elementary) in He. rewrite E in He. destruct He as [He|[]]. now symmetry.
Qed.

(** x = 0, y = -2 solves what the solver gets but not y == 3*x. *)
Theorem C45_system_refuted : exists acts s b en, resolved acts s b /\ solved en b /\ exists e, In e (b_eqs b) /\ ~ holds en e.
Proof.
  exists algebraic, (final algebraic), (the_block algebraic), (mkEnv (fun x => if String.eqb x "x_M" then 0%R else (-2)%R) (fun _ _ => 0%R)).
  split; [apply run_resolved; vm_compute; reflexivity|]. split.
  - assert (E : b_exprs (the_block algebraic) = [SAdd (SSym "y_M") (SNum (PInt 2)); SMul (SSym "x_M") (SNum (PInt 3))]) by (vm_compute; reflexivity).
    intros x Hx. rewrite E in Hx. destruct Hx as [<-|[<-|[]]]; cbn; f_equal; lra.
  - assert (E : map view (b_eqs (the_block algebraic)) =
      [(true, Some (SSym "x_M", ["x_M"], SAdd (SSym "y_M") (SNum (PInt 2))), Some (SSub (SSym "x_M") (SAdd (SSym "y_M") (SNum (PInt 2)))));
       (true, Some (SSym "y_M", ["y_M"], SMul (SSym "x_M") (SNum (PInt 3))), Some (SSub (SSym "y_M") (SMul (SSym "x_M") (SNum (PInt 3)))))])
      by (vm_compute; reflexivity).
    destruct (b_eqs (the_block algebraic)) as [|e1 [|e2 [|]]]; try discriminate E. exists e2. split; [right; now left|].
    intros (n & En & D). cbn [map view] in E. injection E as _ _ _ _ _ E. rewrite En in E. cbn in E. injection E as E. rewrite E in D. cbn in D.
    injection D as D. lra.
Qed.
Print Assumptions C45_system_refuted.

(** ** C31 *)
(** Full statement: for every accepted system.  Missing: right-hand sides with
    symbols other than the differentiated variables and time, a right-hand side
    that is just the time variable, names of which the time name is a part;
    refuted below for the last two. *)
Theorem C31_rhs_partial : forall t pn p b init tn compile s ode Y tau en,
  prints_numbers pn -> one_word t = true -> str_contains "_" t = true -> pr_time p = Some [t] ->
  Forall2 (explicit t) (b_diff b) ode -> closed_system t ode ->
  (compile = true -> b_eqs b = b_diff b /\ ode_unknowns t ode (b_varlist b)) -> ode <> [] ->
  dsolver_init b init tn compile = Ok s -> state_of t ode Y tau en ->
  ode_interface pn p b s Y tau = (b, Ok (map (fun xr => den (snd xr) en) ode)).
Proof. exact ode_rhs. Qed.
Print Assumptions C31_rhs_partial.

(** The initial state, in the order of the equations. *)
Theorem C31_initial : forall t ps b init tn compile s ode,
  Forall2 (explicit t) (b_diff b) ode -> dsolver_init b init tn compile = Ok s ->
  (forall y0, initial_state ps s init = Ok y0 -> in_order (map fst ode) init y0) /\
  ((exists x, In x (map fst ode) /\ dget x init = None) -> initial_state ps s init = Raise EKey) /\
  ((forall x, In x (map fst ode) -> dget x init <> None) -> exists y0, initial_state ps s init = Ok y0).
Proof. exact ode_initial. Qed.
Print Assumptions C31_initial.

(** Equations written [x.Diff(t) == rhs] are of the required form. *)
Theorem C31_written : forall h lx lt qx qt r arg nm e, hget h lx = Some qx -> hget h lt = Some qt -> q_spec qx = false ->
  build_eq h (UElem (UDiff lx (Some lt)) r) = Ok arg -> set_residual (blank_eqn nm) arg = (e, Ok tt) ->
  exists b, build h r = Ok b /\ explicit (q_name qt) e (q_name qx, nd_sym b).
Proof. exact written_explicit. Qed.
Print Assumptions C31_written.

(** dx/dt == y and dy/dt == t*x (all dimensionless), declared in the order t, y, x. *)
Definition u_one : unit := u_dimless.
Definition dvar (x : string) : cmd := CVar x x u_one false "" (PInt 0).
Definition oscillator : list act :=
  [ANew "M" (mkDecls [] [] [dvar "t"; dvar "y"; dvar "x"; CDist "x"; CDist "y"]
     [CEq "e" "e" (UElem (UDiff "x" (Some "t")) (UQty "y")) true;
      CEq "f" "f" (UElem (UDiff "y" (Some "t")) (UBin BMul (UQty "t") (UQty "x"))) true]);
   ACall 0%nat; AAdd 0%nat; ATime ["t_M"]].
Definition oscillator_ode : list (string * sx) := [("x_M", SSym "y_M"); ("y_M", SMul (SSym "t_M") (SSym "x_M"))].
Definition oscillator_init : dict num := [("y_M", PInt 5); ("t_M", PInt 0); ("x_M", PInt 4)].
Definition oscillator_env : env :=
  mkEnv (fun z => if String.eqb z "x_M" then 4%R else if String.eqb z "y_M" then 5%R else 2%R) (fun _ _ => 0%R).

Definition is_ok {A} (r : res A) : bool := match r with Ok _ => true | Raise _ => false end.
Lemma ok_some {A} (r : res A) : is_ok r = true -> exists x, r = Ok x.
Proof. destruct r as [x|]; [exists x; reflexivity|discriminate]. Qed.
Lemma ok_solver b init tn compile : is_ok (dsolver_init b init tn compile) = true -> exists s, dsolver_init b init tn compile = Ok s.
Proof. destruct (dsolver_init b init tn compile) as [s|]; [exists s; reflexivity|discriminate]. Qed.

Lemma oscillator_explicit : Forall2 (explicit "t_M") (b_diff (the_block oscillator)) oscillator_ode.
Proof. apply views_explicit. vm_compute. reflexivity. Qed.
Lemma oscillator_closed : closed_system "t_M" oscillator_ode.
Proof.
  split; [repeat constructor; cbn; intuition discriminate|]. split; [cbn; intuition discriminate|].
  intros x r [H|[H|[]]]; injection H as <- <-; (split; [intros z Hz; cbn in *; intuition congruence|split; [reflexivity|split; [|discriminate]]]);
    intros y Hy; cbn in Hy; repeat (destruct Hy as [<-|Hy]; [split; [intros H; first [reflexivity|discriminate H]|reflexivity]|]); destruct Hy.
Qed.
Lemma oscillator_unknowns : ode_unknowns "t_M" oscillator_ode (b_varlist (the_block oscillator)).
Proof.
  assert (E : b_varlist (the_block oscillator) = ["t_M"; "y_M"; "x_M"]) by (vm_compute; reflexivity). rewrite E.
  split; [repeat constructor; cbn; intuition discriminate|].
  assert (U : uses_time "t_M" oscillator_ode) by (exists "y_M", (SMul (SSym "t_M") (SSym "x_M")); split; [right; now left|now left]).
  intros x. cbn. intuition.
Qed.
Example C31_case : resolved oscillator (final oscillator) (the_block oscillator) /\
  pr_time (snd (final oscillator)) = Some ["t_M"] /\ one_word "t_M" = true /\ str_contains "_" "t_M" = true /\
  Forall2 (explicit "t_M") (b_diff (the_block oscillator)) oscillator_ode /\ closed_system "t_M" oscillator_ode /\
  b_eqs (the_block oscillator) = b_diff (the_block oscillator) /\
  ode_unknowns "t_M" oscillator_ode (b_varlist (the_block oscillator)) /\
  (exists s, dsolver_init (the_block oscillator) oscillator_init (TNames ["t_M"]) true = Ok s /\
     initial_state (fun _ => "") s oscillator_init = Ok [PInt 4; PInt 5] /\
     snd (ode_interface print_one (snd (final oscillator)) (the_block oscillator) s [4%R; 5%R] 2%R) = Ok [Some 5%R; Some (2 * 4)%R]) /\
  state_of "t_M" oscillator_ode [4%R; 5%R] 2%R oscillator_env.
Proof.
  assert (St : state_of "t_M" oscillator_ode [4%R; 5%R] 2%R oscillator_env).
  { split; [reflexivity|]. split; [|reflexivity]. intros [|[|j]] x r H; cbn in H; try (injection H as <- <-; reflexivity). destruct j; discriminate. }
  assert (Eq : b_eqs (the_block oscillator) = b_diff (the_block oscillator)) by (vm_compute; reflexivity).
  split; [apply run_resolved; vm_compute; reflexivity|]. split; [vm_compute; reflexivity|]. split; [reflexivity|]. split; [reflexivity|].
  split; [exact oscillator_explicit|]. split; [exact oscillator_closed|]. split; [exact Eq|].
  split; [exact oscillator_unknowns|]. split; [|exact St].
  destruct (ok_solver (the_block oscillator) oscillator_init (TNames ["t_M"]) true) as (s & Es); [vm_compute; reflexivity|].
  exists s. split; [exact Es|]. split.
  - assert (E : match dsolver_init (the_block oscillator) oscillator_init (TNames ["t_M"]) true with
                | Ok s => initial_state (fun _ => "") s oscillator_init | Raise x => Raise x end = Ok [PInt 4; PInt 5]) by (vm_compute; reflexivity).
    now rewrite Es in E.
  - rewrite (ode_rhs "t_M" print_one (snd (final oscillator)) (the_block oscillator) oscillator_init (TNames ["t_M"]) true s oscillator_ode
               [4%R; 5%R] 2%R oscillator_env); try assumption; try reflexivity.
    + exact print_one_ok.
    + exact oscillator_explicit.
    + exact oscillator_closed.
    + split; [exact Eq|exact oscillator_unknowns].
    + discriminate.
Qed.

(** dx/dt == mdot, dmdot/dt == x: the time name t_M is part of mdot_M and the
    compiled function gets an argument too many. *)
Definition name_part : list act :=
  [ANew "M" (mkDecls [] [] [dvar "t"; dvar "mdot"; dvar "x"; CDist "x"; CDist "mdot"]
     [CEq "e" "e" (UElem (UDiff "x" (Some "t")) (UQty "mdot")) true;
      CEq "f" "f" (UElem (UDiff "mdot" (Some "t")) (UNumL BMul (PInt 2) (UQty "mdot"))) true]);
   ACall 0%nat; AAdd 0%nat; ATime ["t_M"]].
Definition name_part_init : dict num := [("mdot_M", PInt 5); ("t_M", PInt 0); ("x_M", PInt 4)].
Theorem C31_part_of_name_refuted : exists acts s b init ds, resolved acts s b /\ pr_time (snd s) = Some ["t_M"] /\
  Forall2 (explicit "t_M") (b_diff b) [("x_M", SSym "mdot_M"); ("mdot_M", SMul (SSym "mdot_M") (SNum (PInt 2)))] /\
  dsolver_init b init (TNames ["t_M"]) true = Ok ds /\
  forall Y tau, List.length Y = 2%nat -> snd (ode_interface print_one (snd s) b ds Y tau) = Raise EType.
Proof.
  exists name_part, (final name_part), (the_block name_part), name_part_init.
  destruct (ok_solver (the_block name_part) name_part_init (TNames ["t_M"]) true) as (ds & Es); [vm_compute; reflexivity|].
  exists ds. split; [apply run_resolved; vm_compute; reflexivity|].
  assert (T : pr_time (snd (final name_part)) = Some ["t_M"]) by (vm_compute; reflexivity). split; [exact T|].
  split; [apply views_explicit; vm_compute; reflexivity|]. split; [exact Es|].
  intros [|y1 [|y2 [|]]] tau L; try discriminate L.
  assert (K : match dsolver_init (the_block name_part) name_part_init (TNames ["t_M"]) true with
              | Ok s => (dkeys (ds_y s), ds_fun s) | Raise x => ([], None) end =
              (["x_M"; "mdot_M"], Some (["mdot_M"; "x_M"], [SSym "mdot_M"; SMul (SSym "mdot_M") (SNum (PInt 2))]))) by (vm_compute; reflexivity).
  rewrite Es in K. injection K as K1 K2.
  assert (H : has_var print_one (Some ["t_M"]) (b_diff (the_block name_part)) = Ok true) by (vm_compute; reflexivity).
  assert (V : b_varlist (the_block name_part) = ["mdot_M"; "x_M"]) by (vm_compute; reflexivity).
  unfold ode_interface. rewrite T. cbn [bind_times]. rewrite H, K1, K2, V. reflexivity.
Qed.
Print Assumptions C31_part_of_name_refuted.

(** dx/dt == t: the time is not passed on. *)
Definition bare_init : dict num := [("t_M", PInt 0); ("x_M", PInt 4)].
Theorem C31_bare_time_refuted : exists acts s b init compiled plain_ds, resolved acts s b /\ pr_time (snd s) = Some ["t_M"] /\
  Forall2 (explicit "t_M") (b_diff b) [("x_M", SSym "t_M")] /\
  dsolver_init b init (TNames ["t_M"]) true = Ok compiled /\ dsolver_init b init (TNames ["t_M"]) false = Ok plain_ds /\
  forall y tau, snd (ode_interface print_one (snd s) b compiled [y] tau) = Raise EKey /\
                snd (ode_interface print_one (snd s) b plain_ds [y] tau) = Ok [None].
Proof.
  exists bare_time, (final bare_time), (the_block bare_time), bare_init.
  destruct (ok_solver (the_block bare_time) bare_init (TNames ["t_M"]) true) as (ds & Es); [vm_compute; reflexivity|].
  destruct (ok_solver (the_block bare_time) bare_init (TNames ["t_M"]) false) as (ds' & Es'); [vm_compute; reflexivity|].
  exists ds, ds'. split; [apply run_resolved; vm_compute; reflexivity|].
  assert (T : pr_time (snd (final bare_time)) = Some ["t_M"]) by (vm_compute; reflexivity). split; [exact T|].
  split; [apply views_explicit; vm_compute; reflexivity|]. split; [exact Es|]. split; [exact Es'|].
  intros y tau.
  assert (K : match dsolver_init (the_block bare_time) bare_init (TNames ["t_M"]) true with
              | Ok s => (dkeys (ds_y s), ds_fun s) | Raise x => ([], None) end = (["x_M"], Some (["x_M"; "t_M"], [SSym "t_M"]))) by (vm_compute; reflexivity).
  rewrite Es in K. injection K as K1 K2.
  assert (K' : match dsolver_init (the_block bare_time) bare_init (TNames ["t_M"]) false with
              | Ok s => (dkeys (ds_y s), ds_fun s, map (fun e => match eval_target e (Some SRhs) with Ok (Some n) => Some (nd_sym n) | _ => None end) (ds_eqs s))
              | Raise x => ([], None, []) end = (["x_M"], None, [Some (SSym "t_M")])) by (vm_compute; reflexivity).
  rewrite Es' in K'. injection K' as K1' K2' K3'.
  assert (H : has_var print_one (Some ["t_M"]) (b_diff (the_block bare_time)) = Ok false) by (vm_compute; reflexivity).
  assert (V : b_varlist (the_block bare_time) = ["x_M"; "t_M"]) by (vm_compute; reflexivity).
  split.
  - unfold ode_interface. rewrite T. cbn [bind_times]. rewrite H, K1, K2, V. reflexivity.
  - unfold ode_interface. rewrite T. cbn [bind_times]. rewrite H, K1', K2'. cbn [rbind snd].
    destruct (ds_eqs ds') as [|e [|]]; try discriminate K3'. injection K3' as K3'. cbn [map_res].
    change (match eval_target e (Some SRhs) with Ok (Some n) => Some (nd_sym n) | _ => None end = Some (SSym "t_M")) in K3'.
    destruct (eval_target e (Some SRhs)) as [[n|]|] in K3' |- *; try discriminate K3'. injection K3' as K3'. rewrite K3'. reflexivity.
Qed.
Print Assumptions C31_bare_time_refuted.

(** ** C46 *)
(** Full statement: for every accepted system, derivatives computed for the
    integrator make the equations hold.  Missing: equations other than
    [x.Diff(t) == rhs]; refuted below. *)
Theorem C46_integrated_partial : forall t e x r en, explicit t e (x, r) -> den r en = Some (e_der en x t) -> holds en e.
Proof. exact ode_faithful. Qed.
Print Assumptions C46_integrated_partial.

Example C46_case : exists e en, explicit "t_M" e ("y_M", SMul (SSym "t_M") (SSym "x_M")) /\
  den (SMul (SSym "t_M") (SSym "x_M")) en = Some (e_der en "y_M" "t_M") /\ e_der en "y_M" "t_M" = 8%R.
Proof.
  assert (F := oscillator_explicit). revert F. generalize (b_diff (the_block oscillator)). unfold oscillator_ode. intros l F. inversion F as [|e1 xr1 l1 o1 X1 F1]; subst. inversion F1 as [|e2 xr2 l2 o2 X2 F2]; subst.
  exists e2, (mkEnv (e_sym oscillator_env) (fun _ _ => 8%R)). split; [exact X2|]. split; [|reflexivity]. cbn. f_equal; lra.
Qed.

(** x + dx/dt == 0 is accepted and integrated as dx/dt == 0. *)
Definition implicit_ode : list act :=
  [ANew "M" (mkDecls [] [] [dvar "t"; dvar "x"; CDist "x"]
     [CEq "e" "e" (UElemN (UBin BAdd (UQty "x") (UDiff "x" (Some "t"))) (PInt 0)) true]);
   ACall 0%nat; AAdd 0%nat; ATime ["t_M"]].
Theorem C46_integrated_refuted : exists acts s b init ds e, resolved acts s b /\ pr_time (snd s) = Some ["t_M"] /\ b_eqs b = [e] /\ b_diff b = [e] /\
  b_varlist b = ["x_M"] /\ dsolver_init b init (TNames ["t_M"]) true = Ok ds /\
  (forall ps, initial_state ps ds init = Ok [PInt 4]) /\
  (forall x tau, snd (ode_interface print_one (snd s) b ds [x] tau) = Ok [Some 0%R]) /\
  exists en, e_sym en "x_M" = 4%R /\ e_der en "x_M" "t_M" = 0%R /\ ~ holds en e.
Proof.
  exists implicit_ode, (final implicit_ode), (the_block implicit_ode), bare_init.
  destruct (ok_solver (the_block implicit_ode) bare_init (TNames ["t_M"]) true) as (ds & Es); [vm_compute; reflexivity|].
  assert (W : map view (b_eqs (the_block implicit_ode)) =
    [(true, Some (SAdd (SSym "x_M") (SDer "x_M" "t_M"), ["x_M"], SNum (PInt 0)), Some (SSub (SAdd (SSym "x_M") (SDer "x_M" "t_M")) (SNum (PInt 0))))])
    by (vm_compute; reflexivity).
  assert (D : b_diff (the_block implicit_ode) = b_eqs (the_block implicit_ode)) by (vm_compute; reflexivity).
  assert (V : b_varlist (the_block implicit_ode) = ["x_M"]) by (vm_compute; reflexivity).
  assert (T : pr_time (snd (final implicit_ode)) = Some ["t_M"]) by (vm_compute; reflexivity).
  assert (H : has_var print_one (Some ["t_M"]) (b_diff (the_block implicit_ode)) = Ok false) by (vm_compute; reflexivity).
  assert (K : match dsolver_init (the_block implicit_ode) bare_init (TNames ["t_M"]) true with
              | Ok s => (dkeys (ds_y s), ds_fun s) | Raise x => ([], None) end = (["x_M"], Some (["x_M"], [SNum (PInt 0)]))) by (vm_compute; reflexivity).
  rewrite Es in K. injection K as K1 K2.
  assert (Hi : forall ps, match dsolver_init (the_block implicit_ode) bare_init (TNames ["t_M"]) true with
              | Ok s => initial_state ps s bare_init | Raise x => Raise x end = Ok [PInt 4]) by (intros ps; vm_compute; reflexivity).
  rewrite Es in Hi.
  assert (R : resolved implicit_ode (final implicit_ode) (the_block implicit_ode)) by (apply run_resolved; vm_compute; reflexivity).
  revert R W D V T H Es Hi. generalize (final implicit_ode). generalize (the_block implicit_ode). intros b s R W D V T H Es Hi.
  destruct (b_eqs b) as [|e [|]] eqn:Eb; try discriminate W. exists ds, e. split; [exact R|]. split; [exact T|]. split; [reflexivity|]. split; [exact D|].
  split; [exact V|]. split; [exact Es|]. split; [exact Hi|]. split.
  - intros x tau. unfold ode_interface. rewrite T. cbn [bind_times]. rewrite H, K1, K2, V. reflexivity.
  - exists (mkEnv (fun _ => 4%R) (fun _ _ => 0%R)). split; [reflexivity|]. split; [reflexivity|]. intros (n & En & Dn).
    cbn [map view] in W. injection W as _ _ W. rewrite En in W. cbn in W. injection W as W. rewrite W in Dn. cbn in Dn. injection Dn as Dn. lra.
Qed.
Print Assumptions C46_integrated_refuted.

(** ** C32 *)
(** Full statement: for all orders of distributeOnDomain calls.  Missing: orders
    other than that of the equations; refuted below.  Component [j] of the rows is
    the trajectory of the variable of equation [j] (C31). *)
Theorem C32_columns_partial : forall V (d d' : domain V) t times y names (ode : list (string * sx)),
  cleared d -> d_ind d = [t] -> mx_ok y -> record_run d times y names = (d', Ok tt) ->
  NoDup (map (header names) (d_ind d ++ d_dep d)) -> d_dep d = map fst ode ->
  column d' t (LName (header names t)) = Some times /\
  forall j x r, nth_error ode j = Some (x, r) ->
    exists col, column d' t (LName (header names x)) = Some col /\ trajectory j (mx_rows y) col.
Proof.
  exact (fun V => @record_columns V).
Qed.
Print Assumptions C32_columns_partial.

(** In every case: the [j]-th variable distributed labels component [j]. *)
Theorem C32_columns_exact : forall V (d : domain V) t times y names d',
  cleared d -> d_ind d = [t] -> mx_ok y -> record_run d times y names = (d', Ok tt) ->
  NoDup (map (header names) (d_ind d ++ d_dep d)) ->
  d_ind d' = d_ind d /\ d_dep d' = d_dep d /\ mx_width y = List.length (d_dep d) /\ List.length times = List.length (mx_rows y) /\
  column d' t (LName (header names t)) = Some times /\
  (forall j x, nth_error (d_dep d) j = Some x ->
     exists col, column d' t (LName (header names x)) = Some col /\ trajectory j (mx_rows y) col).
Proof. exact (fun V => @record_exact V). Qed.
Print Assumptions C32_columns_exact.

Definition demo_domain : domain Z := run_dacts (new_domain ["t_M"]) [DDist "x_M"; DDist "y_M"].
Lemma demo_domain_cleared : cleared demo_domain.
Proof.
  eexists. split; [reflexivity|]. split; [reflexivity|]. intros k f [H|[]]. injection H as <- <-. reflexivity.
Qed.
Definition demo_rows : matrix Z := mkM 2 [[4; 5]; [6; 7]; [8; 9]].
Example C32_case : cleared demo_domain /\ d_ind demo_domain = ["t_M"] /\ d_dep demo_domain = map fst oscillator_ode /\ mx_ok demo_rows /\
  (exists d', record_run demo_domain [0; 1; 2] demo_rows [("y_M", "speed")] = (d', Ok tt) /\
     column d' "t_M" (LName "x_M") = Some [4; 6; 8] /\ column d' "t_M" (LName "speed") = Some [5; 7; 9]) /\
  NoDup (map (header [("y_M", "speed")]) (d_ind demo_domain ++ d_dep demo_domain)).
Proof.
  split; [exact demo_domain_cleared|]. split; [reflexivity|]. split; [reflexivity|].
  split; [intros r [<-|[<-|[<-|[]]]]; reflexivity|]. split; [eexists; split; [reflexivity|split; reflexivity]|].
  repeat constructor; cbn; intuition discriminate.
Qed.

(** Distributed in the order y, x: the columns are swapped. *)
Theorem C32_columns_refuted : exists (acts : list (dact Z)) d',
  (forall x, In x (map fst oscillator_ode) <-> In x (distributed acts)) /\
  record_run (run_dacts (new_domain ["t_M"]) acts) [0; 1; 2] demo_rows [] = (d', Ok tt) /\
  nth_error oscillator_ode 0 = Some ("x_M", SSym "y_M") /\ trajectory 0 (mx_rows demo_rows) [4; 6; 8] /\
  column d' "t_M" (LName "x_M") = Some [5; 7; 9].
Proof.
  exists [DDist "y_M"; DDist "x_M"]. eexists. split; [intros x; cbn; tauto|]. split; [reflexivity|]. split; [reflexivity|].
  split; [repeat constructor|reflexivity].
Qed.
Print Assumptions C32_columns_refuted.

(** ** C33 *)
Theorem C33_reset : forall V ind (l : list (dact V)), NoDup ind ->
  let d := reset (run_dacts (new_domain ind) l) in d_ind d = ind /\ d_dep d = distributed l /\ cleared d.
Proof. exact (fun V => @reset_exact V). Qed.
Print Assumptions C33_reset.

Example C33_case : let l := [DDist "y_M"; DDist "x_M"; DRegister (mkM 3 [[0; 1; 2]]); DRename [("x_M", "z")]; DDist "y_M"] in
  distributed l = ["y_M"; "x_M"] /\
  column (reset (run_dacts (new_domain ["t_M"]) l)) "t_M" (LName "x_M") = Some [].
Proof. split; reflexivity. Qed.

(** Full statement: the second block is appended below the first under the same
    names.  Instead, after a first block with rows, a second one is refused unless
    the first has as many rows as columns, and then the names are lost. *)
Theorem C33_append_partial : forall V (d : domain V) t m1 m2, cleared d -> d_ind d = [t] -> mx_rows m1 <> [] ->
  mx_width m1 = S (List.length (d_dep d)) -> mx_width m2 = mx_width m1 ->
  let d1 := fst (register d m1) in
  register d1 m2 =
    if Nat.eqb (mx_width m1) (List.length (mx_rows m1))
    then (mkD (d_ind d) (d_dep d) (Some [(t, mkF (map LNum (seq 0 (List.length (mx_rows m1)))) (mx_rows m1 ++ mx_rows m2))]), Ok tt)
    else (d1, Raise EValue).
Proof. exact (fun V => @register_again V). Qed.
Print Assumptions C33_append_partial.

Theorem C33_append_refuted : exists (d1 : domain Z) m1 m2 m3, cleared demo_domain /\
  register demo_domain m1 = (d1, Ok tt) /\ mx_ok m1 /\ mx_ok m2 /\ mx_width m2 = mx_width m1 /\
  snd (register d1 m2) = Ok tt /\ column (fst (register d1 m2)) "t_M" (LName "x_M") = None /\
  snd (register (fst (register demo_domain m3)) m2) = Raise EValue /\ mx_ok m3 /\ snd (register demo_domain m3) = Ok tt.
Proof.
  eexists. exists (mkM 3 [[0; 1; 2]; [1; 2; 3]; [2; 3; 4]]), (mkM 3 [[3; 4; 5]]), (mkM 3 [[0; 1; 2]; [1; 2; 3]]).
  split; [exact demo_domain_cleared|]. split; [reflexivity|].
  repeat split; try reflexivity; intros r Hr; cbn in Hr; intuition (subst; reflexivity).
Qed.
Print Assumptions C33_append_refuted.

(** ** C34 *)
(** Full statement: for every order of variables.  Missing: unknowns that are not
    listed with the differentiated variables first, in the order of the
    equations; refuted below. *)
Theorem C34_paired_partial : forall pn b dae y yd en,
  Forall2 (residual_ode pn) (b_diff b) dae -> dae <> [] -> closed_dae b dae ->
  states_first (b_varlist b) dae -> paired (b_varlist b) y yd en ->
  exists vs, dae_function pn b y yd = Ok vs /\ residual_values en (b_eqs b) vs.
Proof. exact dae_paired. Qed.
Print Assumptions C34_paired_partial.

(** In every case: derivatives are numbered by their equations. *)
Theorem C34_by_equation : forall pn b dae y yd en,
  Forall2 (residual_ode pn) (b_diff b) dae -> dae <> [] -> closed_dae b dae ->
  by_equation (b_varlist b) dae y yd en ->
  exists vs, dae_function pn b y yd = Ok vs /\ residual_values en (b_eqs b) vs.
Proof. exact dae_exact. Qed.
Print Assumptions C34_by_equation.

(** dx/dt == z and z == 3*x. *)
Definition dae_equations : list cmd :=
  [CEq "e" "e" (UElem (UDiff "x" (Some "t")) (UQty "z")) true;
   CEq "f" "f" (UElem (UQty "z") (UNumL BMul (PInt 3) (UQty "x"))) true].
Definition state_first : list act :=
  [ANew "M" (mkDecls [] [] [dvar "t"; dvar "x"; dvar "z"; CDist "x"] dae_equations); ACall 0%nat; AAdd 0%nat; ATime ["t_M"]].
Definition algebraic_first : list act :=
  [ANew "M" (mkDecls [] [] [dvar "t"; dvar "z"; dvar "x"; CDist "x"] dae_equations); ACall 0%nat; AAdd 0%nat; ATime ["t_M"]].
Definition the_dae : list (string * string * sx) := [("x_M", "t_M", SSym "z_M")].

Lemma dae_parts b : map view (b_diff b) = [explicit_view "t_M" ("x_M", SSym "z_M")] ->
  map view (b_eqs b) = [explicit_view "t_M" ("x_M", SSym "z_M");
    (true, Some (SSym "z_M", ["z_M"], SMul (SSym "x_M") (SNum (PInt 3))), Some (SSub (SSym "z_M") (SMul (SSym "x_M") (SNum (PInt 3)))))] ->
  NoDup (b_varlist b) -> In "x_M" (b_varlist b) -> In "z_M" (b_varlist b) ->
  Forall2 (residual_ode print_one) (b_diff b) the_dae /\ closed_dae b the_dae.
Proof.
  intros D W N Hx Hz. split.
  - destruct (b_diff b) as [|e [|]]; try discriminate D. cbn [map view] in D. injection D as _ _ D. constructor; [|constructor].
    destruct (eq_expr e) as [n|] eqn:En; [|discriminate]. cbn in D. injection D as D.
    apply (usual_residual print_one e n); [exact En|exact D|reflexivity|split; [reflexivity|intros y [<-|[]]; reflexivity]].
  - split; [exact N|]. split; [repeat constructor; cbn; intuition|].
    destruct (b_eqs b) as [|e1 [|e2 [|]]]; try discriminate W. cbn [map view] in W. injection W as _ _ W1 _ _ W2.
    destruct (eq_expr e1) as [n1|] eqn:E1; [|discriminate]. destruct (eq_expr e2) as [n2|] eqn:E2; [|discriminate].
    cbn in W1, W2. injection W1 as W1. injection W2 as W2.
    intros e [<-|[<-|[]]].
    + exists n1. split; [exact E1|]. rewrite W1. split; intros z Hin; cbn in Hin; intuition (subst; auto). now left.
    + exists n2. split; [exact E2|]. rewrite W2. split; intros z Hin; cbn in Hin; intuition (subst; auto).
Qed.

Example C34_case : resolved state_first (final state_first) (the_block state_first) /\
  Forall2 (residual_ode print_one) (b_diff (the_block state_first)) the_dae /\ closed_dae (the_block state_first) the_dae /\
  states_first (b_varlist (the_block state_first)) the_dae /\
  paired (b_varlist (the_block state_first)) [2%R; 6%R] [7%R; 8%R]
    (mkEnv (fun x => if String.eqb x "x_M" then 2%R else 6%R) (fun x _ => if String.eqb x "x_M" then 7%R else 8%R)).
Proof.
  assert (V : b_varlist (the_block state_first) = ["x_M"; "z_M"]) by (vm_compute; reflexivity).
  split; [apply run_resolved; vm_compute; reflexivity|].
  assert (P : Forall2 (residual_ode print_one) (b_diff (the_block state_first)) the_dae /\ closed_dae (the_block state_first) the_dae).
  { apply dae_parts; [vm_compute; reflexivity|vm_compute; reflexivity|rewrite V..]; [|cbn; auto|cbn; auto].
    repeat constructor; cbn; intuition discriminate. }
  split; [apply P|]. split; [apply P|]. rewrite V. split; [exists ["z_M"]; reflexivity|].
  split; [reflexivity|]. split; [reflexivity|]. intros [|[|i]] x H; cbn in H; try (injection H as <-; split; reflexivity). destruct i; discriminate.
Qed.

(** With z declared before x the residual of the first equation is computed with
    the derivative at position 0, that of z. *)
Theorem C34_paired_refuted : exists acts s b y yd en, resolved acts s b /\
  Forall2 (residual_ode print_one) (b_diff b) the_dae /\ closed_dae b the_dae /\
  paired (b_varlist b) y yd en /\
  exists vs, dae_function print_one b y yd = Ok vs /\ ~ residual_values en (b_eqs b) vs.
Proof.
  assert (V : b_varlist (the_block algebraic_first) = ["z_M"; "x_M"]) by (vm_compute; reflexivity).
  assert (P : Forall2 (residual_ode print_one) (b_diff (the_block algebraic_first)) the_dae /\ closed_dae (the_block algebraic_first) the_dae).
  { apply dae_parts; [vm_compute; reflexivity|vm_compute; reflexivity|rewrite V..]; [|cbn; auto|cbn; auto].
    repeat constructor; cbn; intuition discriminate. }
  assert (W : map view (b_eqs (the_block algebraic_first)) = [explicit_view "t_M" ("x_M", SSym "z_M");
    (true, Some (SSym "z_M", ["z_M"], SMul (SSym "x_M") (SNum (PInt 3))), Some (SSub (SSym "z_M") (SMul (SSym "x_M") (SNum (PInt 3)))))])
    by (vm_compute; reflexivity).
  assert (R : resolved algebraic_first (final algebraic_first) (the_block algebraic_first)) by (apply run_resolved; vm_compute; reflexivity).
  revert V P W R. generalize (final algebraic_first). generalize (the_block algebraic_first). intros b s V [P1 P2] W R.
  exists algebraic_first, s, b, [6%R; 2%R], [8%R; 7%R],
    (mkEnv (fun x => if String.eqb x "x_M" then 2%R else 6%R) (fun x _ => if String.eqb x "x_M" then 7%R else 8%R)).
  split; [exact R|]. split; [exact P1|]. split; [exact P2|]. split.
  - rewrite V. split; [reflexivity|]. split; [reflexivity|]. intros [|[|i]] x H; cbn in H; try (injection H as <-; split; reflexivity). destruct i; discriminate.
  - destruct (dae_exact print_one b the_dae [6%R; 2%R] [8%R; 7%R]
      (mkEnv (fun x => if String.eqb x "x_M" then 2%R else 6%R) (fun x _ => if String.eqb x "x_M" then 8%R else 0%R))) as (vs & Ev & Rv); auto.
    + discriminate.
    + rewrite V. split; [reflexivity|]. split; [cbn; lia|]. split.
      * intros [|[|i]] x H; cbn in H; try (injection H as <-; reflexivity). destruct i; discriminate.
      * intros [|k] x t r H; cbn in H; [injection H as <- <- <-; reflexivity|destruct k; discriminate].
    + exists vs. split; [exact Ev|]. intros Q.
      destruct (b_eqs b) as [|e1 [|e2 [|]]]; try discriminate W. cbn [map view] in W. injection W as _ _ W1 _ _ _.
      inversion Rv as [|? v1 ? ? (n1 & N1 & D1) _]; subst. inversion Q as [|? v1' ? ? (n1' & N1' & D1') _]; subst.
      rewrite N1 in W1. cbn in W1. injection W1 as W1. assert (n1' = n1) by congruence. subst n1'.
      rewrite W1 in D1'. cbn in D1'. injection D1' as D1'. lra.
Qed.
Print Assumptions C34_paired_refuted.

(** ** C47 *)
(** Full statement: both initial vectors have one entry for each unknown, its
    value and the one named by adding _d.
    Missing: any number of algebraic unknowns other than one; refuted below. *)
Theorem C47_initial_partial : forall ps pn b init dae y0 yd0,
  Forall2 (residual_ode pn) (b_diff b) dae -> NoDup (map fst dae) -> dae_initial ps pn b init = Ok (y0, yd0) ->
  in_order (b_varlist b) init y0 /\ List.length y0 = List.length (b_varlist b) /\ List.length yd0 = S (List.length dae) /\
  exists rates, in_order (map (fun xtr => fst (fst xtr) ++ "_d")%string dae) init rates /\ yd0 = rates ++ [PFloat (SpecFloat.S754_zero false)].
Proof. exact dae_initial_lengths. Qed.
Print Assumptions C47_initial_partial.

Definition two_algebraic : list act :=
  [ANew "M" (mkDecls [] [] [dvar "t"; dvar "x"; dvar "z"; dvar "w"; CDist "x"]
     (dae_equations ++ [CEq "g" "g" (UElem (UQty "w") (UNumL BMul (PInt 3) (UQty "z"))) true])); ACall 0%nat; AAdd 0%nat; ATime ["t_M"]].
Definition dae_init : dict num := [("x_M", PInt 1); ("z_M", PInt 3); ("w_M", PInt 9); ("x_M_d", PInt 3)].
Example C47_case : dae_initial (fun _ => "") print_one (the_block state_first) dae_init =
  Ok ([PInt 1; PInt 3], [PInt 3; PFloat (SpecFloat.S754_zero false)]) /\ b_varlist (the_block state_first) = ["x_M"; "z_M"].
Proof. split; vm_compute; reflexivity. Qed.
Theorem C47_initial_refuted : exists acts s b init y0 yd0, resolved acts s b /\ List.length (b_varlist b) = List.length (b_eqs b) /\
  dae_initial (fun _ => "") print_one b init = Ok (y0, yd0) /\ List.length (b_varlist b) = 3%nat /\ List.length yd0 = 2%nat.
Proof.
  exists two_algebraic, (final two_algebraic), (the_block two_algebraic), dae_init,
    [PInt 1; PInt 3; PInt 9], [PInt 3; PFloat (SpecFloat.S754_zero false)].
  split; [apply run_resolved; vm_compute; reflexivity|]. repeat (split; [vm_compute; reflexivity|]). reflexivity.
Qed.
Print Assumptions C47_initial_refuted.
