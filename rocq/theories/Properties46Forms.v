(** C80, continued: other forms of the equations. *)
From Verif Require Import Base BaseFacts Num UnitModel Sympy Node Build EquationModel ModelModel ProblemModel SpecUnits SpecExpr SpecModel SpecInc SpecCall SpecProblem
  ProblemFacts SessionFacts SpecLink SolverModel DomainModel SpecSolver SolverFacts SpecSymbols OdeFacts DaeFacts SpecWritten SpecExact SpecOwn SpecSession StudyFacts
  SpecSaid SaidFacts SpecInit InitFacts RunModel SpecRun RunFacts DaeRunFacts SpecScaled ScaledFacts Demo Properties07Problems Properties08Solvers Properties16Written Properties19Sessions
  Properties22Links Properties24Said Properties29Run Properties30Dae.
From Coq Require Import Reals Lra.
Notation num := Verif.Num.num.

(** A problem in which a derivative is a term with a number before it (2*dx/dt == z) is
    never simulated, whatever the integrator, the options and the initial values. *)
Theorem C80_scaled : forall pn ps p b k, (exists e u, In e (b_diff b) /\ scaled_in k u e) -> forall ida o d,
  exists x, dae_solve ida pn ps p b o d = (d, Raise x).
Proof. exact scaled_never. Qed.
Print Assumptions C80_scaled.

(** ** 2*dx/dt == z, z == 3*x *)
Definition twice_equations : list cmd :=
  [CEq "e" "e" (UElem (UNumL BMul (PInt 2) (UDiff "x" (Some "t"))) (UQty "z")) true;
   CEq "f" "f" (UElem (UQty "z") (UNumL BMul (PInt 3) (UQty "x"))) true].
Definition twice : list act := ANew "M" (mkDecls [] [] [] twice_equations) :: growth_start.
Lemma symbols_at b s : map (fun e => option_map nd_sym (eq_expr e)) (b_diff b) = [Some s] -> exists e n, b_diff b = [e] /\ eq_expr e = Some n /\ nd_sym n = s.
Proof.
  destruct (b_diff b) as [|e [|? ?]]; try discriminate. cbn. destruct (eq_expr e) as [n|] eqn:E; [|discriminate]. cbn. intros H. injection H as <-. eauto.
Qed.
Example C80_scaled_case : resolved twice (final twice) (the_block twice) /\ all_ok start_session twice /\
  (exists e u, In e (b_diff (the_block twice)) /\ scaled_in (PInt 2) u e) /\
  (exists times k, dae_points growth_run = Ok times /\ lookup_all (pr_init (snd (final twice))) (b_varlist (the_block twice)) = Ok k) /\
  forall ida, dae_solve ida print_one no_print (snd (final twice)) (the_block twice) growth_run growth_domain = (growth_domain, Raise EIndex).
Proof.
  split; [apply run_resolved; vm_compute; reflexivity|]. split; [apply runs_all; vm_compute; reflexivity|]. split.
  - destruct (symbols_at (the_block twice) (SSub (SMul (SDer "x_M" "t_M") (SNum (PInt 2))) (SSym "z_M"))) as (e & n & -> & En & Es); [vm_compute; reflexivity|].
    exists e, (SMul (SDer "x_M" "t_M") (SNum (PInt 2))). split; [now left|]. exists n. rewrite Es. split; [exact En|]. split; [eexists _, _; now right|].
    split; [apply term_sub_l, term_itself|]. exists "x_M", "t_M". repeat split; try discriminate. now right.
  - split; [exists growth_points, [PInt 1; PInt 9]; split; [reflexivity|vm_compute; reflexivity]|].
    intros ida. unfold dae_solve. assert (D : dae_initial no_print print_one (the_block twice) (pr_init (snd (final twice))) = Raise EIndex) by (vm_compute; reflexivity).
    rewrite D. reflexivity.
Qed.

(** ** z - x == dx/dt - x, z == 3*x: a derivative on the other side, with other terms *)
Definition moved_equations : list cmd :=
  [CEq "e" "e" (UElem (UBin BSub (UQty "z") (UQty "x")) (UBin BSub (UDiff "x" (Some "t")) (UQty "x"))) true;
   CEq "f" "f" (UElem (UQty "z") (UNumL BMul (PInt 3) (UQty "x"))) true].
Definition moved : list act := ANew "M" (mkDecls [] [] [] moved_equations) :: growth_start.
Lemma moved_program : growth_like moved.
Proof.
  split; [apply run_resolved; vm_compute; reflexivity|]. split; [apply runs_all; vm_compute; reflexivity|].
  split; [apply (one_distinct moved "M"); vm_compute; reflexivity|]. split; [apply readable_by; vm_compute; reflexivity|].
  split; [vm_compute; reflexivity|]. split; [apply origins_by; vm_compute; reflexivity|]. split; [apply known_by; vm_compute; reflexivity|].
  intros c H. repeat (destruct H as [H|H]; [first [discriminate H|injection H as <-]|]); [|destruct H];
    repeat (constructor; [cbn; intuition discriminate|]); constructor.
Qed.
Lemma all_symbols b l : map (fun e => option_map nd_sym (eq_expr e)) (b_eqs b) = map Some l -> forall e, In e (b_eqs b) -> exists n, eq_expr e = Some n /\ In (nd_sym n) l.
Proof.
  intros E e H. assert (I : In (option_map nd_sym (eq_expr e)) (map Some l)) by (rewrite <- E; apply in_map_iff; eauto).
  apply in_map_iff in I. destruct I as (s & Es & I). destruct (eq_expr e) as [n|]; [|discriminate Es]. injection Es as ->. eauto.
Qed.
Definition moved_rate : sx := SSub (SSub (SSym "z_M") (SSym "x_M")) (SSub (SDer "x_M" "t_M") (SSym "x_M")).
Lemma moved_names : b_varlist (the_block moved) = ["x_M"; "z_M"].
Proof. vm_compute. reflexivity. Qed.
Lemma moved_parts : Forall2 (residual_ode print_one) (b_diff (the_block moved)) the_dae /\ closed_dae (the_block moved) the_dae.
Proof.
  split.
  - destruct (symbols_at (the_block moved) moved_rate) as (e & n & -> & En & Es); [vm_compute; reflexivity|]. constructor; [|constructor].
    assert (Q : forall s, der_free s = true -> incl (fsyms s) ["z_M"; "x_M"] -> quiet print_one s).
    { intros s D I. split; [exact D|]. split; [reflexivity|]. intros y Hy. apply I in Hy. destruct Hy as [<-|[<-|[]]]; reflexivity. }
    exists n. rewrite Es. split; [exact En|]. split.
    { apply rate_sub_r; [apply Q; [reflexivity|apply incl_refl]|]. apply rate_sub_l; [apply rate_itself|]. apply Q; [reflexivity|]. intros y [<-|[]]. cbn. auto. }
    split; [eexists _, _; right; reflexivity|]. intros en Z. cbn in Z. cbn. f_equal.
    assert (e_sym en "z_M" - e_sym en "x_M" - (e_der en "x_M" "t_M" - e_sym en "x_M") = 0)%R by congruence. lra.
  - split; [rewrite moved_names; repeat constructor; cbn; intuition discriminate|]. split; [repeat constructor; cbn; intuition|].
    intros e He. rewrite moved_names. destruct (all_symbols (the_block moved) [moved_rate; SSub (SSym "z_M") (SMul (SSym "x_M") (SNum (PInt 3)))]) with (e := e) as (n & En & Hn);
      [vm_compute; reflexivity|exact He|]. clear He. exists n. split; [exact En|]. clear En. destruct Hn as [<-|[<-|[]]]; split; intros z Hz; cbn in Hz; cbn; intuition.
Qed.
Lemma moved_function y1 y2 p q : dae_function print_one (the_block moved) [y1; y2] [p; q] = Ok [Some (y2 - y1 - (p - y1)); Some (y2 - y1 * 3)]%R.
Proof. vm_compute. reflexivity. Qed.
Lemma moved_is_one : growth_system (dae_function print_one (the_block moved)).
Proof. intros y1 y2 p q. rewrite moved_function. eexists. split; [reflexivity|]. intros v [<-|[<-|[]]]; [right; right; f_equal; ring|auto]. Qed.
Lemma moved_done : dae_solve growth_ida print_one no_print (snd (final moved)) (the_block moved) growth_run growth_domain =
  (growth_table [("z_M", "rate")] growth_points (map (growth_curve 1 1) growth_points), Ok (growth_points, map (growth_curve 1 1) growth_points)).
Proof.
  apply growth_by_ida; [now left|now exists 3%R|reflexivity|vm_compute; reflexivity| |].
  - rewrite moved_function. eexists. reflexivity.
  - assert (E : diff_flags (the_block moved) = [true; false]) by (vm_compute; reflexivity). rewrite E. reflexivity.
Qed.
(** [C80_trajectory_partial] is about it. *)
Example C80_moved_case : growth_like moved /\ Forall2 (residual_ode print_one) (b_diff (the_block moved)) the_dae /\ closed_dae (the_block moved) the_dae /\
  states_first (b_varlist (the_block moved)) the_dae /\ (exists rest, b_eqs (the_block moved) = b_diff (the_block moved) ++ rest) /\
  ida_solves growth_ida (dae_function print_one (the_block moved)) 0%R /\ d_dep growth_domain = b_varlist (the_block moved) /\
  exists d ts rows, dae_solve growth_ida print_one no_print (snd (final moved)) (the_block moved) growth_run growth_domain = (d, Ok (ts, rows)).
Proof.
  destruct moved_parts as [A B]. split; [exact moved_program|]. split; [exact A|]. split; [exact B|].
  split; [rewrite moved_names; exists ["z_M"]; reflexivity|].
  split. { exists (skipn 1 (b_eqs (the_block moved))). vm_compute. reflexivity. }
  split; [apply growth_solves, moved_is_one|]. split; [rewrite moved_names; reflexivity|].
  eexists _, _, _. exact moved_done.
Qed.
