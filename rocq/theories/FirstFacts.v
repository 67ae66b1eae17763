(** * Proofs about rows of reports and the first package (C60, C41) *)
From Verif Require Import Base BaseFacts Num Sympy Node EquationModel ModelModel ProblemModel SolverModel SimModel ReportModel.
From Verif Require PackageModel.

Lemma row_kind h e r : report_row h e = Ok r -> In (r_type r) ["linear"; "nonlinear"; "differential"].
Proof.
  unfold report_row. destruct (eq_expr e) as [n|]; [|discriminate]. destruct (listed h KVariable false (nd_smap n)); [|discriminate]. cbn [rbind].
  destruct (listed h KParameter true (nd_smap n)); [|discriminate]. cbn [rbind]. destruct (listed h KConstant true (nd_smap n)); [|discriminate]. cbn [rbind].
  unfold true_types. destruct (t_lin (nd_ty n)), (t_nonlin (nd_ty n)), (t_diff (nd_ty n)); cbn; intros E; try discriminate E; injection E as <-; cbn; auto.
Qed.

Lemma first_package known n : known "water" = true -> exists s p,
  PackageModel.new_package known PackageModel.initial_store n PackageModel.LDefault = (s, Ok 0%nat) /\ nth_error (PackageModel.s_pkgs s) 0 = Some p /\
  PackageModel.the_list s (PackageModel.pk_names p) = [Some "water"] /\ dkeys (PackageModel.pk_phases p) = ["water"].
Proof.
  intros K. unfold PackageModel.new_package, PackageModel.initial_store, PackageModel.default_list. cbn -[PackageModel.T_default PackageModel.P_default]. rewrite K.
  eexists _, _. split; [reflexivity|]. split; [reflexivity|]. split; reflexivity.
Qed.
