(** Property theorems: the kinds a report names (C60) and the package made without names (C41). *)
From Verif Require Import Base BaseFacts Num Sympy Node EquationModel ModelModel ProblemModel SolverModel SimModel SpecProblem SessionFacts ReportModel FirstFacts Demo Properties07Problems.
From Verif Require PackageModel.

(** A row of a report names one of the three kinds of equations. *)
Theorem C60_kinds : forall h e r, report_row h e = Ok r -> In (r_type r) ["linear"; "nonlinear"; "differential"].
Proof. exact row_kind. Qed.
Print Assumptions C60_kinds.
Example C60_kinds_case : forall u, exists r,
  report_row [] (mkEqn "e" (Some (mkNode (SSub (SDer "y" "t") (SSym "y")) [] [] ty_diff u (SSub (SDer "y" "t") (SSym "y")))) None true None None "M") = Ok r /\
  r_type r = "differential".
Proof. intros u. eexists. split; reflexivity. Qed.

(** The first package made without names has water as its one phase. *)
Theorem C41_default : forall known n, known "water" = true -> exists s p,
  PackageModel.new_package known PackageModel.initial_store n PackageModel.LDefault = (s, Ok 0%nat) /\ nth_error (PackageModel.s_pkgs s) 0 = Some p /\
  PackageModel.the_list s (PackageModel.pk_names p) = [Some "water"] /\ dkeys (PackageModel.pk_phases p) = ["water"].
Proof. exact first_package. Qed.
Print Assumptions C41_default.
Example C41_default_case : (fun x => String.eqb x "water" || String.eqb x "ethanol")%bool "water" = true.
Proof. reflexivity. Qed.
