(** C85: the values equations report. *)
From Verif Require Import Base BaseFacts Num UnitModel Sympy Node Build EquationModel EqValueModel SpecUnits SpecExpr SpecEqValue BuildFacts EqValueFacts Demo.
From Coq Require Import Reals Lra.
Notation num := Verif.Num.num.

(** eval with a map of numbers gives the left side less the right side, or the side
    asked for, at these numbers; where numbers are missing, an expression in exactly the
    missing quantities. *)
Theorem C85_value : forall h q nm arg e s ps m, build_eq h q = Ok arg -> set_residual (blank_eqn nm) arg = (e, Ok tt) -> parts q s = Some ps ->
  (forall x, In x ps -> has_derivative h x = false) -> of_numbers m ->
  exists r, equation_eval e (Some m) s = Ok r /\ (forall en v, valued h ps m en v -> worth r en = amount h v q s) /\
    (is_value r <-> forall l p, open_in h ps l p -> dget (q_name p) m <> None) /\
    (forall s', r = EPart s' -> forall y, In y (fsyms s') <-> exists l p, open_in h ps l p /\ q_name p = y /\ dget y m = None).
Proof. exact evaluated. Qed.
Print Assumptions C85_value.

Theorem C85_no_sides : forall h x nm arg e, build_eq h (UResid x) = Ok arg -> set_residual (blank_eqn nm) arg = (e, Ok tt) ->
  forall m s, equation_eval e m (Some s) = Raise EAbsentRequired.
Proof. exact sides_of_residual. Qed.
Print Assumptions C85_no_sides.

(** _getSymbolicMap lists the quantities written in the equation or the side. *)
Theorem C85_map : forall h q nm arg e s ps, distinct_names h -> build_eq h q = Ok arg -> set_residual (blank_eqn nm) arg = (e, Ok tt) -> parts q s = Some ps ->
  exists m, get_map e (match s with None => Some false | Some _ => Some true end) (match s with Some z => z | None => SRhs end) = Ok m /\
    forall x l, dget x m = Some l <-> (exists z, In z ps /\ occurs l z) /\ exists p, hget h l = Some p /\ q_name p = x.
Proof. exact maps_of_sides. Qed.
Print Assumptions C85_map.

(** Full statement: getResidual() gives the left side less the right side at the present
    values of the quantities.  Missing: equations with quantities that were not
    specified (refuted below). *)
Theorem C85_residual_partial : forall h q nm arg e ps v, build_eq h q = Ok arg -> set_residual (blank_eqn nm) arg = (e, Ok tt) -> parts q None = Some ps ->
  (forall l p, ~ open_in h ps l p) -> (forall x, In x ps -> has_derivative h x = false) -> get_residual e = Ok (EVal (amount h v q None)).
Proof. exact residual_known. Qed.
Print Assumptions C85_residual_partial.

(** An equation that is not the same for all values never has a residual: the map holds
    the objects instead of their values, and sympy refuses them. *)
Theorem C85_never : forall h q nm arg e v v' en en', build_eq h q = Ok arg -> set_residual (blank_eqn nm) arg = (e, Ok tt) ->
  env_for h v en -> env_for h v' en' -> amount h v q None <> amount h v' q None -> get_residual e = Raise EValue.
Proof. exact residual_refused. Qed.
Print Assumptions C85_never.

(** x == 2 in metres with x.value equal to 2. *)
Definition told_heap : heap := [mkQty KVariable "x" u_m (PInt 2) false "" false "" false].
Definition told : ueq loc := UElemN (UQty 0%nat) (PInt 2).
Definition told_values : valuation := mkVal (fun _ => 2%R) (fun _ _ => 0%R).
Definition told_arg : earg := match build_eq told_heap told with Ok a => a | Raise _ => EAOther end.
Definition told_eqn : eqn := fst (set_residual (blank_eqn "e") told_arg).
Lemma told_built : build_eq told_heap told = Ok told_arg.
Proof. reflexivity. Qed.
Lemma told_set : set_residual (blank_eqn "e") told_arg = (told_eqn, Ok tt).
Proof. vm_compute. reflexivity. Qed.
Lemma told_env r : env_for told_heap (mkVal (fun _ => r) (fun _ _ => r)) (mkEnv (fun _ => r) (fun _ _ => r)).
Proof. split; reflexivity. Qed.

Example C85_never_case : build_eq told_heap told = Ok told_arg /\ set_residual (blank_eqn "e") told_arg = (told_eqn, Ok tt) /\
  env_for told_heap (mkVal (fun _ => 1%R) (fun _ _ => 1%R)) (mkEnv (fun _ => 1%R) (fun _ _ => 1%R)) /\
  env_for told_heap (mkVal (fun _ => 2%R) (fun _ _ => 2%R)) (mkEnv (fun _ => 2%R) (fun _ _ => 2%R)) /\
  amount told_heap (mkVal (fun _ => 1%R) (fun _ _ => 1%R)) told None <> amount told_heap (mkVal (fun _ => 2%R) (fun _ _ => 2%R)) told None.
Proof.
  split; [exact told_built|]. split; [exact told_set|]. do 2 (split; [apply told_env|]). cbn. intros E. injection E. lra.
Qed.
Theorem C85_residual_refuted : exists h q nm arg e v, build_eq h q = Ok arg /\ set_residual (blank_eqn nm) arg = (e, Ok tt) /\ at_present h v /\
  amount h v q None = Some 0%R /\ get_residual e = Raise EValue.
Proof.
  exists told_heap, told, "e"%string, told_arg, told_eqn, told_values. split; [exact told_built|]. split; [exact told_set|].
  split; [intros [|l] p H; [injection H as <-; reflexivity|destruct l; discriminate H]|]. split; [cbn; f_equal; lra|].
  destruct C85_never_case as (A & B & C & D & E). exact (C85_never _ _ _ _ _ _ _ _ _ A B C D E).
Qed.
Print Assumptions C85_residual_refuted.

(** x == 2 at x = 5, and x == y with a number for x only. *)
Example C85_case : parts told None = Some [UQty 0%nat] /\ has_derivative told_heap (UQty 0%nat) = false /\ of_numbers [("x"%string, MNum (PInt 5))] /\
  valued told_heap [UQty 0%nat] [("x"%string, MNum (PInt 5))] no_env (mkVal (fun _ => 5%R) (fun _ _ => 0%R)) /\
  amount told_heap (mkVal (fun _ => 5%R) (fun _ _ => 0%R)) told None = Some 3%R.
Proof.
  split; [reflexivity|]. split; [reflexivity|]. split; [intros x a [E|[]]; injection E as <- <-; exists (PInt 5); split; [reflexivity|discriminate]|].
  split; [|cbn; f_equal; lra]. intros l p ((z & [<-|[]] & O) & H & _). cbn in O. subst l. injection H as <-. reflexivity.
Qed.
Definition pair : ueq loc := UElem (UQty 0%nat) (UQty 3%nat).
Definition pair_arg : earg := match build_eq demo_heap pair with Ok a => a | Raise _ => EAOther end.
Definition pair_eqn : eqn := fst (set_residual (blank_eqn "e") pair_arg).
Example C85_missing_case : build_eq demo_heap pair = Ok pair_arg /\ set_residual (blank_eqn "e") pair_arg = (pair_eqn, Ok tt) /\
  equation_eval pair_eqn (Some [("x"%string, MNum (PInt 5))]) None = Ok (EPart (SSub (SNum (PInt 5)) (SSym "y"))) /\
  equation_eval pair_eqn (Some [("x"%string, MNum (PInt 5))]) (Some SLhs) = Ok (EVal (Some 5%R)).
Proof. split; [reflexivity|]. split; [vm_compute; reflexivity|]. split; reflexivity. Qed.
Example C85_no_sides_case : exists arg, build_eq demo_heap (UResid (UQty 0%nat)) = Ok arg /\ snd (set_residual (blank_eqn "e") arg) = Ok tt.
Proof. eexists. split; reflexivity. Qed.
Example C85_map_case : distinct_names told_heap /\ get_map told_eqn (Some true) SLhs = Ok [("x"%string, 0%nat)].
Proof.
  split; [|reflexivity]. intros l l' q q' H H' _. destruct l as [|l]; [|destruct l; discriminate H]. destruct l' as [|l']; [reflexivity|destruct l'; discriminate H'].
Qed.
(** k*3 with k = 2. *)
Definition fixed : ueq loc := UResid (UNumR BMul (UQty 2%nat) (PInt 3)).
Example C85_residual_case : exists arg e, build_eq demo_heap fixed = Ok arg /\ set_residual (blank_eqn "e") arg = (e, Ok tt) /\
  parts fixed None = Some [UNumR BMul (UQty 2%nat) (PInt 3)] /\ (forall l p, ~ open_in demo_heap [UNumR BMul (UQty 2%nat) (PInt 3)] l p) /\
  has_derivative demo_heap (UNumR BMul (UQty 2%nat) (PInt 3)) = false /\ amount demo_heap told_values fixed None = Some 6%R.
Proof.
  eexists. eexists. split; [reflexivity|]. split; [reflexivity|]. split; [reflexivity|]. split; [|split; [reflexivity|cbn; f_equal; lra]].
  intros l p ((z & [<-|[]] & O) & H & S). cbn in O. subst l. injection H as <-. discriminate S.
Qed.
