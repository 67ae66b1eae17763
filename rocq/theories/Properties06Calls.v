(** Property theorems C23 and C44 (calling a model again). *)
From Verif Require Import Base Num UnitModel Sympy Node Build EquationModel ModelModel SpecModel SpecCall SpecInc
  CallFacts Demo Properties05Incorporation.
Notation num := Verif.Num.num.

(** ** C23 *)
(** Full statement: the same for all scripts and including the exposed-variable
    lists.  Missing: equations without a given name and the exposed lists;
    refuted below. *)
Theorem C23_calls_partial : forall d h u name w n, named d = true ->
  model_call d (mkW h u (new_model name)) = (w, Ok tt) ->
  exists w', calls (S n) d (mkW h u (new_model name)) = (w', Ok tt) /\
    same_model w w' /\ same_keys (w_mod w) (w_mod w').
Proof. exact calls_fresh. Qed.
Print Assumptions C23_calls_partial.

Definition tank_decls : decls :=
  mkDecls [CCon "c" "c" u_m (PInt 3)]
          [CPar "k" "k" u_m (PInt 2); CSet "k" (SANum (PInt 4)) None]
          [CVar "x" "x" u_m false "" (PInt 0); CVar "y" "y" u_dimless false "" (PInt 0); CVar "t" "t" u_s false "" (PInt 0); CDist "x"]
          [CEq "e" "e" (UElem (UQty "x") (UBin BAdd (UBin BMul (UQty "k") (UNumR BPow (UQty "y") (PInt 2))) (UQty "c"))) true;
           CEq "f" "f" (UElem (UDiff "x" (Some "t")) (UBin BDiv (UQty "x") (UQty "t"))) true].

Definition start (name : string) : mworld := mkW [] (fun _ => 0%nat) (new_model name).

Example C23_case : named tank_decls = true /\ snd (model_call tank_decls (start "T")) = Ok tt /\
  dkeys (m_eqs (w_mod (fst (calls 3 tank_decls (start "T"))))) = ["e_T"; "f_T"] /\
  List.length (w_heap (fst (calls 3 tank_decls (start "T")))) = 15%nat.
Proof. vm_compute. repeat split. Qed.

(** Equations created without a name are added again at each call. *)
Theorem C23_unnamed_refuted : exists d w w', calls 1 d (start "T") = (w, Ok tt) /\ calls 2 d (start "T") = (w', Ok tt) /\
  List.length (m_eqs (w_mod w)) = 1%nat /\ List.length (m_eqs (w_mod w')) = 2%nat.
Proof.
  exists (mkDecls [] [] [CVar "x" "x" u_m false "" (PInt 0)] [CEq "e" "" (UResid (UQty "x")) true]). do 2 eexists.
  split; [apply run_ok2; vm_compute; reflexivity|]. split; [apply run_ok2; vm_compute; reflexivity|].
  split; vm_compute; reflexivity.
Qed.
Print Assumptions C23_unnamed_refuted.

(** The lists of exposed variables keep the objects of earlier calls, which are
    no longer variables of the model. *)
Theorem C23_exposed_refuted : exists d w w' l, named d = true /\
  calls 1 d (start "T") = (w, Ok tt) /\ calls 2 d (start "T") = (w', Ok tt) /\
  List.length (m_in (w_mod w)) = 1%nat /\ List.length (m_in (w_mod w')) = 2%nat /\
  In l (m_in (w_mod w')) /\ ~ In l (dvals (m_vars (w_mod w'))).
Proof.
  exists (mkDecls [] [] [CVar "x" "x" u_m true "input" (PInt 0)] []). do 2 eexists. exists 0%nat.
  split; [reflexivity|]. split; [apply run_ok2; vm_compute; reflexivity|]. split; [apply run_ok2; vm_compute; reflexivity|].
  split; [vm_compute; reflexivity|]. split; [vm_compute; reflexivity|]. split; [vm_compute; auto|].
  vm_compute. intros [H|[]]. discriminate.
Qed.
Print Assumptions C23_exposed_refuted.

(** ** C44 *)
(** Full statement: a value set on a variable or parameter of a model is still
    there after the model was called again.  False; what is true instead: the
    objects after the call are those of a first call, whatever happened to the
    model and its objects before. *)
Theorem C44_setting_refuted : exists d w l h' w' q, named d = true /\
  calls 1 d (start "T") = (w, Ok tt) /\ dget "x_T" (m_vars (w_mod w)) = Some l /\
  heap_set_value (w_heap w) l (SVNum (PInt 5)) None = (h', Ok tt) /\
  model_call d (mkW h' (w_uids w) (w_mod w)) = (w', Ok tt) /\
  option_map (hget (w_heap w')) (dget "x_T" (m_vars (w_mod w'))) = Some (Some q) /\
  q_value q = PInt 1 /\ q_spec q = false.
Proof.
  exists (mkDecls [] [] [CVar "x" "x" u_m false "" (PInt 1)] []). do 1 eexists. exists 0%nat.
  exists [mkQty KVariable "x_T" u_m (PInt 5) true "T" false "" false]. do 2 eexists.
  split; [reflexivity|]. split; [apply run_ok2; vm_compute; reflexivity|]. split; [vm_compute; reflexivity|].
  split; [vm_compute; reflexivity|]. split; [apply run_ok2; vm_compute; reflexivity|]. split; [vm_compute; reflexivity|].
  split; reflexivity.
Qed.
Print Assumptions C44_setting_refuted.

Theorem C44_recall : forall d h u name w before, named d = true ->
  model_call d (mkW h u (new_model name)) = (w, Ok tt) -> m_name (w_mod before) = name ->
  exists w', model_call d before = (w', Ok tt) /\ same_model w w' /\ m_name (w_mod w') = name /\
    (same_keys (w_mod w) (w_mod before) -> same_keys (w_mod w) (w_mod w')).
Proof. exact recall_ok. Qed.
Print Assumptions C44_recall.

Example C44_case : exists w h' w',
  calls 1 tank_decls (start "T") = (w, Ok tt) /\
  heap_set_value (w_heap w) 2%nat (SVNum (PInt 5)) None = (h', Ok tt) /\
  model_call tank_decls (mkW h' (w_uids w) (w_mod w)) = (w', Ok tt) /\
  option_map (fun l => option_map q_value (hget (w_heap w') l)) (dget "x_T" (m_vars (w_mod w'))) = Some (Some (PInt 0)).
Proof.
  do 3 eexists. split; [apply run_ok2; vm_compute; reflexivity|].
  split; [apply (injective_projections _ (_, _)); [reflexivity|vm_compute; reflexivity]|].
  split; [apply run_ok2; vm_compute; reflexivity|]. vm_compute; reflexivity.
Qed.
