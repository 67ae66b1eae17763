(** C78: a problem consists of equations that were written. *)
From Verif Require Import Base BaseFacts Num UnitModel Sympy Node Build EquationModel ModelModel ProblemModel SpecUnits SpecExpr SpecModel SpecInc SpecCall SpecProblem
  ProblemFacts SessionFacts IncFacts SpecTrace TraceFacts Properties05Incorporation Properties07Problems.
From Coq Require Import Reals.
Notation num := Verif.Num.num.

(** Every equation of a problem was written in a model by a statement, a declaration
    or a connection of the program and came to a model of the problem, if need be by
    incorporations; it means what was written over the quantities of that moment,
    names changed by the incorporations only. *)
Theorem C78_written : forall acts s b e, resolved acts s b -> In e (b_eqs b) ->
  exists i h q f, In (AAdd i) acts /\ arrives (acts ++ [AResolve]) i h q f /\ conveys h q f e.
Proof. exact problem_written. Qed.
Print Assumptions C78_written.

(** Without incorporations no name is changed. *)
Theorem C78_plain : forall acts s b e, resolved acts s b -> (forall k j fl, ~ In (AInc k j fl) acts) -> In e (b_eqs b) ->
  exists i h q, In (AAdd i) acts /\ arrives (acts ++ [AResolve]) i h q (fun x => x) /\ conveys h q (fun x => x) e.
Proof. exact problem_written_plain. Qed.
Print Assumptions C78_plain.

(** Where no name of the donor is taken for another, incorporation gives every object
    of the donor its name in the host and keeps all other names. *)
Theorem C78_names : forall h dm host g, donor_ok h dm -> no_capture dm host -> carried dm host g -> forall x, g x = new_name dm host x.
Proof. exact carried_clean. Qed.
Print Assumptions C78_names.

(** Full statement: the equations of an incorporated model are in the problem of the
    model that incorporated it.  Missing: donors outside [donor_ok], names taken for
    another, and programs that later store an equation that may have the same name. *)
Theorem C78_copied_partial : forall a1 i j a2 s b m d dm dd n e,
  resolved (a1 ++ AInc i j inc_default :: a2) s b -> distinct_models (a1 ++ AInc i j inc_default :: a2) ->
  In i (added (a1 ++ AInc i j inc_default :: a2)) ->
  get_model (fst (run_acts start_session a1)) i = Some (m, d) -> get_model (fst (run_acts start_session a1)) j = Some (dm, dd) ->
  donor_ok (pw_heap (fst (run_acts start_session a1))) dm -> no_capture dm (m_name m) ->
  dget (full_name n (m_name dm)) (m_eqs dm) = Some e ->
  (forall a, In a a2 -> leaves i n a) -> declares_no d n ->
  exists e', In e' (b_eqs b) /\ repeats dm (m_name m) e e'.
Proof. exact copied_kept. Qed.
Print Assumptions C78_copied_partial.

(** A tank x == k*y**2 + c incorporated into a model with an equation of its own. *)
Definition tank_model : decls :=
  mkDecls [CCon "c" "c" u_m (PInt 3)] [CPar "k" "k" u_m (PInt 2); CSet "k" (SANum (PInt 4)) None]
    [CVar "x" "x" u_m false "" (PInt 0); CVar "y" "y" u_dimless false "" (PInt 0)]
    [CEq "e" "e" (UElem (UQty "x") (UBin BAdd (UBin BMul (UQty "k") (UNumR BPow (UQty "y") (PInt 2))) (UQty "c"))) true].
Definition own_model : decls :=
  mkDecls [] [] [CVar "z" "z" u_m false "" (PInt 0)] [CEq "f" "f" (UElemN (UQty "z") (PInt 5)) true].
Definition before_copy : list act := [ANew "B" own_model; ACall 0%nat; ANew "A" tank_model; ACall 1%nat].
Definition with_copy : list act := before_copy ++ AInc 0%nat 1%nat inc_default :: [AAdd 0%nat].
(** The state in which the tank is called, and the one after. *)
Definition tank_start : mworld :=
  let w := fst (run_acts start_session [ANew "B" own_model; ACall 0%nat; ANew "A" tank_model]) in mkW (pw_heap w) (pw_uids w) (new_model "A").
Definition tank_done : mworld := fst (run_cmds tank_start (method_statements tank_model)).
Definition own_done : mstate :=
  match get_model (fst (run_acts start_session before_copy)) 0%nat with Some (m, _) => m | None => new_model "" end.

Lemma tank_donor : donor_ok (w_heap tank_done) (w_mod tank_done).
Proof.
  apply (script_donor "A" (w_heap tank_start) (w_uids tank_start) (method_statements tank_model)); [discriminate|reflexivity| |].
  - apply run_ok2. vm_compute. reflexivity.
  - apply unknowns_checked. vm_compute. reflexivity.
Qed.

Example C78_case : resolved with_copy (final with_copy) (the_block with_copy) /\
  map eq_name (b_eqs (the_block with_copy)) = ["f_B"; "e_B"] /\ distinct_models with_copy /\ In 0%nat (added with_copy) /\
  get_model (fst (run_acts start_session before_copy)) 0%nat = Some (own_done, own_model) /\
  get_model (fst (run_acts start_session before_copy)) 1%nat = Some (w_mod tank_done, tank_model) /\
  donor_ok (pw_heap (fst (run_acts start_session before_copy))) (w_mod tank_done) /\ no_capture (w_mod tank_done) (m_name own_done) /\
  (exists e, dget (full_name "e" (m_name (w_mod tank_done))) (m_eqs (w_mod tank_done)) = Some e) /\
  (forall a, In a [AAdd 0%nat] -> leaves 0%nat "e" a) /\ declares_no own_model "e".
Proof.
  split; [apply run_resolved; vm_compute; reflexivity|]. split; [vm_compute; reflexivity|].
  split.
  { assert (A : added with_copy = [0%nat]) by (vm_compute; reflexivity). intros i j mi mj Hi Hj _ _ _. rewrite A in Hi, Hj.
    destruct Hi as [<-|[]]. destruct Hj as [<-|[]]. reflexivity. }
  split; [vm_compute; now left|]. split; [vm_compute; reflexivity|]. split; [vm_compute; reflexivity|].
  split. { replace (pw_heap (fst (run_acts start_session before_copy))) with (w_heap tank_done) by (vm_compute; reflexivity). exact tank_donor. }
  split; [apply no_underscore_capture; vm_compute; repeat split; discriminate|].
  split; [exists (match dget "e_A" (m_eqs (w_mod tank_done)) with Some e => e | None => blank_eqn "" end); vm_compute; reflexivity|].
  split; [intros a [<-|[]]; exact I|].
  intros x n' q check Hin. cbn [method_statements d_cons d_pars d_vars d_eqs own_model app In] in Hin.
  destruct Hin as [Hin|[Hin|[]]]; [discriminate|]. injection Hin as _ <- _ _. split; discriminate.
Qed.

(** The converse fails: an equation statement whose name is used again is replaced.
    Here x == 1 is written and the problem only says x == 2. *)
Definition renamed_twice : decls :=
  mkDecls [] [] [CVar "x" "x" u_m false "" (PInt 0)]
    [CEq "e" "e" (UElemN (UQty "x") (PInt 1)) true; CEq "f" "e" (UElemN (UQty "x") (PInt 2)) true].
Definition twice_acts : list act := [ANew "M" renamed_twice; AAdd 0%nat].
Lemma twice_sides : map (fun e => option_map (fun ac => nd_sym (snd ac)) (eq_elem e)) (b_eqs (the_block twice_acts)) = [Some (SNum (PInt 2))].
Proof. vm_compute. reflexivity. Qed.
Definition twice_called : mworld :=
  let w := fst (run_acts start_session twice_acts) in fst (run_cmds (mkW (pw_heap w) (pw_uids w) (new_model "M")) [CVar "x" "x" u_m false "" (PInt 0)]).
Theorem C78_replaced_refuted : exists acts s b h q, resolved acts s b /\ arrives (acts ++ [AResolve]) 0%nat h q (fun x => x) /\ In (AAdd 0%nat) acts /\
  forall e f, In e (b_eqs b) -> ~ conveys h q f e.
Proof.
  exists twice_acts, (final twice_acts), (the_block twice_acts), (w_heap twice_called), (UElemN (UQty 0%nat) (PInt 1)).
  split; [apply run_resolved; vm_compute; reflexivity|]. split; [|split; [right; now left|]].
  - apply arrives_written. exists [], [], (fst (run_acts start_session twice_acts)), (new_model "M"), renamed_twice.
    split; [vm_compute; reflexivity|]. split; [reflexivity|]. split; [vm_compute; reflexivity|].
    exists [CVar "x" "x" u_m false "" (PInt 0)], "e", "e", (UElemN (UQty "x") (PInt 1)), true, [CEq "f" "e" (UElemN (UQty "x") (PInt 2)) true], twice_called.
    split; [reflexivity|]. split; [apply run_ok2; vm_compute; reflexivity|]. split; [vm_compute; reflexivity|reflexivity].
  - intros e f Hin (_ & _ & a & c & Ec & H).
    assert (X : nd_sym c = SNum (PInt 2)).
    { assert (Y := in_map (fun e => option_map (fun ac => nd_sym (snd ac)) (eq_elem e)) _ _ Hin). rewrite twice_sides, Ec in Y.
      destruct Y as [Y|[]]. cbn in Y. injection Y as Y. symmetry. exact Y. }
    destruct (H (mkVal (fun _ => 0%R) (fun _ _ => 0%R)) (mkEnv (fun _ => 0%R) (fun _ _ => 0%R))) as [_ K].
    { split; reflexivity. }
    rewrite X in K. cbn in K. injection K as K. apply eq_IZR in K. discriminate.
Qed.
Print Assumptions C78_replaced_refuted.
