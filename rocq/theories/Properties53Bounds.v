(** C95: bounds of variables. *)
From Verif Require Import Base BaseFacts Num UnitModel SpecUnits Sympy Node Build EquationModel ModelModel ProblemModel SpecExpr SpecModel SpecProblem SolverModel SpecSolver SpecWritten
  BoundsModel SpecBounds BoundsFacts Demo Properties07Problems Properties16Written.
From Coq Require Import Reals Lra.
Notation num := Verif.Num.num.

(** ** C95 *)
(** The full statement, [all_keep] after every accepted program and in every
    result, is refuted below.  What holds: a variable has the bounds it was made
    with, and the flags say which there are, whatever flags were given. *)
Theorem C95_flags_partial : forall w a n u il iu lo up ex ty v w', run_bcmd w (BVar a n u il iu lo up ex ty v) = (w', Ok tt) ->
  exists l q b, bw_bounds w' = bw_bounds w ++ [(l, b)] /\ attr_qty (w_mod (bw_world w')) a = Ok l /\
    hget (w_heap (bw_world w')) l = Some q /\ q_kind q = KVariable /\ q_value q = v /\
    bd_lower b = lo /\ bd_upper b = up /\ (bd_is_lower b = true <-> lo <> None) /\ (bd_is_upper b = true <-> up <> None).
Proof. exact bounds_told. Qed.
Print Assumptions C95_flags_partial.

(** Programs do and refuse the same without the bounds. *)
Theorem C95_ignored : forall cs w, bw_world (fst (run_bcmds w cs)) = fst (run_cmds (bw_world w) (map unbounded cs)) /\
  snd (run_bcmds w cs) = snd (run_cmds (bw_world w) (map unbounded cs)).
Proof. exact same_without. Qed.
Print Assumptions C95_ignored.

(** A level between 0 and 10, marked as bounded from above only, set to -5. *)
Definition level : bcmd := BVar "x" "x" u_m false true (Some (PInt 0)) (Some (PInt 10)) false "" (PInt 4).
Definition below : list bcmd := [level; BCmd (CSet "x" (SANum (PInt (-5))) None)].
Definition empty_world : bworld := mkBW (mkW [] (fun _ => 0%nat) (new_model "M")) [].
Example C95_flags_case : snd (run_bcmd empty_world level) = Ok tt /\
  map snd (bw_bounds (fst (run_bcmd empty_world level))) = [mkBounds true true (Some (PInt 0)) (Some (PInt 10))].
Proof. split; reflexivity. Qed.
Theorem C95_set_refuted : exists cs, snd (run_bcmds empty_world cs) = Ok tt /\ ~ all_keep (fst (run_bcmds empty_world cs)).
Proof.
  exists below. split; [vm_compute; reflexivity|]. intros K.
  destruct (K 0%nat (mkBounds true true (Some (PInt 0)) (Some (PInt 10))) (mkQty KVariable "x_M" u_m (PInt (-5)) true "M" false "" false) (-5)%R) as [L _].
  - vm_compute. now left.
  - vm_compute. reflexivity.
  - reflexivity.
  - specialize (L (PInt 0) 0%R eq_refl eq_refl). lra.
Qed.
Print Assumptions C95_set_refuted.

(** x + 5 = 0 is answered by x = -5 although x has the lower bound 0. *)
Definition sunk_vars : list bcmd := [level].
Definition sunk : list act :=
  [ANew "M" (mkDecls [] [] (map unbounded sunk_vars) [CEq "e" "e" (UResid (UNumR BAdd (UQty "x") (PInt 5))) true]); ACall 0%nat; AAdd 0%nat].
Theorem C95_result_refuted : exists acts s b cs d c k v eng out, resolved acts s b /\ In (ANew "M" d) acts /\ d_vars d = map unbounded cs /\ In c cs /\
  asks c (Some (PInt 0), k) /\ honest eng /\ answer eng b out /\ dget "x_M" out = Some v /\ (v < 0)%R.
Proof.
  exists sunk, (final sunk), (the_block sunk), sunk_vars. eexists. exists level, (Some (PInt 10)), (-5)%R, checker, [("x_M", (-5)%R)].
  split; [apply run_resolved; vm_compute; reflexivity|]. split; [left; reflexivity|]. split; [reflexivity|]. split; [now left|]. split; [reflexivity|].
  split; [exact checker_honest|]. split; [|split; [reflexivity|lra]].
  pose proof (checker_answer (the_block sunk) [("x_M", (-5)%R)] [-5]%R) as H.
  assert (V : b_varlist (the_block sunk) = ["x_M"]) by (vm_compute; reflexivity).
  assert (E : b_exprs (the_block sunk) = [SAdd (SSym "x_M") (SNum (PInt 5))]) by (vm_compute; reflexivity).
  rewrite V, E in H. apply H; [discriminate|reflexivity|]. split; [reflexivity|]. intros e [<-|[]]. cbn. f_equal. lra.
Qed.
Print Assumptions C95_result_refuted.
