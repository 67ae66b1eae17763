(** Proofs for C95. *)
From Verif Require Import Base BaseFacts Num UnitModel SpecUnits Node Build EquationModel QtyFacts ModelModel UnitOpFacts BoundsModel SpecBounds.
Notation num := Verif.Num.num.

Lemma same_without : forall cs w, bw_world (fst (run_bcmds w cs)) = fst (run_cmds (bw_world w) (map unbounded cs)) /\
  snd (run_bcmds w cs) = snd (run_cmds (bw_world w) (map unbounded cs)).
Proof.
  induction cs as [|c cs IH]; intros w; [split; reflexivity|]. cbn [run_bcmds map run_cmds].
  destruct c as [a n u il iu lo up ex ty v|c]; cbn [run_bcmd unbounded].
  - destruct (run_cmd (bw_world w) (CVar a n u ex ty v)) as [w' [x|x]]; [|split; reflexivity]. apply (IH (mkBW w' _)).
  - destruct (run_cmd (bw_world w) c) as [w' [x|x]]; [|split; reflexivity]. apply (IH (mkBW w' _)).
Qed.

(** The bounds on record are those asked for, of a variable, and the flags say
    which there are. *)
Lemma bounds_told w a n u il iu lo up ex ty v w' : run_bcmd w (BVar a n u il iu lo up ex ty v) = (w', Ok tt) ->
  exists l q b, bw_bounds w' = bw_bounds w ++ [(l, b)] /\ attr_qty (w_mod (bw_world w')) a = Ok l /\
    hget (w_heap (bw_world w')) l = Some q /\ q_kind q = KVariable /\ q_value q = v /\
    bd_lower b = lo /\ bd_upper b = up /\ (bd_is_lower b = true <-> lo <> None) /\ (bd_is_upper b = true <-> up <> None).
Proof.
  cbn [run_bcmd]. destruct (run_cmd (bw_world w) (CVar a n u ex ty v)) as [w1 r] eqn:E. intros H. injection H as <- ->.
  exists (List.length (w_heap (bw_world w))), (mkQty KVariable (full_name n (m_name (w_mod (bw_world w)))) u v false (m_name (w_mod (bw_world w))) ex ty false),
    (variable_bounds il iu lo up).
  cbn [bw_bounds bw_world]. split; [reflexivity|].
  assert (A : attr_qty (w_mod w1) a = Ok (List.length (w_heap (bw_world w))) /\
              w_heap w1 = w_heap (bw_world w) ++ [mkQty KVariable (full_name n (m_name (w_mod (bw_world w)))) u v false (m_name (w_mod (bw_world w))) ex ty false]).
  { unfold run_cmd, assign_qty, create_variable in E. destruct ex; [destruct (String.eqb ty "input"); [|destruct (String.eqb ty "output")]|];
      cbn in E; try discriminate E; injection E as <-; cbn [w_mod w_heap]; unfold attr_qty, set_attr; cbn; rewrite dget_dset_eq; split; reflexivity. }
  destruct A as [A1 A2]. split; [exact A1|]. split; [rewrite A2; apply hget_end|]. repeat (split; [reflexivity|]).
  cbn [bd_is_lower bd_is_upper variable_bounds]. unfold given_bound. split; [destruct lo|destruct up]; split; congruence.
Qed.
