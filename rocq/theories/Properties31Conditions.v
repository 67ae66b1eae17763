(** C81: the property package of a stream is calculated at the conditions of the
    stream. *)
From Verif Require Import Base BaseFacts Num UnitModel Sympy Node Build EquationModel ModelModel PackageModel UnitOpModel
  SpecUnits SpecExpr SpecQty SpecModel SpecUnitOps SpecPackage SpecConditions ConditionFacts PackageFacts UnitOpFacts StreamFacts Properties12UnitOps.
From Coq Require Import Reals Lra.
Notation num := Verif.Num.num.

(** After the declaration of a stream all phases of its package were calculated at
    the temperature and the pressure given to it, or at 25 degrees and one atmosphere
    in place of one not given; with none given, and if the declaration fails,
    nothing happens.  Packages without a chemical in common are not touched. *)
Theorem C81_conditions : forall lib known acts i h u name ps w0 l qt qp s' w' r, let s := prun known acts in
  run_cmds (mkW h u (new_model name)) (stream_vars ++ flat_map phase_pars ps) = (w0, Ok tt) -> Forall is_setting l ->
  exists_pkg s i -> consistent s i ->
  quantity (settle w0 l) "T" = Some qt -> quantity (settle w0 l) "P" = Some qp ->
  stream_declare lib s (Some i) (settle w0 l) = (s', w', r) ->
  (r <> Ok tt /\ s' = s) \/
  (r = Ok tt /\ names_of s' i = names_of s i /\
   (q_spec qt = false -> q_spec qp = false -> s' = s) /\
   (q_spec qt = true \/ q_spec qp = true -> exists T P T0 P0, standard T0 P0 /\ calculated_at s' i T P /\
      T = (if q_spec qt then q_value qt else T0) /\ P = (if q_spec qp then q_value qp else P0)) /\
   forall k, exists_pkg s k -> ~ share_chemical s i k -> unchanged s s' k).
Proof. exact stream_calculates. Qed.
Print Assumptions C81_conditions.

(** calculate() does so at any time. *)
Theorem C81_calculate : forall known acts i T P, let s := prun known acts in exists_pkg s i -> consistent s i ->
  snd (calculate s i T P) = Ok tt /\ calculated_at (fst (calculate s i T P)) i T P /\
  names_of (fst (calculate s i T P)) i = names_of s i /\
  forall k, exists_pkg s k -> ~ share_chemical s i k -> unchanged s (fst (calculate s i T P)) k.
Proof. exact calculate_good. Qed.
Print Assumptions C81_calculate.

(** A chemical is found under its own name, in all programs. *)
Theorem C81_names : forall known acts i n c, chem_of (prun known acts) i n = Some c -> PackageModel.c_name c = n.
Proof. exact chem_named. Qed.
Print Assumptions C81_names.

(** A stream of water and ethanol at 350 K. *)
Definition at_350 : list cmd := [CSet "T" (SANum (PInt 350)) None].
Definition at_400 : list cmd := [CSet "T" (SANum (PInt 400)) None].
Definition spirits : list paction := [PNew 2 (LNew [Some "water"; Some "ethanol"]); PNew 1 (LNew [Some "toluene"])].
Example C81_case : let s := prun (fun _ => true) spirits in
  run_cmds (mkW [] (fun _ => 0%nat) (new_model "S")) (stream_vars ++ flat_map phase_pars []) = (a_stream, Ok tt) /\ Forall is_setting at_350 /\
  exists_pkg s 0 /\ consistent s 0 /\ exists_pkg s 1 /\ ~ share_chemical s 0 1 /\
  (exists qt qp, quantity (settle a_stream at_350) "T" = Some qt /\ quantity (settle a_stream at_350) "P" = Some qp /\ q_spec qt = true /\ q_spec qp = false) /\
  exists s' w', stream_declare water_lib s (Some 0%nat) (settle a_stream at_350) = (s', w', Ok tt) /\
    chem_of s' 0 "ethanol" = Some (mkChem "ethanol" (PInt 350) P_default).
Proof.
  assert (C : careful spirits) by (repeat constructor; cbn; intuition discriminate).
  destruct (good_run (fun _ => true) spirits C) as (_ & _ & G & _).
  assert (E0 : exists_pkg (prun (fun _ => true) spirits) 0) by (vm_compute; lia).
  assert (E1 : exists_pkg (prun (fun _ => true) spirits) 1) by (vm_compute; lia).
  split; [vm_compute; reflexivity|]. split; [repeat constructor|]. split; [exact E0|]. split; [now apply G|]. split; [exact E1|].
  split. { intros (p & q & n & m & c & Hp & Hq & Hn & Hm). vm_compute in Hp, Hq. injection Hp as <-. injection Hq as <-. cbn in Hn, Hm.
    destruct (String.eqb n "water"); [|destruct (String.eqb n "ethanol"); [|discriminate]]; injection Hn as <-; destruct (String.eqb m "toluene"); discriminate. }
  split. { do 2 eexists. split; [vm_compute; reflexivity|]. split; [vm_compute; reflexivity|]. split; reflexivity. }
  do 2 eexists. split; [vm_compute; reflexivity|]. vm_compute. reflexivity.
Qed.

(** Two streams with one package: after the second one is declared the package of the
    first is at 400 K, not at its own 350 K. *)
Theorem C81_shared_refuted : exists s1 s2 w1 w2 c,
  stream_declare water_lib (prun (fun _ => true) spirits) (Some 0%nat) (settle a_stream at_350) = (s1, w1, Ok tt) /\
  stream_declare water_lib s1 (Some 0%nat) (settle a_stream at_400) = (s2, w2, Ok tt) /\
  (exists q, quantity w1 "T" = Some q /\ q_spec q = true /\ q_value q = PInt 350) /\
  chem_of s2 0 "water" = Some c /\ c_T c = PInt 400.
Proof.
  do 5 eexists. split; [vm_compute; reflexivity|]. split; [vm_compute; reflexivity|]. split.
  - eexists. split; [vm_compute; reflexivity|]. split; reflexivity.
  - split; vm_compute; reflexivity.
Qed.
Print Assumptions C81_shared_refuted.
