(** C31: the initial values and the time variable of a problem. *)
From Verif Require Import Base Num UnitModel ModelModel ProblemModel SpecProblem SpecInit InitFacts Demo.
Notation num := Verif.Num.num.

(** The initial value of a name is what the last setInitialConditions that names it
    gave; nothing else gives, takes or changes initial values. *)
Theorem C31_conditions : forall acts, dictionaries acts ->
  forall x v, dget x (pr_init (snd (run_acts start_session acts))) = Some v <-> starts_at acts x v.
Proof. exact init_exact. Qed.
Print Assumptions C31_conditions.

(** The time variable is the one named last. *)
Theorem C31_time : forall acts names, pr_time (snd (run_acts start_session acts)) = Some names <-> times_by acts names.
Proof. exact time_exact. Qed.
Print Assumptions C31_time.

(** x is given twice, y once, and a model is made in between. *)
Definition given_twice : list act :=
  [AInit [("x", PInt 1); ("y", PInt 5)]; ATime ["t"]; ANew "M" (mkDecls [] [] [] []); AInit [("x", PInt 2)]; ATime ["s"]; AResolve].
Example C31_given_case : dictionaries given_twice /\ starts_at given_twice "x" (PInt 2) /\ starts_at given_twice "y" (PInt 5) /\ times_by given_twice ["s"].
Proof.
  split; [|split; [|split]].
  - intros c H. repeat (destruct H as [H|H]; [first [discriminate H|injection H as <-]|]); [| |destruct H];
      repeat (constructor; [cbn; intuition discriminate|]); constructor.
  - exists [AInit [("x", PInt 1); ("y", PInt 5)]; ATime ["t"]; ANew "M" (mkDecls [] [] [] [])], [("x", PInt 2)], [ATime ["s"]; AResolve].
    split; [reflexivity|]. split; [reflexivity|]. intros c [H|[H|[]]]; discriminate H.
  - exists [], [("x", PInt 1); ("y", PInt 5)], [ATime ["t"]; ANew "M" (mkDecls [] [] [] []); AInit [("x", PInt 2)]; ATime ["s"]; AResolve].
    split; [reflexivity|]. split; [reflexivity|]. intros c H. repeat (destruct H as [H|H]; [first [discriminate H|injection H as <-; reflexivity]|]). destruct H.
  - exists [AInit [("x", PInt 1); ("y", PInt 5)]; ATime ["t"]; ANew "M" (mkDecls [] [] [] []); AInit [("x", PInt 2)]], [AResolve].
    split; [reflexivity|]. intros n [H|[]]. discriminate H.
Qed.
