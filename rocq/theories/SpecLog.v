(** Spec vocabulary for the log of an optimisation (C96). *)
From Verif Require Import Base Num SolverModel SimModel OptimModel LogModel.
Notation num := Verif.Num.num.

(** The entries of the rows of a log, from the documentation of pygmo (get_log of
    sga, de1220, de and pso). *)
Definition documented (a : algo) : list string :=
  match a with
  | SGA => ["Gen"; "Fevals"; "Best"; "Improvement"]
  | DE1220 => ["Gen"; "Fevals"; "Best"; "F"; "CR"; "Variant"; "dx"; "df"]
  | DE => ["Gen"; "Fevals"; "Best"; "dx"; "df"]
  | PSO => ["Gen"; "Fevals"; "gbest"; "Mean Vel."; "Mean lbest"; "Avg. Dist."]
  end.
Definition as_documented (a : algo) (rows : list (list num)) : Prop := forall r, In r rows -> List.length r = List.length (documented a).
(** The entry of a row that the documentation calls [what]. *)
Definition entry (a : algo) (what : string) (r : list num) (x : num) : Prop :=
  exists i, nth_error (documented a) i = Some what /\ nth_error r i = Some x.
(** What the documentation calls the best objective so far. *)
Definition best_so_far (a : algo) : string := match a with PSO => "gbest" | _ => "Best" end.
(** The points show the best objective over the evaluations, row by row. *)
Definition draws (a : algo) (rows : list (list num)) (points : list (num * num)) : Prop :=
  Forall2 (fun r p => entry a "Fevals" r (fst p) /\ entry a (best_so_far a) r (snd p)) rows points.

(** The study runs up to its best individual. *)
Definition evolves (evolve : evolution) (s : study) : Prop := snd (run_study evolve (Ok tt) s) = Ok tt.
(** A study after a history. *)
Definition used_study (s : lstudy) : Prop :=
  exists accepts simconf a s0 l, new_study accepts simconf a = Ok s0 /\ s = lhist (mkLS s0 None []) l.
