(** The log of an optimisation and the graph of its progress.  Source:
    /repo/src/sloth/optimization.py lines 314-453 (names of columns) and 525-617. *)
From Verif Require Import Base Num Node SolverModel SimModel OptimModel.
Notation num := Verif.Num.num.

(** _pagmo_selected_algorithm_log_columns, lines 352, 376, 406, 441. *)
Definition log_columns (a : algo) : list string :=
  match a with
  | SGA => ["Gen"; "Fevals"; "Best"; "Improvement"]
  | DE1220 => ["Gen"; "Fevals"; "Best"; "F"; "CR"; "Variant"; "dx"; "df"]
  | DE => ["Gen"; "Fevals"; "Best"; "F"; "CR"; "dx"; "df"]
  | PSO => ["Gen"; "Fevals"; "gbest"; "Mean Vel."; "Mean lbest"; "Avg. Dist."]
  end.

(** The attribute optimization_log: what get_log returned (line 565), or the
    DataFrame made of it (line 567). *)
Inductive logged := LRaw (rows : list (list num)) | LFrame (cols : list string) (rows : list (list num)).

(** pd.DataFrame(rows, columns=cols), line 567: ValueError when the rows are not
    as long as the list of names; no rows give an empty table.  (The rows of one
    log are all equally long.) *)
Definition data_frame (cols : list string) (rows : list (list num)) : res logged :=
  if forallb (fun r => Nat.eqb (List.length r) (List.length cols)) rows then Ok (LFrame cols rows) else Raise EValue.

(** log.loc[:, c].values.tolist(), lines 571-584: a list has no attribute [loc];
    KeyError for an unknown name. *)
Definition column (l : logged) (c : string) : res (list num) :=
  match l with
  | LRaw _ => Raise EAttribute
  | LFrame cols rows => match index_of c cols with
                        | Some i => Ok (map (fun r => nth i r (PInt 0)) rows)
                        | None => Raise EKey
                        end
  end.

(** A study with its log (the attribute is missing at first) and the graphs it
    has drawn, each a list of points. *)
Record lstudy := mkLS { ls_study : study; ls_log : option logged; ls_graphs : list (list (num * num)) }.

(** getOptimizationLog, lines 525-527. *)
Definition study_log (s : option logged) : res logged := match s with Some l => Ok l | None => Raise EAttribute end.

(** The points of the graph, lines 569-597: [max] of no evaluations is a
    ValueError (line 586); NotImplementedError (line 582) is EException. *)
Definition progress (optimizer : option string) (log : option logged) : res (list (num * num)) :=
  let* l := study_log log in
  let* _ := column l "Gen" in
  let* best := match optimizer with
               | Some o => if String.eqb o "pso" then column l "gbest"
                           else if existsb (String.eqb o) ["sade"; "ga"; "de"] then column l "Best" else Raise EException
               | None => Raise EException
               end in
  let* evals := column l "Fevals" in
  match evals with [] => Raise EValue | _ => Ok (List.combine evals best) end.

(** runOptimization, lines 529-617, with the log of the evolution and the
    arguments optimization_log and save_optimization_graph: run_study with lines
    563-607 in place of [after]. *)
Definition run_logged (evolve : evolution) (log : list (list num)) (keep graph : bool) (s : lstudy) : lstudy * res Datatypes.unit :=
  let st := ls_study s in
  match run_study evolve (Ok tt) st, st_mech st with
  | (st', Ok _), Some m =>
      let fail e := fst (run_study evolve (Raise e) st) in
      match (if keep then data_frame (log_columns (me_algo m)) log else study_log (ls_log s)), keep with
      | Raise e, true => (mkLS (fail e) (Some (LRaw log)) (ls_graphs s), Raise e)
      | kept, _ =>
          let l := match kept with Ok f => Some f | Raise _ => None end in
          if graph then match progress (st_optimizer st) l with
                        | Ok g => (mkLS st' l (ls_graphs s ++ [g]), Ok tt)
                        | Raise e => (mkLS (fail e) l (ls_graphs s), Raise e)
                        end
          else (mkLS st' l (ls_graphs s), Ok tt)
      end
  | (st', r), _ => (mkLS st' (ls_log s) (ls_graphs s), r)
  end.

(** Histories of one study. *)
Inductive laction := LConstraints (c : cval) | LProblem (p : oproblem) | LRun (evolve : evolution) (log : list (list num)) (keep graph : bool).
Definition lstep (s : lstudy) (a : laction) : lstudy * res Datatypes.unit :=
  match a with
  | LConstraints c => (mkLS (set_constraints (ls_study s) c) (ls_log s) (ls_graphs s), Ok tt)
  | LProblem p => (mkLS (set_oproblem (ls_study s) p) (ls_log s) (ls_graphs s), Ok tt)
  | LRun evolve log keep graph => run_logged evolve log keep graph s
  end.
Fixpoint lhist (s : lstudy) (l : list laction) : lstudy :=
  match l with [] => s | a :: r => lhist (fst (lstep s a)) r end.
