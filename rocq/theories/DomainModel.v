(** Model of /repo/src/sloth/core/domain.py and of the recording of trajectories in
    solvers.py.  A pandas DataFrame without explicit index is its column labels
    and its rows. *)
From Verif Require Export Base.

(** Column labels: names, or row numbers when an index is used as header. *)
Inductive label := LName (s : string) | LNum (n : nat).
Definition label_eqb (a b : label) : bool :=
  match a, b with
  | LName x, LName y => String.eqb x y
  | LNum n, LNum m => Nat.eqb n m
  | _, _ => false
  end.

Section Domain.
Context {V : Type}.

Record frame := mkF { f_cols : list label; f_rows : list (list V) }.

(** A two-dimensional numpy array: number of columns and rows. *)
Record matrix := mkM { mx_width : nat; mx_rows : list (list V) }.
Definition mx_ok (m : matrix) : Prop := forall r, In r (mx_rows m) -> List.length r = mx_width m.

(** class Domain, domain.py lines 21-71: names of the independent variables and of
    the dependent objects in insertion order, and the tables by independent
    variable ([None] before the domain is set). *)
Record domain := mkD { d_ind : list string; d_dep : list string; d_values : option (dict frame) }.

(** Domain(name, units, independent_vars), lines 49-71. *)
Definition new_domain (ind : list string) : domain := mkD (dkeys (dof (map (fun x => (x, tt)) ind))) [] None.

(** _createDataFramePrototype, lines 186-208. *)
Definition prototype (d : domain) : frame := mkF (map LName (d_ind d ++ d_dep d)) [].

(** _setDomain without argument, lines 109-130. *)
Definition set_domain (d : domain) : domain :=
  mkD (d_ind d) (d_dep d) (Some (dof (map (fun x => (x, prototype d)) (d_ind d)))).

(** _reset, lines 143-149. *)
Definition reset (d : domain) : domain := set_domain d.

(** Variable.distributeOnDomain, variable.py lines 103-116, with
    _distributeOnDomain, domain.py lines 132-141: a name already there keeps its
    place. *)
Definition distribute (d : domain) (x : string) : domain :=
  set_domain (mkD (d_ind d) (dkeys (dset x tt (map (fun y => (y, tt)) (d_dep d)))) (d_values d)).

(** [pd.DataFrame(values, columns=...)]: as many columns as labels. *)
Definition data_frame (m : matrix) (cols : list label) : res frame :=
  if Nat.eqb (mx_width m) (List.length cols) then Ok (mkF cols (mx_rows m)) else Raise EValue.

Definition frame_empty (f : frame) : bool :=
  match f_rows f, f_cols f with [], _ => true | _, [] => true | _, _ => false end.

(** [np.vstack]: equal widths. *)
Definition vstack (a b : matrix) : res matrix :=
  if Nat.eqb (mx_width a) (mx_width b) then Ok (mkM (mx_width a) (mx_rows a ++ mx_rows b)) else Raise EValue.

(** [frame.index] of a table without explicit index: row numbers. *)
Definition row_index (f : frame) : list label := map LNum (seq 0 (List.length (f_rows f))).

(** _register, lines 151-184, for the default (last) independent variable.  Line
    180 uses the index of the old table as header. *)
Definition register (d : domain) (m : matrix) : domain * res Datatypes.unit :=
  match rev (d_ind d) with
  | [] => (d, Raise EIndex)
  | x :: _ =>
      match d_values d with
      | None => (d, Raise EType)
      | Some t =>
          match dget x t with
          | None => (d, Raise EKey)
          | Some f =>
              let r := if frame_empty f then data_frame m (f_cols f)
                       else if Nat.eqb (mx_width m) (List.length (d_ind d) + List.length (d_dep d))
                       then let* s := vstack (mkM (List.length (f_cols f)) (f_rows f)) m in data_frame s (row_index f)
                       else Raise EException in
              match r with
              | Raise e => (d, Raise e)
              | Ok f' => (mkD (d_ind d) (d_dep d) (Some (dset x f' t)), Ok tt)
              end
          end
      end
  end.

(** _renameHeaders, lines 210-221: every table, by a dictionary of names. *)
Definition rename_label (m : dict string) (l : label) : label :=
  match l with
  | LName s => match dget s m with Some t => LName t | None => LName s end
  | LNum _ => l
  end.
Definition rename_headers (m : dict string) (d : domain) : res domain :=
  match d_values d with
  | None => Raise EAttribute
  | Some t => Ok (mkD (d_ind d) (d_dep d)
                      (Some (map (fun kf => (fst kf, mkF (map (rename_label m) (f_cols (snd kf))) (f_rows (snd kf)))) t)))
  end.

(** Column [l] of a table (the first one with that label). *)
Fixpoint col_index (l : label) (cols : list label) : option nat :=
  match cols with
  | [] => None
  | c :: r => if label_eqb l c then Some 0%nat else option_map S (col_index l r)
  end.
Fixpoint column_at (i : nat) (rows : list (list V)) : option (list V) :=
  match rows with
  | [] => Some []
  | r :: rs => match nth_error r i, column_at i rs with Some v, Some s => Some (v :: s) | _, _ => None end
  end.
(** [domain.values[ind][name].values], used by __getitem__ (line 103) and
    Simulation.getResults (simulation.py lines 421-435). *)
Definition column (d : domain) (ind : string) (l : label) : option (list V) :=
  match d_values d with
  | None => None
  | Some t => match dget ind t with
              | None => None
              | Some f => match col_index l (f_cols f) with Some i => column_at i (f_rows f) | None => None end
              end
  end.

(** [np.hstack((time_points.reshape(-1,1), Y))], solvers.py lines 766, 776, 964:
    as many time points as rows of [Y]. *)
Definition hstack (times : list V) (y : matrix) : res matrix :=
  if Nat.eqb (List.length times) (List.length (mx_rows y))
  then Ok (mkM (S (mx_width y)) (map (fun tr => fst tr :: snd tr) (List.combine times (mx_rows y))))
  else Raise EValue.

(** End of DSolver.solve and DaeSolver.solve, solvers.py lines 759-804 and
    964-990: the trajectory is registered and the headers renamed.  ([is not {}]
    is always true.) *)
Definition record_run (d : domain) (times : list V) (y : matrix) (names : dict string) : domain * res Datatypes.unit :=
  match hstack times y with
  | Raise e => (d, Raise e)
  | Ok m => match register d m with
            | (d', Raise e) => (d', Raise e)
            | (d', Ok _) => match rename_headers names d' with
                            | Raise e => (d', Raise e)
                            | Ok d'' => (d'', Ok tt)
                            end
            end
  end.
End Domain.
Arguments frame : clear implicits.
Arguments matrix : clear implicits.
Arguments domain : clear implicits.
