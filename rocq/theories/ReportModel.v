(** Model of what is printed: Unit.__str__ (core/unit.py), the reports of
    analysis.py, the tables of simulation.py and the plots of plotter.py.
    PrettyTable's text layout and matplotlib are left out: a table is its header
    and rows, a plot its curves. *)
From Verif Require Export SimModel.
From Verif Require Import DomainModel.
From Coq Require Import Reals.
Notation num := Verif.Num.num.

(** ** Units *)

(** Unit.__str__, unit.py lines 100-118; [pn] is Python's [str] on numbers. *)
Fixpoint unit_words (pn : num -> string) (u : unit) (ks : list string) : res (list string) :=
  match ks with
  | [] => Ok []
  | k :: r => match dget k (u_dim u) with
              | None => Raise EKey
              | Some x => let* l := unit_words pn u r in
                          Ok (if neqb x (PInt 0) then l else (k ++ "^" ++ pn x)%string :: l)
              end
  end.
Definition unit_str (pn : num -> string) (u : unit) : res string :=
  let* l := unit_words pn u (dkeys null_dimension) in Ok (join " " l).

(** ** Reports *)

(** A row of the table, analysis.py lines 184-209, before the lists of names are
    joined with ", " (lines 139-143); the description is left out. *)
Record rrow := mkRow {
  r_name : string;
  r_repr : option sx;
  r_vars : list string;
  r_pars : list string;
  r_cons : list string;
  r_type : string
}.

(** One list of _inspectForObjects, lines 133-137: names of the objects of class
    [k], with "(*)" for specified ones if [mark]. *)
Fixpoint listed (h : heap) (k : qkind) (mark : bool) (m : dict loc) : res (list string) :=
  match m with
  | [] => Ok []
  | (x, l) :: r =>
      match hget h l with
      | None => Raise EName
      | Some q => let* s := listed h k mark r in
                  Ok (if qkind_eqb (q_kind q) k
                      then (if mark && q_spec q then x ++ "(*)" else x)%string :: s else s)
      end
  end.

(** Lines 201-205: the first of the true entries of the equation_type
    dictionary, in words.  (A set in Python; more than one true entry does not
    happen, see C14.) *)
Definition true_types (t : ety) : list string :=
  (if t_lin t then ["linear"] else []) ++ (if t_nonlin t then ["nonlinear"] else []) ++
  (if t_diff t then ["differential"] else []).

Definition report_row (h : heap) (e : eqn) : res rrow :=
  match eq_expr e with
  | None => Raise EAttribute
  | Some n =>
      let* vs := listed h KVariable false (nd_smap n) in
      let* ps := listed h KParameter true (nd_smap n) in
      let* cs := listed h KConstant true (nd_smap n) in
      match true_types (nd_ty n) with
      | [] => Raise EIndex
      | t :: _ => Ok (mkRow (eq_name e) (Some (nd_repr n)) vs ps cs t)
      end
  end.

(** modelReport, lines 171-211. *)
Definition model_report (h : heap) (m : mstate) : res (list rrow) :=
  map_res (report_row h) (dvals (m_eqs m)).

(** problemReport, lines 147-169: the problem type and a table for each model. *)
Definition problem_report (w : pworld) (p : problem) : res (option ptype * list (string * list rrow)) :=
  match pr_block p with
  | None => Raise EAttribute
  | Some b =>
      let* l := map_res (fun kv => match get_model w (snd kv) with
                                   | None => Raise EName
                                   | Some (m, _) => let* t := model_report (pw_heap w) m in Ok (fst kv, t)
                                   end) (pr_models p) in
      Ok (problem_type b, l)
  end.

(** ** Results *)

(** The table of an algebraic problem, simulation.py lines 332-345: name, unit
    and value. *)
Fixpoint result_rows (pn : num -> string) (h : heap) (b : block) (out : dict num) : res (list (string * string * num)) :=
  match out with
  | [] => Ok []
  | (x, v) :: r =>
      match dget x (b_vars b) with
      | None => Raise EKey
      | Some l => match hget h l with
                  | None => Raise EName
                  | Some q => let* u := unit_str pn (q_units q) in
                              let* s := result_rows pn h b r in Ok ((x, u, v) :: s)
                  end
      end
  end.

(** PrettyTable: [field_names] needs something with a length whose entries are
    different; a row must have as many entries as there are names, no names are
    replaced by "Field 1", ... *)
Definition header_names (st : store) (v : cval) : res (list string) :=
  match (match v with
         | VList l => Some l
         | VRef r => nth_error st r
         | _ => None
         end) with
  | None => Raise EType
  | Some l =>
      let* ns := map_res (fun x => match x with VStr s => Ok s | _ => Raise EType end) l in
      if Nat.eqb (List.length (nodup string_dec ns)) (List.length ns) then Ok ns else Raise EException
  end.
Definition field_names (n : nat) : list string := map (fun k => ("Field " ++ str_nat (S k))%string) (seq 0 n).
Fixpoint add_rows {A} (names : list string) (rows : list (list A)) : res (list string * list (list A)) :=
  match rows with
  | [] => Ok (names, [])
  | r :: rs =>
      let ns := if is_empty names then field_names (List.length r) else names in
      if Nat.eqb (List.length r) (List.length ns)
      then let* t := add_rows ns rs in Ok (fst t, r :: snd t)
      else Raise EException
  end.

(** [np.concatenate(([time_points[i]], Y[i, :]))] for every time point, lines
    325-326. *)
Fixpoint run_rows (times : list num) (y : list (list num)) : res (list (list num)) :=
  match times, y with
  | [], _ => Ok []
  | _ :: _, [] => Raise EIndex
  | t :: ts, r :: rs => let* s := run_rows ts rs in Ok ((t :: r) :: s)
  end.

Inductive table := TSteady (rows : list (string * string * num)) | TRun (head : list string) (rows : list (list num)).

(** showResults, lines 305-345.  Simplification: [t, Y = output] on a dictionary
    raises ValueError (a dictionary of two names raises TypeError later). *)
Definition show_results (pn : num -> string) (h : heap) (st : store) (s : sim) : res table :=
  match sm_output s with
  | None => Raise EException   (* AssertionError *)
  | Some o =>
      match sm_conf s with
      | None => Raise EType
      | Some c =>
          let* d := opt c "is_dynamic" in
          if is_true d then
            match o with
            | OutDict m => if Nat.eqb (List.length m) 2 then Raise EType else Raise EValue
            | OutRun times y =>
                let* hd := opt c "output_headers" in
                let* names := header_names st hd in
                let* rows := run_rows times y in
                let* t := add_rows names rows in
                Ok (TRun (fst t) (snd t))
            end
          else
            match o with
            | OutRun _ _ => Raise EAttribute
            | OutDict m =>
                if is_empty m then Ok (TSteady [])
                else match sm_problem s with
                     | None => Raise EAttribute
                     | Some p => match pr_block p with
                                 | None => Raise EAttribute
                                 | Some b => let* r := result_rows pn h b m in Ok (TSteady r)
                                 end
                     end
            end
      end
  end.

(** The final residuals, lines 264-282: the name of the i-th equation with the
    value of the i-th entry of [_equations_list] at the results; [None]: symbols
    are left.  Values are real numbers (rounding is left out). *)
Fixpoint residual_rows (es : list eqn) (xs : list sx) (at_ : dict R) : res (list (string * option R)) :=
  match es, xs with
  | [], _ => Ok []
  | _ :: _, [] => Raise EIndex
  | e :: er, x :: xr =>
      if is_raw x then Raise EAttribute
      else let* s := residual_rows er xr at_ in Ok ((eq_name e, eval_at at_ x) :: s)
  end.
Definition final_residuals (b : block) (out : dict R) : res (list (string * option R)) :=
  residual_rows (b_eqs b) (b_exprs b) (results_dict out).

(** ** Plots *)

(** An index of a Domain: one name or a list of names. *)
Inductive names_arg := NOne (s : string) | NMany (l : list string).
Definition names_list (a : names_arg) : list string := match a with NOne s => [s] | NMany l => l end.

Section Plot.
Context {V : Type}.
(** Domain.__getitem__, domain.py lines 80-103: columns for all pairs.  A table
    or column that is missing raises KeyError; [None[...]] TypeError. *)
Definition domain_getitem (d : domain V) (ind dep : names_arg) : res (list (list V)) :=
  map_res (fun ij => match d_values d with
                     | None => Raise EType
                     | Some _ => match column d (fst ij) (LName (snd ij)) with
                                 | Some c => Ok c
                                 | None => Raise EKey
                                 end
                     end)
          (List.list_prod (names_list ind) (names_list dep)).

(** What is to be plotted: data, or names (a string for x, strings for y). *)
Inductive pdata := PCols (l : list (list V)) | PName (s : string) | PNames (l : list string).

Definition fetch (data : option (domain V)) (dep : names_arg) (otherwise : pdata) : res pdata :=
  match data with
  | None => Ok otherwise
  | Some d => match d_ind d with
              | [] => Raise EValue
              | t :: _ => match domain_getitem d (NOne t) dep with
                          | Ok cs => Ok (PCols cs)
                          | Raise _ => Raise EValue
                          end
              end
  end.

(** A curve: abscissae, ordinates, label and marker. *)
Record curve := mkCurve { cu_x : list V; cu_y : list V; cu_label : string; cu_marker : option string }.

(** [plt.plot] needs equal lengths. *)
Definition plot_one (x : list V) (y : list V) (markers labels : option (list string)) (j : nat) : res curve :=
  let* mk := match markers with
             | None => Ok None
             | Some l => match nth_error l j with Some s => Ok (Some s) | None => Raise EIndex end
             end in
  let* lb := match labels with
             | None => Raise EType     (* None[j] *)
             | Some l => match nth_error l j with Some s => Ok s | None => Raise EIndex end
             end in
  if Nat.eqb (List.length x) (List.length y)
  then if is_empty x then Raise EValue   (* min of nothing, line 78/92 *)
       else Ok (mkCurve x y lb mk)
  else Raise EValue.

(** Plotter.plotTimeSeries, plotter.py lines 37-114, and
    Simulation.plotTimeSeries, simulation.py lines 347-364: for every x and every
    y.  Strings that are not looked up have no [reshape] (empty strings aside). *)
Definition plot_time_series (x y : pdata) (labels markers : option (list string)) (data : option (domain V)) : res (list curve) :=
  let* x' := match x with PName s => fetch data (NOne s) x | _ => Ok x end in
  let* y' := match y with PNames l => fetch data (NMany l) y | _ => Ok y end in
  match x', y' with
  | PCols xs, PCols ys =>
      let* cs := map_res (fun a => map_res (fun jb => plot_one a (snd jb) markers labels (fst jb))
                                           (List.combine (seq 0 (List.length ys)) ys)) xs in
      Ok (List.concat cs)
  | PCols [], _ | PNames [], _ | _, PCols [] | _, PNames [] => Ok []
  | _, _ => Raise EAttribute
  end.
End Plot.
Arguments pdata : clear implicits.
Arguments curve : clear implicits.
