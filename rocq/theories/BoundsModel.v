(** Bounds of variables.  Source: /repo/src/sloth/core/variable.py lines 20-101
    and /repo/src/sloth/model.py lines 667-717. *)
From Verif Require Import Base Num UnitModel Node Build EquationModel ModelModel.
Notation num := Verif.Num.num.

(** Attributes is_lower_bounded, is_upper_bounded, lower_bound, upper_bound,
    variable.py lines 87-93. *)
Record bounds := mkBounds { bd_is_lower : bool; bd_is_upper : bool; bd_lower : option num; bd_upper : option num }.
Definition given_bound (b : option num) : bool := match b with Some _ => true | None => false end.
(** Variable.__init__, lines 87-93: the flags given are not used. *)
Definition variable_bounds (is_lower is_upper : bool) (lower upper : option num) : bounds :=
  mkBounds (given_bound lower) (given_bound upper) lower upper.

(** Statements of a model: createVariable with bounds (model.py lines 667-717), or
    one of ModelModel.v. *)
Inductive bcmd :=
| BVar (attr name : string) (u : unit) (is_lower is_upper : bool) (lower upper : option num) (exposed : bool) (type : string) (value : num)
| BCmd (c : cmd).
(** A model and the bounds of the variables made so far. *)
Record bworld := mkBW { bw_world : mworld; bw_bounds : list (loc * bounds) }.

(** model.py lines 707-717: the bounds go to the Variable, which is the next
    object made; no other line reads them. *)
Definition run_bcmd (w : bworld) (c : bcmd) : bworld * res Datatypes.unit :=
  match c with
  | BVar a n u il iu lo up ex ty v =>
      let (w', r) := run_cmd (bw_world w) (CVar a n u ex ty v) in
      (mkBW w' (bw_bounds w ++ [(List.length (w_heap (bw_world w)), variable_bounds il iu lo up)]), r)
  | BCmd c => let (w', r) := run_cmd (bw_world w) c in (mkBW w' (bw_bounds w), r)
  end.
Fixpoint run_bcmds (w : bworld) (cs : list bcmd) : bworld * res Datatypes.unit :=
  match cs with
  | [] => (w, Ok tt)
  | c :: r => match run_bcmd w c with (w', Ok _) => run_bcmds w' r | (w', Raise x) => (w', Raise x) end
  end.
