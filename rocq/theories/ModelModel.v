(** Model of /repo/src/sloth/model.py: declarations, checks, incorporation and
    calling a model. *)
From Verif Require Export EquationModel.

(** Attribute of a model object set by user code or by incorporation. *)
Inductive attr := AQty (l : loc) | AEqn (e : eqn).

(** class Model, lines 135-215.  Ports are in PortsModel.v; property packages,
    connections (never filled) and warning flags are left out.  Attributes named
    like the fields themselves are not modelled. *)
Record mstate := mkM {
  m_name : string;
  m_vars : dict loc;       (* variables *)
  m_pars : dict loc;       (* parameters *)
  m_cons : dict loc;       (* constants *)
  m_eqs : dict eqn;        (* equations *)
  m_in : list loc;         (* exposed_vars['input'] *)
  m_out : list loc;        (* exposed_vars['output'] *)
  m_attrs : dict attr      (* the rest of __dict__ *)
}.

Definition new_model (name : string) : mstate := mkM name [] [] [] [] [] [] [].

Definition with_vars m d := mkM (m_name m) d (m_pars m) (m_cons m) (m_eqs m) (m_in m) (m_out m) (m_attrs m).
Definition with_pars m d := mkM (m_name m) (m_vars m) d (m_cons m) (m_eqs m) (m_in m) (m_out m) (m_attrs m).
Definition with_cons m d := mkM (m_name m) (m_vars m) (m_pars m) d (m_eqs m) (m_in m) (m_out m) (m_attrs m).
Definition with_eqs m d := mkM (m_name m) (m_vars m) (m_pars m) (m_cons m) d (m_in m) (m_out m) (m_attrs m).
Definition with_in m l := mkM (m_name m) (m_vars m) (m_pars m) (m_cons m) (m_eqs m) l (m_out m) (m_attrs m).
Definition with_out m l := mkM (m_name m) (m_vars m) (m_pars m) (m_cons m) (m_eqs m) (m_in m) l (m_attrs m).
Definition with_attrs m d := mkM (m_name m) (m_vars m) (m_pars m) (m_cons m) (m_eqs m) (m_in m) (m_out m) d.

(** What the statements of one model act on: all quantities, the counters of
    the automatic names, the model. *)
Record mworld := mkW { w_heap : heap; w_uids : uids; w_mod : mstate }.
(** Single-threaded use: the calling thread. *)
Definition main_thread : nat := 0.

(** [name + '_' + self.name], lines 709, 782, 815, 840. *)
Definition full_name (name model : string) : string := (name ++ "_" ++ model)%string.
(** [name[:-(1+len(owner))]], lines 382, 410, 447, 480, 513, 658. *)
Definition strip_name (name owner : string) : string := drop_last (1 + String.length owner) name.

(** createVariable, lines 667-717: registered before the exposure list is looked
    up, so a bad type raises KeyError with the variable already in place. *)
Definition create_variable (h : heap) (m : mstate) (name : string) (u : unit) (exposed : bool)
    (type : string) (value : num) : heap * mstate * res loc :=
  let q := mkQty KVariable (full_name name (m_name m)) u value false (m_name m) exposed type false in
  let l := List.length h in
  let m1 := with_vars m (dset (q_name q) l (m_vars m)) in
  if exposed then
    if String.eqb type "input" then (h ++ [q], with_in m1 (m_in m1 ++ [l]), Ok l)
    else if String.eqb type "output" then (h ++ [q], with_out m1 (m_out m1 ++ [l]), Ok l)
    else (h ++ [q], m1, Raise EKey)
  else (h ++ [q], m1, Ok l).

(** createParameter, lines 755-786 (the given value does not specify it). *)
Definition create_parameter (h : heap) (m : mstate) (name : string) (u : unit) (value : num)
  : heap * mstate * res loc :=
  let q := mkQty KParameter (full_name name (m_name m)) u value false (m_name m) false "" false in
  let l := List.length h in
  (h ++ [q], with_pars m (dset (q_name q) l (m_pars m)), Ok l).

(** createConstant, lines 788-819. *)
Definition create_constant (h : heap) (m : mstate) (name : string) (u : unit) (value : num)
  : heap * mstate * res loc :=
  let q := mkQty KConstant (full_name name (m_name m)) u value false (m_name m) false "" false in
  let l := List.length h in
  (h ++ [q], with_cons m (dset (q_name q) l (m_cons m)), Ok l).

(** Names of all declared objects, lines 334-336. *)
Definition declared (m : mstate) : list string :=
  dkeys (m_vars m) ++ dkeys (m_pars m) ++ dkeys (m_cons m).

Definition mem_str (x : string) (l : list string) : bool := existsb (String.eqb x) l.

(** _checkEquation_, lines 330-350. *)
Definition check_equation (m : mstate) (e : eqn) : res bool :=
  match eq_objs e with
  | None => Raise EAttribute
  | Some d => if forallb (fun k => mem_str k (declared m)) (dkeys d) then Ok true
              else Raise EUnexpectedObject
  end.

(** createEquation, lines 822-866, with the expression already evaluated
    ([None]: no expression given, line 846 fails on None). *)
Definition create_equation (w : mworld) (name : string) (a : option earg) (check : bool)
  : mworld * res eqn :=
  let m := w_mod w in
  let '(u', r) := equation_init (w_uids w) main_thread name a (m_name m) in
  let fail x := (mkW (w_heap w) u' m, Raise x) in
  match r with
  | Raise x => fail x
  | Ok e0 =>
      let e1 := with_ename e0 (full_name (eq_name e0) (m_name m)) in
      match sweep_objects e1 with
      | (_, Raise x) => fail x
      | (e2, Ok _) =>
          let store := (mkW (w_heap w) u' (with_eqs m (dset (eq_name e2) e2 (m_eqs m))), Ok e2) in
          if check then match check_equation m e2 with
                        | Raise x => fail x
                        | Ok _ => store
                        end
          else store
      end
  end.

(** ** Declaration scripts *)

(** Argument of setValue in user code: a number, another object, or a number with
    a unit. *)
Inductive sarg := SANum (n : num) | SAAttr (a : string).

(** Statements of the Declare... functions; the first component is the attribute
    assigned ([self.x = self.createVariable(...)]).  Simplification: user code is
    a sequence of these. *)
Inductive cmd :=
| CVar (attr name : string) (u : unit) (exposed : bool) (type : string) (value : num)
| CPar (attr name : string) (u : unit) (value : num)
| CCon (attr name : string) (u : unit) (value : num)
| CSet (attr : string) (v : sarg) (u : option unit)
| CDist (attr : string)
| CEq (attr name : string) (q : ueq string) (check : bool).

(** [self.attr] as a quantity. *)
Definition attr_qty (m : mstate) (a : string) : res loc :=
  match dget a (m_attrs m) with
  | Some (AQty l) => Ok l
  | Some (AEqn _) => Raise EType
  | None => Raise EAttribute
  end.

Definition set_attr (m : mstate) (a : string) (x : attr) : mstate :=
  with_attrs m (dset a x (m_attrs m)).

Definition assign_qty (w : mworld) (a : string) (r : heap * mstate * res loc) : mworld * res Datatypes.unit :=
  match r with
  | (h, m, Ok l) => (mkW h (w_uids w) (set_attr m a (AQty l)), Ok tt)
  | (h, m, Raise x) => (mkW h (w_uids w) m, Raise x)
  end.

(** Variable.distributeOnDomain, variable.py lines 103-116: sets the domain. *)
Definition set_domain (q : qty) : qty :=
  mkQty (q_kind q) (q_name q) (q_units q) (q_value q) (q_spec q) (q_owner q) (q_exposed q) (q_type q) true.

Definition run_cmd (w : mworld) (c : cmd) : mworld * res Datatypes.unit :=
  let h := w_heap w in let m := w_mod w in
  match c with
  | CVar a n u ex ty v => assign_qty w a (create_variable h m n u ex ty v)
  | CPar a n u v => assign_qty w a (create_parameter h m n u v)
  | CCon a n u v => assign_qty w a (create_constant h m n u v)
  | CSet a v u =>
      match attr_qty m a with
      | Raise x => (w, Raise x)
      | Ok l =>
          match (match v with
                 | SANum n => Ok (SVNum n)
                 | SAAttr b => let* i := attr_qty m b in
                               match hget h i with Some q => Ok (SVQty q) | None => Raise EName end
                 end) with
          | Raise x => (w, Raise x)
          | Ok sv => let '(h', r) := heap_set_value h l sv u in (mkW h' (w_uids w) m, r)
          end
      end
  | CDist a =>
      match attr_qty m a with
      | Raise x => (w, Raise x)
      | Ok l => match hget h l with
                | None => (w, Raise EName)
                | Some q => if qkind_eqb (q_kind q) KVariable
                            then (mkW (hset h l (set_domain q)) (w_uids w) m, Ok tt)
                            else (w, Raise EAttribute)
                end
      end
  | CEq a n q check =>
      match (let* q' := resolve_eq (attr_qty m) q in build_eq h q') with
      | Raise x => (w, Raise x)
      | Ok arg =>
          match create_equation w n (Some arg) check with
          | (w', Raise x) => (w', Raise x)
          | (w', Ok e) => (mkW (w_heap w') (w_uids w') (set_attr (w_mod w') a (AEqn e)), Ok tt)
          end
      end
  end.

Fixpoint run_cmds (w : mworld) (cs : list cmd) : mworld * res Datatypes.unit :=
  match cs with
  | [] => (w, Ok tt)
  | c :: r => match run_cmd w c with
              | (w', Ok _) => run_cmds w' r
              | (w', Raise x) => (w', Raise x)
              end
  end.

(** The four functions a user provides, lines 871-885. *)
Record decls := mkDecls { d_cons : list cmd; d_pars : list cmd; d_vars : list cmd; d_eqs : list cmd }.

(** Model.__call__, lines 546-570, for a model without inlets. *)
Definition model_call (d : decls) (w : mworld) : mworld * res Datatypes.unit :=
  run_cmds w (d_cons d ++ d_pars d ++ d_vars d ++ d_eqs d).

(** ** Incorporation *)

(** Local name of an object, lines 408-414, 445-451, 478-484, 511-517. *)
Definition object_name (name owner : string) : string :=
  if String.eqb owner "" then name else strip_name name owner.

(** The deep copy with its new name and owner, lines 404-419. *)
Definition reown (q : qty) (host : string) (rewrite : bool) : qty :=
  mkQty (q_kind q) (if rewrite then full_name (object_name (q_name q) (q_owner q)) host else q_name q)
        (q_units q) (q_value q) (q_spec q) host (q_exposed q) (q_type q) (q_domain q).

(** _addVariableDirectly, lines 396-431.  An exposed variable makes
    [self.exposed_vars[type]] (line 427) index with the built-in [type]: KeyError
    after the variable was registered. *)
Definition add_variable (h : heap) (m : mstate) (l : loc) (rewrite : bool) : heap * mstate * res Datatypes.unit :=
  match hget h l with
  | None => (h, m, Raise EName)
  | Some q =>
      let q' := reown q (m_name m) rewrite in
      let l' := List.length h in
      let m1 := with_vars m (dset (q_name q') l' (m_vars m)) in
      if q_exposed q then (h ++ [q'], m1, Raise EKey)
      else (h ++ [q'], set_attr m1 (object_name (q_name q) (q_owner q)) (AQty l'), Ok tt)
  end.

(** _addParameterDirectly, lines 433-464. *)
Definition add_parameter (h : heap) (m : mstate) (l : loc) (rewrite : bool) : heap * mstate * res Datatypes.unit :=
  match hget h l with
  | None => (h, m, Raise EName)
  | Some q =>
      let q' := reown q (m_name m) rewrite in
      let l' := List.length h in
      (h ++ [q'], set_attr (with_pars m (dset (q_name q') l' (m_pars m)))
                           (object_name (q_name q) (q_owner q)) (AQty l'), Ok tt)
  end.

(** _addConstantDirectly, lines 466-497. *)
Definition add_constant (h : heap) (m : mstate) (l : loc) (rewrite : bool) : heap * mstate * res Datatypes.unit :=
  match hget h l with
  | None => (h, m, Raise EName)
  | Some q =>
      let q' := reown q (m_name m) rewrite in
      let l' := List.length h in
      (h ++ [q'], set_attr (with_cons m (dset (q_name q') l' (m_cons m)))
                           (object_name (q_name q) (q_owner q)) (AQty l'), Ok tt)
  end.

Fixpoint add_all (add : heap -> mstate -> loc -> bool -> heap * mstate * res Datatypes.unit)
    (h : heap) (m : mstate) (ls : list loc) (rewrite : bool) : heap * mstate * res Datatypes.unit :=
  match ls with
  | [] => (h, m, Ok tt)
  | l :: r => match add h m l rewrite with
              | (h', m', Ok _) => add_all add h' m' r rewrite
              | bad => bad
              end
  end.

(** _addEquationDirectly, lines 499-536.  The copies deepcopy makes of the
    quantities in the maps are replaced (symbolic_map) or unused (variable_map),
    so they are not modelled. *)
Definition add_equation (m : mstate) (e : eqn) (names : dict string) (objs : dict loc) (rewrite : bool)
  : mstate * res Datatypes.unit :=
  let o := object_name (eq_name e) (eq_owner e) in
  let e1 := with_ename e (if rewrite then full_name o (m_name m) else eq_name e) in
  match convert_symbolic names objs (with_eowner e1 (m_name m)) with
  | Raise x => (m, Raise x)
  | Ok e2 => (set_attr (with_eqs m (dset (eq_name e2) e2 (m_eqs m))) o (AEqn e2), Ok tt)
  end.

Fixpoint add_equations (m : mstate) (es : list eqn) (names : dict string) (objs : dict loc) (rewrite : bool)
  : mstate * res Datatypes.unit :=
  match es with
  | [] => (m, Ok tt)
  | e :: r => match add_equation m e names objs rewrite with
              | (m', Ok _) => add_equations m' r names objs rewrite
              | bad => bad
              end
  end.

(** The renaming, line 382. *)
Definition names_map (donor : mstate) (host : string) : dict string :=
  dof (map (fun k => (k, full_name (strip_name k (m_name donor)) host))
           (dkeys (m_vars donor) ++ dkeys (m_pars donor) ++ dkeys (m_cons donor))).

(** All objects of the model, lines 386-392. *)
Definition whole_objects (m : mstate) : dict loc :=
  dupdate (dupdate (dupdate [] (m_cons m)) (m_pars m)) (m_vars m).

Record incflags := mkInc { i_vars : bool; i_pars : bool; i_cons : bool; i_eqs : bool; i_rewrite : bool }.
Definition inc_default : incflags := mkInc true true true true true.

(** incorporateFromExternalModel, lines 352-394. *)
Definition incorporate (h : heap) (m donor : mstate) (f : incflags) : heap * mstate * res Datatypes.unit :=
  match (if i_vars f then add_all add_variable h m (dvals (m_vars donor)) (i_rewrite f) else (h, m, Ok tt)) with
  | (h1, m1, Raise x) => (h1, m1, Raise x)
  | (h1, m1, Ok _) =>
    match (if i_pars f then add_all add_parameter h1 m1 (dvals (m_pars donor)) (i_rewrite f) else (h1, m1, Ok tt)) with
    | (h2, m2, Raise x) => (h2, m2, Raise x)
    | (h2, m2, Ok _) =>
      match (if i_cons f then add_all add_constant h2 m2 (dvals (m_cons donor)) (i_rewrite f) else (h2, m2, Ok tt)) with
      | (h3, m3, Raise x) => (h3, m3, Raise x)
      | (h3, m3, Ok _) =>
        if i_eqs f then
          let '(m4, r) := add_equations m3 (dvals (m_eqs donor)) (names_map donor (m_name m3))
                                        (whole_objects m3) (i_rewrite f) in (h3, m4, r)
        else (h3, m3, Ok tt)
      end
    end
  end.
