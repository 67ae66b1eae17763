(** Model of the ports of models and unit operations: /repo/src/sloth/model.py
    lines 135-215 and 572-592, /repo/src/sloth/unit_op.py lines 20-38 and 316-365. *)
From Verif Require Export Base PackageModel.

(** A stream (any object) put on a port: its identity. *)
Definition stream := nat.

(** [ports = {'inlets': {...}, 'outlets': {...}}]: port names to list objects.
    Simplification: both keys are always there. *)
Record ports := mkPorts { p_in : dict nat; p_out : dict nat }.

(** A Model or a UnitOp.  A model copies streams into a list of its own (line
    588); a unit operation keeps the list object of its last call (lines 339, 363;
    [None]: no call yet). *)
Record pobj := mkObj {
  o_unit : bool;              (* UnitOp, else Model *)
  o_ports : nat;              (* ports: which dictionary object *)
  o_inlets : list stream;     (* Model._inlets *)
  o_inref : option nat;       (* UnitOp._inlets *)
  o_outref : option nat;      (* UnitOp._outlets *)
  o_nin : nat;                (* UnitOp.n_inputs *)
  o_nout : nat                (* UnitOp.n_outputs *)
}.

(** All list objects, ports dictionaries, models and unit operations. *)
Record portstore := mkPS { v_lists : list (list stream); v_dicts : list ports; v_objs : list pobj }.

(** The default argument [ports={'inlets':{},'outlets':{}}] is one object for
    Model (model.py line 135) and one for UnitOp (unit_op.py line 20). *)
Definition model_default : nat := 0.
Definition unit_default : nat := 1.
Definition ports_start : portstore := mkPS [] [mkPorts [] []; mkPorts [] []] [].

(** Argument [ports]: left out, a new empty one, or an existing object. *)
Inductive ports_arg := PortsDefault | PortsNew | PortsSame (i : nat).

(** Model.__init__ and UnitOp.__init__ (with a model given; without one,
    [model.property_package] in line 30 raises AttributeError and there is no
    object). *)
Definition new_object (unit : bool) (n m : nat) (s : portstore) (a : ports_arg) : portstore * res nat :=
  let '(dicts, i) := match a with
                     | PortsDefault => (v_dicts s, if unit then unit_default else model_default)
                     | PortsNew => (v_dicts s ++ [mkPorts [] []], List.length (v_dicts s))
                     | PortsSame i => (v_dicts s, i)
                     end in
  if negb (Nat.ltb i (List.length dicts)) then (s, Raise EName)
  else (mkPS (v_lists s) dicts (v_objs s ++ [mkObj unit i [] None None n m]), Ok (List.length (v_objs s))).

(** Argument [inlets]: a list or one stream. *)
Inductive streams_arg := InList (l : list stream) | InOne (x : stream).
Definition items (a : streams_arg) : list stream := match a with InList l => l | InOne x => [x] end.

Definition dict_at (s : portstore) (i : nat) : ports := nth i (v_dicts s) (mkPorts [] []).
Definition list_at (s : portstore) (i : nat) : list stream := nth i (v_lists s) [].

Definition with_inlets (o : pobj) (l : list stream) : pobj :=
  mkObj (o_unit o) (o_ports o) l (o_inref o) (o_outref o) (o_nin o) (o_nout o).

(** Model._setInlets, model.py lines 572-588: the existing list object is
    extended, otherwise a new one is put in place; then the streams of all inlet
    ports are appended to [_inlets]. *)
Definition model_set_inlets (s : portstore) (i : nat) (o : pobj) (name : string) (a : streams_arg) : portstore :=
  let d := dict_at s (o_ports o) in
  let '(lists, r) := match dget name (p_in d) with
                     | Some r => (upd r (list_at s r ++ items a) (v_lists s), r)
                     | None => (v_lists s ++ [items a], List.length (v_lists s))
                     end in
  let d' := mkPorts (dset name r (p_in d)) (p_out d) in
  let all := List.concat (map (fun kv => nth (snd kv) lists []) (p_in d')) in
  mkPS lists (upd (o_ports o) d' (v_dicts s)) (upd i (with_inlets o (o_inlets o ++ all)) (v_objs s)).

(** UnitOp._setInlets, unit_op.py lines 316-345, and _setOutlets, lines 347-365:
    always a new list object. *)
Definition unit_set (out : bool) (s : portstore) (i : nat) (o : pobj) (name : string) (a : streams_arg) : portstore :=
  let d := dict_at s (o_ports o) in
  let r := List.length (v_lists s) in
  let n := List.length (items a) in
  let d' := if out then mkPorts (p_in d) (dset name r (p_out d)) else mkPorts (dset name r (p_in d)) (p_out d) in
  let o' := if out then mkObj (o_unit o) (o_ports o) (o_inlets o) (o_inref o) (Some r) (o_nin o) (o_nout o + n)
            else mkObj (o_unit o) (o_ports o) (o_inlets o) (Some r) (o_outref o) (o_nin o + n) (o_nout o) in
  mkPS (v_lists s ++ [items a]) (upd (o_ports o) d' (v_dicts s)) (upd i o' (v_objs s)).

(** [x._setInlets(inlets, name)] and [x._setOutlets(outlets, name)]; the latter
    does nothing on a model (model.py lines 590-592). *)
Definition set_port (out : bool) (s : portstore) (i : nat) (name : string) (a : streams_arg) : portstore * res Datatypes.unit :=
  match nth_error (v_objs s) i with
  | None => (s, Raise EName)
  | Some o =>
      (if o_unit o then unit_set out s i o name a
       else if out then s else model_set_inlets s i o name a, Ok tt)
  end.

(** Model.__getitem__, model.py lines 538-544, takes two arguments: [m[key]]
    passes one. *)
Definition model_getitem (s : portstore) (i : nat) : res Datatypes.unit := Raise EType.

(** Statements of a program about ports. *)
Inductive portaction :=
| PortNew (unit : bool) (n m : nat) (a : ports_arg)
| PortSet (out : bool) (i : nat) (name : string) (a : streams_arg).

Definition portstep (s : portstore) (a : portaction) : portstore :=
  match a with
  | PortNew u n m a => fst (new_object u n m s a)
  | PortSet out i name a => fst (set_port out s i name a)
  end.
Definition portrun (l : list portaction) : portstore := fold_left portstep l ports_start.
