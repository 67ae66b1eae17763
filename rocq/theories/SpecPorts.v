(** Specification vocabulary for ports. *)
From Verif Require Import Base PackageModel PortsModel.

(** The streams on a port of object [i], as its user sees them. *)
Definition port_of (s : portstore) (i : nat) (out : bool) (name : string) : option (list stream) :=
  match nth_error (v_objs s) i with
  | None => None
  | Some o => let d := dict_at s (o_ports o) in
              option_map (list_at s) (dget name (if out then p_out d else p_in d))
  end.

(** The streams object [i] takes as its inlets when they are totalled. *)
Definition inlets_of (s : portstore) (i : nat) : list stream :=
  match nth_error (v_objs s) i with
  | None => []
  | Some o => if o_unit o then match o_inref o with Some r => list_at s r | None => [] end else o_inlets o
  end.

Definition n_inputs_of (s : portstore) (i : nat) : nat :=
  match nth_error (v_objs s) i with Some o => o_nin o | None => 0 end.

Definition n_outputs_of (s : portstore) (i : nat) : nat :=
  match nth_error (v_objs s) i with Some o => o_nout o | None => 0 end.

Definition same_ports (s s' : portstore) (k : nat) : Prop :=
  forall out name, port_of s' k out name = port_of s k out name.

(** ** Histories *)

(** The streams handed over in a call: a list of them, or one. *)
Definition handed (a : streams_arg) : list stream := match a with InList l => l | InOne x => [x] end.

(** Creations, in order. *)
Definition creation (a : portaction) : list (bool * ports_arg) :=
  match a with PortNew u _ _ p => [(u, p)] | _ => [] end.
Definition creations (l : list portaction) : list (bool * ports_arg) := flat_map creation l.

(** Objects are only given dictionaries of their own. *)
Definition own_ports (l : list portaction) : Prop := forall u p, In (u, p) (creations l) -> p = PortsNew.
(** Only models, none given ports, as all classes of unit_op_library.py do. *)
Definition default_models (l : list portaction) : Prop := forall u p, In (u, p) (creations l) -> u = false /\ p = PortsDefault.

(** Ports are set on objects that exist: [n] objects before the history. *)
Fixpoint valid (n : nat) (l : list portaction) : Prop :=
  match l with
  | [] => True
  | PortNew _ _ _ _ :: r => valid (S n) r
  | PortSet _ i _ _ :: r => (i < n)%nat /\ valid n r
  end.

(** What was put on a port, one entry per call. *)
Definition put_on (out : bool) (i : nat) (name : string) (a : portaction) : list (list stream) :=
  match a with
  | PortSet out' i' name' x =>
      if (Bool.eqb out out' && Nat.eqb i i' && String.eqb name name')%bool then [handed x] else []
  | _ => []
  end.
Definition puts (l : list portaction) (out : bool) (i : nat) (name : string) : list (list stream) :=
  flat_map (put_on out i name) l.

(** What a port of an object is meant to show: a model gathers the streams of all
    calls and has no outlets, a unit operation shows those of the last call. *)
Definition meant (unit out : bool) (calls : list (list stream)) : option (list stream) :=
  match calls with
  | [] => None
  | _ => if unit then Some (last calls []) else if out then None else Some (List.concat calls)
  end.

(** What was put on an inlet port of any object. *)
Definition put_anywhere (name : string) (a : portaction) : list (list stream) :=
  match a with
  | PortSet false _ name' x => if String.eqb name name' then [handed x] else []
  | _ => []
  end.
Definition puts_anywhere (l : list portaction) (name : string) : list (list stream) := flat_map (put_anywhere name) l.

(** Streams put on any inlet port of object [i], call by call. *)
Definition put_in (i : nat) (a : portaction) : list stream :=
  match a with PortSet false i' _ x => if Nat.eqb i i' then handed x else [] | _ => [] end.
Definition streams_in (l : list portaction) (i : nat) : list stream := flat_map (put_in i) l.

(** The calls setting inlets of object [i]. *)
Definition call_in (i : nat) (a : portaction) : list (list stream) :=
  match a with PortSet false i' _ x => if Nat.eqb i i' then [handed x] else [] | _ => [] end.
Definition calls_in (l : list portaction) (i : nat) : list (list stream) := flat_map (call_in i) l.

(** Objects referring to the same ports dictionary. *)
Definition share_ports (s : portstore) (i k : nat) : Prop :=
  exists o q, nth_error (v_objs s) i = Some o /\ nth_error (v_objs s) k = Some q /\ o_ports o = o_ports q.

(** Every object is given a dictionary of its own or none. *)
Definition usual_ports (l : list portaction) : Prop := forall u p, In (u, p) (creations l) -> p = PortsNew \/ p = PortsDefault.
