(** Model of UnitOp.resolve and of what it calls: /repo/src/sloth/unit_op.py lines
    40-314.  Simplification: as in UnitOpModel.v, phase names are parts of Python
    identifiers. *)
From Verif Require Export UnitOpModel.
Notation num := Verif.Num.num.
Open Scope string_scope.
Open Scope list_scope.

(** ** Inlets, lines 40-242 *)

(** [createEquation(prefix + stream.b.name, "", stream.a() - stream.a.value)],
    lines 85, 95, 105 and 115 (which takes the name of mdot for ndot). *)
Definition fix_named (w : mworld) (prefix b a : string) (s : mstate) : mworld * res Datatypes.unit :=
  match attr_qty s b, attr_qty s a with
  | Ok lb, Ok la =>
      match hget (w_heap w) lb, hget (w_heap w) la with
      | Some qb, Some qa =>
          match node_op BSub (qty_call la qa) (ONum (q_value qa)) with
          | Raise x => (w, Raise x)
          | Ok n => let '(w', r) := create_equation w (prefix ++ q_name qb)%string (Some (EANode n)) true in
                    (w', match r with Ok _ => Ok tt | Raise x => Raise x end)
          end
      | _, _ => (w, Raise EName)
      end
  | Raise x, _ | _, Raise x => (w, Raise x)
  end.
Fixpoint fix_all (w : mworld) (prefix b a : string) (ss : list mstate) : mworld * res Datatypes.unit :=
  match ss with
  | [] => (w, Ok tt)
  | s :: r => match fix_named w prefix b a s with
              | (w', Ok _) => fix_all w' prefix b a r
              | bad => bad
              end
  end.

(** Lines 81-89, 91-99, 101-109 and 111-119: the calls and the equations; every
    exception becomes AbsentRequiredObjectError. *)
Definition take_inputs (w : mworld) (prefix b a : string) (ss : list mstate) : mworld * res (list opd) :=
  match calls_of (w_heap w) a ss with
  | Raise _ => (w, Raise EAbsentRequired)
  | Ok os => match fix_all w prefix b a ss with
             | (w', Ok _) => (w', Ok os)
             | (w', Raise _) => (w', Raise EAbsentRequired)
             end
  end.

Definition and_then {A B} (r : mworld * res A) (f : mworld -> A -> mworld * res B) : mworld * res B :=
  match r with (w, Ok a) => f w a | (w, Raise x) => (w, Raise x) end.

(** _totalizeInlets, lines 40-242: the ports have inlets whenever there are
    inlets (PortsModel.v); every exception of line 71 becomes a plain Exception
    (line 75).  Line 136 reads the undefined name Sum, after [self.model.mdot_in]:
    lines 140-242 are not reached. *)
Definition unit_inlets (w : mworld) (ss : list mstate) : mworld * res Datatypes.unit :=
  let w0 := ensure_inputs w in
  let '(h, m, r) := take_streams (w_heap w0) (w_mod w0) ss in
  let w1 := mkW h (w_uids w0) m in
  match r with
  | Raise _ => (w1, Raise EException)
  | Ok _ =>
      and_then (take_inputs w1 "eq_P_" "P" "P" ss) (fun w2 ps =>
      and_then (take_inputs w2 "eq_T_" "T" "T" ss) (fun w3 ts =>
      and_then (take_inputs w3 "eq_mdot_" "mdot" "mdot" ss) (fun w4 _ =>
      and_then (take_inputs w4 "eq_ndot_" "mdot" "ndot" ss) (fun w5 _ =>
      and_then (totalize w5 "totalization_P" "P_in" ps) (fun w6 _ =>
      and_then (totalize w6 "totalization_T" "T_in" ts) (fun w7 _ =>
      match attr_qty (w_mod w7) "mdot_in" with
      | Raise x => (w7, Raise x)
      | Ok _ => (w7, Raise EName)
      end))))))
  end.

(** ** Outlets, lines 244-288 *)

(** [target.createEquation(name, "...", outlet.a() - self.model.b())]; [w] is the
    world of the target, [m] the model. *)
Definition link (w : mworld) (name : string) (o : mstate) (a : string) (m : mstate) (b : string) : mworld * res Datatypes.unit :=
  match (let* la := attr_qty o a in
         let* x := build_qty (w_heap w) la in
         let* lb := attr_qty m b in
         let* y := build_qty (w_heap w) lb in
         node_op BSub x (ONode y)) with
  | Raise x => (w, Raise x)
  | Ok n => let '(w', r) := create_equation w name (Some (EANode n)) true in
            (w', match r with Ok _ => Ok tt | Raise x => Raise x end)
  end.

(** Lines 264-272. *)
Definition outlet_balances : list (string * string * string) :=
  [("tot_P_out", "P", "P_in"); ("tot_T_out", "T", "T_in"); ("tot_H_out", "H", "H_in");
   ("tot_ndot_out", "ndot", "ndot_in"); ("tot_mdot_out", "mdot", "mdot_in")].
Fixpoint link_all (w : mworld) (o : mstate) (l : list (string * string * string)) : mworld * res Datatypes.unit :=
  match l with
  | [] => (w, Ok tt)
  | (name, a, b) :: r => match link w name o a (w_mod w) b with
                         | (w', Ok _) => link_all w' o r
                         | bad => bad
                         end
  end.

(** The two equations of a phase, lines 276-278 and again 280-282. *)
Definition molar_link (p : string) : string := ("molar_conservation_phase_" ++ p ++ "_outlet")%string.
Definition mass_link (p : string) : string := ("mass_conservation_phase_" ++ p ++ "_outlet")%string.
Definition z_of (p : string) : string := ("z_" ++ p)%string.
Definition w_of (p : string) : string := ("w_" ++ p)%string.

(** Lines 274-282: for every phase two equations of the model, then the same two
    of the outlet. *)
Fixpoint link_phases (w : mworld) (o : mstate) (ps : list string) : mworld * mstate * res Datatypes.unit :=
  match ps with
  | [] => (w, o, Ok tt)
  | p :: r =>
      match link_all w o [(molar_link p, z_of p, z_of p); (mass_link p, w_of p, w_of p)] with
      | (w1, Raise x) => (w1, o, Raise x)
      | (w1, Ok _) =>
          match link (mkW (w_heap w1) (w_uids w1) o) (molar_link p) o (z_of p) (w_mod w1) (z_of p) with
          | (w2, Raise x) => (mkW (w_heap w2) (w_uids w2) (w_mod w1), w_mod w2, Raise x)
          | (w2, Ok _) =>
              match link w2 (mass_link p) (w_mod w2) (w_of p) (w_mod w1) (w_of p) with
              | (w3, Raise x) => (mkW (w_heap w3) (w_uids w3) (w_mod w1), w_mod w3, Raise x)
              | (w3, Ok _) => link_phases (mkW (w_heap w3) (w_uids w3) (w_mod w1)) (w_mod w3) r
              end
          end
      end
  end.

(** An outlet: whether it is a MaterialStream, and the model it is.  The streams
    of the library with one or several phases are not (unit_op_library.py lines
    14, 67 and 121). *)
Definition outlet := (bool * mstate)%type.

(** _totalizeOutlets, lines 244-288: nothing is done for several outlets.  Line
    284, which gives the outlet the package of the model, is not modelled. *)
Definition unit_outlets (k : option pack) (w : mworld) (outs : list outlet) : mworld * list outlet * res Datatypes.unit :=
  match outs with
  | [(true, o)] =>
      match incorporate (w_heap w) (w_mod w) o stream_flags with
      | (h, m, Raise x) => (mkW h (w_uids w) m, outs, Raise x)
      | (h, m, Ok _) =>
          match link_all (mkW h (w_uids w) m) o outlet_balances with
          | (w1, Raise x) => (w1, outs, Raise x)
          | (w1, Ok _) =>
              match k with
              | None => (w1, outs, Raise EAttribute)
              | Some k => let '(w2, o', r) := link_phases w1 o (k_names k) in (w2, [(true, o')], r)
              end
          end
      end
  | [(false, _)] => (w, outs, Raise EUnexpectedValue)
  | _ => (w, outs, Ok tt)
  end.

(** resolve, lines 290-314, without the printed warnings.  [ins]: _inlets, which
    __init__ does not set (line 32 misspells it): [None] before _setInlets, then
    line 298 raises AttributeError. *)
Definition unit_resolve (d : decls) (k : option pack) (ins : option (list mstate)) (outs : list outlet) (w : mworld)
  : mworld * list outlet * res Datatypes.unit :=
  match run_cmds w (d_cons d ++ d_pars d ++ d_vars d) with
  | (w1, Raise x) => (w1, outs, Raise x)
  | (w1, Ok _) =>
      match (match ins with
             | None => (w1, Raise EAttribute)
             | Some [] => (w1, Ok tt)
             | Some ss => unit_inlets w1 ss
             end) with
      | (w2, Raise x) => (w2, outs, Raise x)
      | (w2, Ok _) =>
          match unit_outlets k w2 outs with
          | (w3, outs', Raise x) => (w3, outs', Raise x)
          | (w3, outs', Ok _) => let '(w4, r) := run_cmds w3 (d_eqs d) in (w4, outs', r)
          end
      end
  end.
