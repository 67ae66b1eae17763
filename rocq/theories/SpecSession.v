(** Specification vocabulary: what a whole program says, read off its actions alone
    (C70 and later).  Quantities may be made and set anywhere, as in the
    constructors of the models. *)
From Verif Require Import Base Num UnitModel Sympy Node Build EquationModel ModelModel ProblemModel SpecExpr SpecModel SpecProblem SolverModel SpecSolver
  SpecSymbols SpecWritten SpecExact.
From Coq Require Import Reals.
Notation num := Verif.Num.num.

(** A model as read: its name, its declarations and what its attributes stand for. *)
Record view := mkView { vw_name : string; vw_decls : decls; vw_things : dict thing }.

Definition note_all (M : string) (D : dict thing) (cs : list cmd) : dict thing := fold_left (note M) cs D.
Definition restate (v : view) (D : dict thing) : view := mkView (vw_name v) (vw_decls v) D.
(** After a statement, after a call. *)
Definition told (c : cmd) (v : view) : view := restate v (note (vw_name v) (vw_things v) c).
Definition recalled (v : view) : view := restate v (note_all (vw_name v) (vw_things v) (script (vw_decls v))).

Fixpoint change_at {A} (f : A -> A) (i : nat) (l : list A) : list A :=
  match l, i with
  | [], _ => []
  | x :: r, O => f x :: r
  | x :: r, S i' => x :: change_at f i' r
  end.

(** Reading one action; [is]: the models of the problem.  What is incorporated is
    not read. *)
Definition read_act (vs : list view) (is : list nat) (a : act) : list view :=
  match a with
  | ANew n d => vs ++ [mkView n d []]
  | AStmt i c => change_at (told c) i vs
  | ACall i => change_at recalled i vs
  | AInc i _ _ => change_at (fun v => restate v []) i vs
  | AResolve => fold_left (fun vs i => change_at recalled i vs) is vs
  | _ => vs
  end.
Definition adds (acts : list act) : list nat := flat_map (fun a => match a with AAdd i => [i] | _ => [] end) acts.
(** [past]: the actions before. *)
Fixpoint read_acts (past : list act) (vs : list view) (acts : list act) : list view :=
  match acts with
  | [] => vs
  | a :: r => read_acts (past ++ [a]) (read_act vs (firsts (adds past)) a) r
  end.
Definition views (acts : list act) : list view := read_acts [] [] acts.

(** The equations the declarations of a model write, with what its attributes stand
    for now. *)
Definition view_writes (v : view) : list written := equations_written (vw_name v) (vw_things v) (script (vw_decls v)).
(** The declarations use attributes that hold quantities the program made on this
    model, and give their equations different names. *)
Definition view_legible (v : view) : Prop :=
  self_contained (vw_name v) (vw_things v) (script (vw_decls v)) = true /\ NoDup (map wr_name (view_writes v)).

(** The equation is written by a model of the problem. *)
Definition written_in (acts : list act) (v : view) (x : written) : Prop :=
  exists i, In i (added acts) /\ nth_error (views acts) i = Some v /\ In x (view_writes v).

(** All models of the problem can be read. *)
Definition readable_program (acts : list act) : Prop :=
  forall i v, In i (added acts) -> nth_error (views acts) i = Some v -> view_legible v.

(** No equations but those of the declarations and of connections between
    variables; names without the characters connections put between names. *)
Definition by_declaration (a : act) : bool :=
  match a with
  | AStmt _ (CEq _ _ _ _) | AInc _ _ _ | AConnN _ _ _ _ | AConn _ _ _ _ (Some _) => false
  | AStmt _ c => clean_cmd c
  | _ => clean_act a
  end.

(** The variables a connection joins had no value set. *)
Definition joins_unknowns (acts : list act) : Prop :=
  forall a1 m j outs ins a2 l q, acts = a1 ++ AConn m j outs ins None :: a2 -> In l (cv_list outs ++ cv_list ins) ->
    hget (pw_heap (fst (run_acts start_session a1))) l = Some q -> q_spec q = false.

(** A written equation of some model of the problem. *)
Definition program_writes (acts : list act) (x : written) : Prop := exists v, written_in acts v x.
(** The value of what was written: left minus right side, or inputs minus outputs
    of a connection. *)
Definition program_value (acts : list act) (en : env) (e : eqn) (y : option R) : Prop :=
  (exists x, program_writes acts x /\ says x e /\ y = wr_value x en) \/
  (exists j os is, In j (added acts) /\ connected acts j os is /\ y = Some (sum_named en is - sum_named en os)%R).

(** ** Setting a parameter of a problem *)
(** The full names of the quantities a statement of model [M] makes. *)
Definition makes (M : string) (c : cmd) : list string :=
  match c with CVar _ n _ _ _ _ | CPar _ n _ _ | CCon _ n _ _ => [(n ++ "_" ++ M)%string] | _ => [] end.
Definition statement_makes (cr : list (string * decls)) (a : act) : list string :=
  match a with
  | AStmt i c => match nth_error cr i with Some (M, _) => makes M c | None => [] end
  | _ => []
  end.
Definition declarations_make (cr : list (string * decls)) : list string :=
  flat_map (fun md => flat_map (makes (fst md)) (script (snd md))) cr.
(** One quantity of that name: one statement outside the declarations makes it,
    as in the constructor of a model; nothing is incorporated. *)
Definition made_once (acts : list act) (x : string) : Prop :=
  (forall i j f, ~ In (AInc i j f) acts) /\
  count_occ string_dec (flat_map (statement_makes (created acts)) acts) x = 1%nat /\
  ~ In x (declarations_make (created acts)).

(** The attribute stands for a number. *)
Definition valued (v : view) (a : string) (k : num) : view :=
  match dget a (vw_things v) with
  | Some t => restate v (dset a (mkThing (th_name t) k true) (vw_things v))
  | None => v
  end.

(** [setValue] of the quantity [l]: what [sim[name].setValue(k, u)] does once
    [sim[name]] gave [l]. *)
Definition set_at (s : session) (l : loc) (k : num) (u : option UnitModel.unit) : session * res Datatypes.unit :=
  let '(h, r) := heap_set_value (pw_heap (fst s)) l (SVNum k) u in
  ((mkPW h (pw_uids (fst s)) (pw_puids (fst s)) (pw_models (fst s)), snd s), r).
