(** Specification vocabulary: what programs say whose models incorporate other models
    (C82). *)
From Verif Require Import Base Num UnitModel Sympy Node Build EquationModel ModelModel ProblemModel SpecExpr SpecModel SpecProblem SolverModel SpecSolver
  SpecSymbols SpecTrace SpecWritten SpecLink SpecExact SpecSession SpecSaid.
From Coq Require Import Reals.
Notation num := Verif.Num.num.

(** The account of a model: its view, the quantities made in it (attribute, name,
    kind), and the equations it has, each under its place. *)
Record account := mkAccount { ac_view : view; ac_made : list (string * string * qkind); ac_says : list (place * written) }.
Notation ac_name v := (vw_name (ac_view v)).
Notation ac_things v := (vw_things (ac_view v)).

Definition place_dec : forall p q : place, {p = q} + {p <> q}.
Proof. decide equality; try apply string_dec; try apply list_eq_dec, string_dec; apply Nat.eq_dec. Defined.
(** An equation takes the place of an earlier one. *)
Definition file (p : place) (x : written) (L : list (place * written)) : list (place * written) :=
  (p, x) :: filter (fun py => if place_dec p (fst py) then false else true) L.

(** A statement; an equation may use attributes that hold known quantities. *)
Definition account_cmd (c : cmd) (v : account) : option account :=
  let vw := told c (ac_view v) in
  match c with
  | CVar a n _ _ _ _ => Some (mkAccount vw ((a, n, KVariable) :: ac_made v) (ac_says v))
  | CPar a n _ _ => Some (mkAccount vw ((a, n, KParameter) :: ac_made v) (ac_says v))
  | CCon a n _ _ => Some (mkAccount vw ((a, n, KConstant) :: ac_made v) (ac_says v))
  | CSet _ _ _ | CDist _ => Some (mkAccount vw (ac_made v) (ac_says v))
  | CEq _ n q _ => if eq_known (ac_things v) q && negb (String.eqb n "")
                   then Some (mkAccount vw (ac_made v) (file (PEq n) (read_eq (ac_things v) n q) (ac_says v)))
                   else None
  end.
Fixpoint account_cmds (cs : list cmd) (v : account) : option account :=
  match cs with
  | [] => Some v
  | c :: r => match account_cmd c v with Some v1 => account_cmds r v1 | None => None end
  end.
Definition account_call (v : account) : option account := account_cmds (script (vw_decls (ac_view v))) v.

(** ** Incorporation *)
Notation made_name x := (snd (fst x)).
Definition made_names (v : account) : list string := map (fun x => made_name x) (ac_made v).
(** What model [H] calls what model [M] calls [x]. *)
Definition called_in (M H : string) (names : list string) (x : string) : string :=
  match find (fun n => String.eqb x (n ++ "_" ++ M)) names with Some n => (n ++ "_" ++ H)%string | None => x end.
(** The equation with other names. *)
Definition moved (g : string -> string) (x : written) : written :=
  mkWritten (wr_name x) (fun en => wr_value x (pull g en))
            (option_map (fun fg : (env -> option R) * (env -> option R) => ((fun en => fst fg (pull g en)), (fun en => snd fg (pull g en)))) (wr_sides x)).

(** The quantities of the other model, with the values they have. *)
Definition adopt_things (H : string) (from : dict thing) (names : list string) (D : dict thing) : dict thing :=
  fold_left (fun D n => match dget n from with
                        | Some t => dset n (mkThing (n ++ "_" ++ H) (th_value t) (th_set t)) D
                        | None => D
                        end) names D.
(** Its equations; they are attributes too. *)
Definition adopt_equations (g : string -> string) (from : list (place * written)) (L : list (place * written)) : list (place * written) :=
  fold_right (fun px L => file (fst px) (moved g (snd px)) L) L from.
Definition forget_all (from : list (place * written)) (D : dict thing) : dict thing :=
  fold_right (fun px D => match fst px with PEq n => forget n D | _ => D end) D from.

(** Every quantity was made under the name of its attribute, which still holds it;
    no two of different kinds have the same name; no new name is an old one; the
    equations were not made by connections. *)
Definition can_donate (d : account) (H : string) : bool :=
  negb (String.eqb (ac_name d) "") &&
  forallb (fun x => String.eqb (fst (fst x)) (made_name x) && in_dict (ac_things d) (made_name x)) (ac_made d) &&
  forallb (fun x => forallb (fun y => negb (String.eqb (made_name x) (made_name y)) || qkind_eqb (snd x) (snd y)) (ac_made d)) (ac_made d) &&
  forallb (fun n => forallb (fun n' => negb (String.eqb (n ++ "_" ++ H) (n' ++ "_" ++ ac_name d))) (made_names d)) (made_names d) &&
  forallb (fun px => match fst px with PEq _ => true | _ => false end) (ac_says d).

(** What is taken over. *)
Definition takes (f : incflags) (k : qkind) : bool :=
  match k with KVariable => i_vars f | KParameter => i_pars f | KConstant => i_cons f | _ => false end.
Definition taken (f : incflags) (d : account) : list (string * string * qkind) := filter (fun x => takes f (snd x)) (ac_made d).
Definition account_inc (f : incflags) (d v : account) : option account :=
  if i_rewrite f && can_donate d (ac_name v) then
    let T := adopt_things (ac_name v) (ac_things d) (map (fun x => made_name x) (taken f d)) (ac_things v) in
    Some (mkAccount (restate (ac_view v) (if i_eqs f then forget_all (ac_says d) T else T))
                    (map (fun x => (made_name x, made_name x, snd x)) (taken f d) ++ ac_made v)
                    (if i_eqs f then adopt_equations (called_in (ac_name d) (ac_name v) (made_names d)) (ac_says d) (ac_says v) else ac_says v))
  else None.

(** ** Programs *)
Definition at_model (f : account -> option account) (i : nat) (vs : list account) : option (list account) :=
  match nth_error vs i with
  | Some v => match f v with Some v' => Some (change_at (fun _ => v') i vs) | None => None end
  | None => None
  end.
Definition add_equation_to (p : place) (x : written) (v : account) : option account :=
  Some (mkAccount (ac_view v) (ac_made v) (file p x (ac_says v))).
Fixpoint account_calls (is : list nat) (vs : list account) : option (list account) :=
  match is with
  | [] => Some vs
  | i :: r => match at_model account_call i vs with Some vs1 => account_calls r vs1 | None => None end
  end.
(** [past]: the actions before. *)
Definition account_act (past : list act) (vs : list account) (a : act) : option (list account) :=
  match a with
  | ANew n d => Some (vs ++ [mkAccount (mkView n d []) [] []])
  | AStmt i c => at_model (account_cmd c) i vs
  | ACall i => at_model account_call i vs
  | AInc i j f => match nth_error vs j with Some d => at_model (account_inc f d) i vs | None => None end
  | AConn _ _ _ _ _ | AConnN _ _ _ _ => match bring past a with Some (j, p, x) => at_model (add_equation_to p x) j vs | None => None end
  | AResolve => account_calls (firsts (adds past)) vs
  | _ => Some vs
  end.
Fixpoint account_acts (past : list act) (vs : list account) (acts : list act) : option (list account) :=
  match acts with
  | [] => Some vs
  | a :: r => match account_act past vs a with Some vs1 => account_acts (past ++ [a]) vs1 r | None => None end
  end.
Definition accounts (acts : list act) : option (list account) := account_acts [] [] acts.

(** The equations of the models of the problem, [vs] being the accounts. *)
Definition composed_says (acts : list act) (vs : list account) (x : written) : Prop :=
  exists i v p, In i (added acts) /\ nth_error vs i = Some v /\ In (p, x) (ac_says v).

(** Names without the characters that connections put between names; equations have
    names. *)
Definition neat_act (a : act) : bool := match a with AStmt _ c => clean_cmd c | _ => clean_act a end.
