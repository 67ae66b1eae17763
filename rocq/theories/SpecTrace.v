(** Specification vocabulary: where the equations of a problem come from (C78). *)
From Verif Require Import Base Num UnitModel Sympy Node Build EquationModel ModelModel ProblemModel SpecExpr SpecModel SpecInc SpecProblem.
From Coq Require Import Reals.
Notation num := Verif.Num.num.

(** [h] and [q]: an equation statement among [cs] is reached in a model of state [w];
    [h] holds the quantities at that moment and [q] is the equation with the
    attributes replaced by the quantities they hold. *)
Definition reaches (w : mworld) (cs : list cmd) (h : heap) (q : ueq loc) : Prop :=
  exists pre a n q0 check post w1,
    cs = pre ++ CEq a n q0 check :: post /\ run_cmds w pre = (w1, Ok tt) /\
    resolve_eq (attr_qty (w_mod w1)) q0 = Ok q /\ h = w_heap w1.

(** The statements of the four declaration methods of a model. *)
Definition method_statements (d : decls) : list cmd := d_cons d ++ d_pars d ++ d_vars d ++ d_eqs d.

(** Action [a] in state [s] writes equation [q] over the quantities [h] in model [i]. *)
Definition writes (s : session) (a : act) (i : nat) (h : heap) (q : ueq loc) : Prop :=
  let w := fst s in
  match a with
  | AStmt k c => k = i /\ exists m d, get_model w i = Some (m, d) /\ reaches (mkW (pw_heap w) (pw_uids w) m) [c] h q
  | ACall k => k = i /\ exists m d, get_model w i = Some (m, d) /\ reaches (mkW (pw_heap w) (pw_uids w) m) (method_statements d) h q
  | AConn _ k outs ins (Some q0) => k = i /\ h = pw_heap w /\ q = q0
  | AConn _ k outs ins None => k = i /\ h = pw_heap w /\ exists e, q = UResid e /\
      forall v, meaning h v e = arith BSub (sum_meaning h v (cv_list ins)) (sum_meaning h v (cv_list outs))
  | AConnN _ k out inp => k = i /\ h = pw_heap w /\ q = UResid (UBin BSub inp out)
  | AResolve => (* the models of the problem are called in turn *)
      exists done rest w1 m d, dvals (pr_models (snd s)) = done ++ i :: rest /\ reload w done = (w1, Ok tt) /\
        get_model w1 i = Some (m, d) /\ reaches (mkW (pw_heap w1) (pw_uids w1) m) (method_statements d) h q
  | _ => False
  end.

(** Names replaced one after the other. *)
Definition in_turn (new : string -> string) (ks : list string) (x : string) : string :=
  fold_left (fun y k => if String.eqb y k then new k else y) ks x.
(** What incorporating donor [dm] into model [host] does to names: every name of the
    donor is replaced once. *)
Definition carried (dm : mstate) (host : string) (g : string -> string) : Prop :=
  exists ks, NoDup ks /\ (forall k, In k ks <-> In k (declared dm)) /\ forall x, g x = in_turn (new_name dm host) ks x.

(** Equation [q] over [h], its names changed by [f], has come to model [i] during the
    actions [acts]. *)
Inductive arrives : list act -> nat -> heap -> ueq loc -> (string -> string) -> Prop :=
| arrives_written past a i h q :
    writes (run_acts start_session past) a i h q -> arrives (past ++ [a]) i h q (fun x => x)
| arrives_copied past i j fl m d dm dd h q f g :
    get_model (fst (run_acts start_session past)) i = Some (m, d) ->
    get_model (fst (run_acts start_session past)) j = Some (dm, dd) ->
    i_eqs fl = true -> arrives past j h q f -> carried dm (m_name m) g ->
    arrives (past ++ [AInc i j fl]) i h q (fun x => g (f x))
| arrives_stays past a i h q f : arrives past i h q f -> arrives (past ++ [a]) i h q f.

(** The values the quantities had under their names before [f]. *)
Definition pull (f : string -> string) (en : env) : env :=
  mkEnv (fun x => e_sym en (f x)) (fun x t => e_der en (f x) (f t)).

(** Equation [e] means what [q] means over [h], its names changed by [f]; an equality
    has its two sides. *)
Definition conveys (h : heap) (q : ueq loc) (f : string -> string) (e : eqn) : Prop :=
  (exists n, eq_expr e = Some n /\
     forall v en, env_for h v (pull f en) -> den (nd_sym n) en = residual_meaning h v q) /\
  match q with
  | UResid _ => eq_elementary e = false
  | UElem l r => eq_elementary e = true /\ exists a c, eq_elem e = Some (a, c) /\
      forall v en, env_for h v (pull f en) -> den (nd_sym a) en = meaning h v l /\ den (nd_sym c) en = meaning h v r
  | UElemN l k => eq_elementary e = true /\ exists a c, eq_elem e = Some (a, c) /\
      forall v en, env_for h v (pull f en) -> den (nd_sym a) en = meaning h v l /\ den (nd_sym c) en = num_value k
  end.

(** Later actions do not store an equation under the local name [n] in model [i]:
    no equation statement of that name or without one, no equations incorporated,
    no connection into it. *)
Definition leaves (i : nat) (n : string) (a : act) : Prop :=
  match a with
  | AStmt k c => k = i -> forall x n' q check, c = CEq x n' q check -> n' <> "" /\ n' <> n
  | AInc k _ f => k = i -> i_eqs f = false
  | AConn _ k _ _ _ | AConnN _ k _ _ => k <> i
  | _ => True
  end.
(** The declarations of a model do not either. *)
Definition declares_no (d : decls) (n : string) : Prop :=
  forall x n' q check, In (CEq x n' q check) (method_statements d) -> n' <> "" /\ n' <> n.

(** Equation [e'] says of the objects of model [host] what [e] says of those of [dm]. *)
Definition repeats (dm : mstate) (host : string) (e e' : eqn) : Prop :=
  eq_type e' = eq_type e /\ eq_elementary e' = eq_elementary e /\
  (exists n n', eq_expr e = Some n /\ eq_expr e' = Some n' /\
     forall en en', renamed_env dm host en en' -> den (nd_sym n') en' = den (nd_sym n) en) /\
  same_sides dm host e e'.
